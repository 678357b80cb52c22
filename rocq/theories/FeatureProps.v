(** Properties of the image geometry accessor: C56, C57. *)
Require Import Reals Lra Lia String List Bool.
Require Import Verif.Base Verif.TreSpec Verif.BuilderModel Verif.BuilderProofs Verif.ConfigModel Verif.ConfigProofs Verif.FeatureModel.
Import ListNotations.
Local Open Scope string_scope.

Definition present {A} (d : Dict A) (k : string) : Prop := In k (keys d).
Lemma has_key_spec {A} (d : Dict A) k : has_key d k = true <-> present d k.
Proof. unfold has_key, present. rewrite get_in. destruct (get d k) as [v|]; split; [intros _; exists v; reflexivity | reflexivity | discriminate | intros [v V]; discriminate]. Qed.
Lemma absent_get {A} (d : Dict A) k : ~ present d k <-> get d k = None.
Proof. unfold present. rewrite get_in. destruct (get d k) as [v|]; split; [intros H; exfalso; apply H; exists v; reflexivity | discriminate | reflexivity | intros _ [v V]; discriminate]. Qed.
Lemma has_key_false {A} (d : Dict A) k : has_key d k = false <-> ~ present d k.
Proof. rewrite <- has_key_spec. destruct (has_key d k); split; congruence. Qed.

(** A list of four or more values that starts with these numbers. *)
Definition starts_with_box (v : Json) (b : Box) : Prop :=
  let '(x0, y0, x1, y1) := b in exists rest, v = JArr (JNum x0 :: JNum y0 :: JNum x1 :: JNum y1 :: rest).

(** A detection property without pixel coordinates: a dictionary without that key, a list without
    that text, a text in which it does not occur. *)
Definition no_pixel_coordinates (v : Json) : Prop :=
  match v with
  | JObj d => ~ present d "pixelCoordinates"
  | JArr l => ~ In (JStr "pixelCoordinates") l
  | JStr s => ~ occurs "pixelCoordinates" s
  | _ => False
  end.
Definition scalar (v : Json) : Prop := match v with JNull | JBool _ | JNum _ => True | _ => False end.
Lemma py_in_spec v : scalar v /\ py_in "pixelCoordinates" v = Err TypeError \/
  ~ scalar v /\ no_pixel_coordinates v /\ py_in "pixelCoordinates" v = Ok false \/
  ~ scalar v /\ ~ no_pixel_coordinates v /\ py_in "pixelCoordinates" v = Ok true.
Proof.
  destruct v as [|b|x|s|l|d]; cbn [scalar py_in no_pixel_coordinates]; try (left; split; [exact I|reflexivity]); right.
  - destruct (contains "pixelCoordinates" s) eqn:E; [right; apply contains_occurs in E|left; apply contains_false in E]; auto.
  - destruct (existsb _ l) eqn:E; [right|left].
    + apply existsb_exists in E. destruct E as ([|b|x|s|m|d] & J & E); try discriminate. apply String.eqb_eq in E. subst s. auto.
    + split; [auto|]. split; [|reflexivity]. intros J. assert (F : existsb (fun x => match x with JStr s => String.eqb "pixelCoordinates" s | _ => false end) l = true)
        by (apply existsb_exists; eexists; split; [exact J|apply String.eqb_refl]). congruence.
  - destruct (has_key d "pixelCoordinates") eqn:E; [right; apply has_key_spec in E|left; apply has_key_false in E]; auto.
Qed.

Section Props.
Context {G : Type}.
Variable sh : Shapely G.
Notation find := (find_image_geometry sh).

(** ** C56: lookup *)
Theorem C56_priority : forall allow props,
  (forall v, get props "imageGeometry" = Some v -> find allow props = bind (shape sh v) (fun g => Ok (Some g)))
  /\ (~ present props "imageGeometry" ->
      (forall v b, get props "imageBBox" = Some v -> starts_with_box v b -> find allow props = Ok (Some (box sh b)))
      /\ (~ present props "imageBBox" ->
          find false props = Ok None
          /\ (forall v, get props "geom_imcoords" = Some v -> find true props = bind (polygon sh v) (fun g => Ok (Some g)))
          /\ (~ present props "geom_imcoords" ->
              (forall d t c, get props "detection" = Some (JObj d) -> get d "type" = Some t -> get d "pixelCoordinates" = Some c ->
                 find true props = bind (shape sh (JObj [("type", t); ("coordinates", c)])) (fun g => Ok (Some g)))
              /\ (~ present props "detection" \/ (exists d, get props "detection" = Some (JObj d) /\ ~ present d "pixelCoordinates") ->
                  (forall v b, get props "bounds_imcoords" = Some v -> starts_with_box v b -> find true props = Ok (Some (box sh b)))
                  /\ (~ present props "bounds_imcoords" -> find true props = Ok None))))).
Proof.
  assert (B : forall v b, starts_with_box v b -> box_of sh v = Ok (box sh b)). { intros v [[[x0 y0] x1] y1] [rest ->]. reflexivity. }
  intros allow props. unfold find_image_geometry. split; [intros v ->; reflexivity|].
  intros N1. apply absent_get in N1. rewrite N1. split; [intros v b -> S; rewrite (B v b S); reflexivity|].
  intros N2. apply absent_get in N2. rewrite N2. split; [reflexivity|]. split; [intros v ->; reflexivity|].
  intros N3. apply absent_get in N3. rewrite N3. split.
  - intros d t c D T C. rewrite D. cbn [py_in subscript]. unfold has_key. rewrite C, T. reflexivity.
  - intros N4.
    assert (E : match get props "detection" with Some d => py_in "pixelCoordinates" d | None => Ok false end = Ok false).
    { destruct N4 as [N4 | [d [D N4]]].
      - apply absent_get in N4. rewrite N4. reflexivity.
      - rewrite D. cbn [py_in]. apply has_key_false in N4. rewrite N4. reflexivity. }
    rewrite E. cbn [bind]. split; [intros v b -> S; rewrite (B v b S); reflexivity | intros N5; apply absent_get in N5; rewrite N5; reflexivity].
Qed.

(** The kinds of detection properties: without pixel coordinates the search goes on; a scalar, or a
    text or list that mentions them, stops it with TypeError, a dictionary without a type with
    KeyError. *)
Theorem C56_detection : forall props v,
  ~ present props "imageGeometry" -> ~ present props "imageBBox" -> ~ present props "geom_imcoords" -> get props "detection" = Some v ->
  (no_pixel_coordinates v ->
     (forall w b, get props "bounds_imcoords" = Some w -> starts_with_box w b -> find true props = Ok (Some (box sh b)))
     /\ (~ present props "bounds_imcoords" -> find true props = Ok None))
  /\ (scalar v -> find true props = Err TypeError)
  /\ (~ scalar v -> ~ no_pixel_coordinates v -> (forall d, v <> JObj d) -> find true props = Err TypeError)
  /\ (forall d, v = JObj d -> present d "pixelCoordinates" -> ~ present d "type" -> find true props = Err KeyError).
Proof.
  intros props v N1 N2 N3 D. apply absent_get in N1, N2, N3. unfold find_image_geometry. rewrite N1, N2, N3, D.
  destruct (py_in_spec v) as [(S & E)|[(S & U & E)|(S & U & E)]]; rewrite E; cbn [bind].
  - split; [intros U; destruct v; contradiction|]. split; [reflexivity|]. split; [contradiction|]. intros d ->. contradiction.
  - split; [|split; [contradiction|split; [contradiction|intros d -> P; contradiction]]]. split.
    + intros w [[[x0 y0] x1] y1] -> (rest & ->). reflexivity.
    + intros N. apply absent_get in N. now rewrite N.
  - split; [contradiction|]. split; [contradiction|]. split.
    + intros _ _ N. destruct v; try reflexivity. now destruct (N d).
    + intros d -> P T. cbn [subscript]. apply absent_get in T. now rewrite T.
Qed.

(** A malformed box: a short list is an IndexError, a dictionary a KeyError, anything else that is
    not a list a TypeError, and so is a list in which one of the first four values is no number. *)
Definition box_error (v : Json) (e : exn) : Prop :=
  match v with
  | JArr l => (List.length l < 4)%nat /\ e = IndexError
              \/ (4 <= List.length l)%nat /\ (exists i x, (i < 4)%nat /\ nth_error l i = Some x /\ forall r, x <> JNum r) /\ e = TypeError
  | JObj _ => e = KeyError
  | _ => e = TypeError
  end.
Theorem C56_malformed_box : forall allow props v e, ~ present props "imageGeometry" -> box_error v e ->
  (get props "imageBBox" = Some v -> find allow props = Err e /\ get_image_bbox sh props = Err e)
  /\ (~ present props "imageBBox" -> ~ present props "geom_imcoords" -> ~ present props "detection" ->
      get props "bounds_imcoords" = Some v -> find true props = Err e).
Proof.
  intros allow props v e N1 B. apply absent_get in N1.
  assert (X : box_of sh v = Err e).
  { unfold box_of. destruct v as [|b|x|s|l|d]; cbn [box_error] in B; try (subst e; reflexivity).
    destruct B as [[L ->]|(L & (i & x & I & E & N) & ->)].
    - destruct l as [|a [|b [|c [|d l]]]]; try reflexivity. cbn in L. lia.
    - destruct l as [|a [|b [|c [|d l]]]]; try (cbn in L; lia). cbn [item nth_error bind].
      destruct a; try reflexivity; destruct b; try reflexivity; destruct c; try reflexivity; destruct d; try reflexivity.
      exfalso. destruct i as [|[|[|[|i]]]]; cbn in E; try lia; injection E as <-; eapply N; reflexivity. }
  unfold find_image_geometry, get_image_bbox. rewrite N1. split.
  - intros ->. rewrite X. split; reflexivity.
  - intros N2 N3 N4 ->. apply absent_get in N2, N3, N4. rewrite N2, N3, N4. cbn [bind]. rewrite X. reflexivity.
Qed.

(** None means that nothing was there. *)
Theorem C56_none : forall allow props,
  find allow props = Ok None <->
  ~ present props "imageGeometry" /\ ~ present props "imageBBox"
  /\ (allow = true -> ~ present props "geom_imcoords" /\ ~ present props "bounds_imcoords"
        /\ forall d, get props "detection" = Some d -> no_pixel_coordinates d).
Proof.
  assert (U : forall d, py_in "pixelCoordinates" d = Ok false <-> no_pixel_coordinates d).
  { intros d. destruct (py_in_spec d) as [(S & E)|[(S & N & E)|(S & N & E)]]; rewrite E; (split; [intros H|intros H]); try discriminate; auto; [|contradiction].
    destruct d; contradiction. }
  assert (B : forall {A} (m : res A), bind m (fun g => Ok (Some g)) <> Ok None) by (intros A [a|e]; discriminate).
  intros allow props. rewrite !absent_get. unfold find_image_geometry.
  destruct (get props "imageGeometry") as [v|]; [split; [intros H; destruct (B _ _ H) | intros (H & _); discriminate]|].
  destruct (get props "imageBBox") as [v|]; [split; [intros H; destruct (B _ _ H) | intros (_ & H & _); discriminate]|].
  destruct allow; [|split; [intros _; repeat split; discriminate | reflexivity]].
  destruct (get props "geom_imcoords") as [v|]; [split; [intros H; destruct (B _ _ H) | intros (_ & _ & H); destruct (H eq_refl); discriminate]|].
  destruct (get props "detection") as [d|].
  - destruct (py_in "pixelCoordinates" d) as [[]|e] eqn:Q; cbn [bind].
    + split; [|intros (_ & _ & H); destruct (H eq_refl) as (_ & _ & H'); specialize (H' d eq_refl); apply U in H'; congruence].
      destruct (subscript d "type") as [t|]; [|discriminate]. cbn [bind]. destruct (subscript d "pixelCoordinates") as [c|]; [|discriminate]. cbn [bind]. intros H; destruct (B _ _ H).
    + destruct (get props "bounds_imcoords") as [v|].
      * split; [intros H; destruct (B _ _ H) | intros (_ & _ & H); destruct (H eq_refl) as (_ & H' & _); discriminate].
      * split; [intros _ | reflexivity]. split; [reflexivity|]. split; [reflexivity|]. intros _. split; [reflexivity|]. split; [reflexivity|]. intros d' E. injection E as <-. apply U. exact Q.
    + split; [discriminate|]. intros (_ & _ & H); destruct (H eq_refl) as (_ & _ & H'). specialize (H' d eq_refl). apply U in H'. congruence.
  - cbn [bind]. destruct (get props "bounds_imcoords") as [v|].
    + split; [intros H; destruct (B _ _ H) | intros (_ & _ & H); destruct (H eq_refl) as (_ & H' & _); discriminate].
    + split; [intros _ | reflexivity]. split; [reflexivity|]. split; [reflexivity|]. intros _. split; [reflexivity|]. split; [reflexivity|]. discriminate.
Qed.

Definition current_names : list string := ["imageGeometry"; "imageBBox"].
Definition deprecated_names : list string := ["geom_imcoords"; "detection"; "bounds_imcoords"].
Theorem C56_reads_only : forall allow p q,
  (forall k, In k current_names \/ (allow = true /\ In k deprecated_names) -> get p k = get q k) -> find allow p = find allow q.
Proof.
  intros allow p q H. unfold find_image_geometry.
  rewrite (H "imageGeometry") by (left; cbn; tauto). rewrite (H "imageBBox") by (left; cbn; tauto).
  destruct allow; [|reflexivity].
  rewrite (H "geom_imcoords"), (H "detection"), (H "bounds_imcoords") by (right; cbn; tauto). reflexivity.
Qed.

(** Setting, then finding. *)
Theorem C56_set_find : forall allow props g, shape sh (geojson sh g) = Ok g ->
  find allow (set_image_geometry sh props g) = Ok (Some g)
  /\ get_image_geometry sh (set_image_geometry sh props g) = Ok (Some g)
  /\ get_image_bbox sh (set_image_bbox sh props g) = Ok (Some (box sh (bounds sh g)))
  /\ (~ present props "imageGeometry" -> find allow (set_image_bbox sh props g) = Ok (Some (box sh (bounds sh g))))
  /\ (forall k, k <> "imageGeometry" -> get (set_image_geometry sh props g) k = get props k)
  /\ (forall k, k <> "imageBBox" -> get (set_image_bbox sh props g) k = get props k).
Proof.
  intros allow props g R. unfold set_image_geometry, set_image_bbox, find_image_geometry, get_image_geometry, get_image_bbox.
  assert (B : box_of sh (json_of_box (bounds sh g)) = Ok (box sh (bounds sh g))) by (destruct (bounds sh g) as [[[a b] c] d]; reflexivity).
  rewrite !get_put. rewrite !String.eqb_refl, R, B. cbn [bind]. repeat split.
  - intros N. apply absent_get in N. rewrite N. reflexivity.
  - intros k K. rewrite get_put. apply String.eqb_neq in K. rewrite K. reflexivity.
  - intros k K. rewrite get_put. apply String.eqb_neq in K. rewrite K. reflexivity.
Qed.

(** ** C57: updates *)
Notation update := (update_existing_image_geometries sh).
(** What each property becomes. *)
Inductive updated (allow : bool) (g : G) : string -> Json -> Json -> Prop :=
| upd_geometry v : updated allow g "imageGeometry" v (geojson sh g)
| upd_bbox v : updated allow g "imageBBox" v (json_of_box (bounds sh g))
| upd_ring v c ring : allow = true -> is_polygon sh g = true -> mapping_coordinates sh g = Ok c -> item c 0 = Ok ring -> updated allow g "geom_imcoords" v ring
| upd_coords v c : allow = true -> is_polygon sh g = false -> mapping_coordinates sh g = Ok c -> updated allow g "geom_imcoords" v c
| upd_detection d d' c : allow = true -> present d "pixelCoordinates" -> mapping_coordinates sh g = Ok c ->
    get d' "type" = Some (JStr (mapping_type sh g)) -> get d' "pixelCoordinates" = Some c ->
    (forall k, k <> "type" -> k <> "pixelCoordinates" -> get d' k = get d k) -> updated allow g "detection" (JObj d) (JObj d')
| upd_no_pixels v : allow = true -> py_in "pixelCoordinates" v = Ok false -> updated allow g "detection" v v
| upd_bounds v : allow = true -> updated allow g "bounds_imcoords" v (json_of_box (bounds sh g))
| upd_old k v : allow = false -> In k deprecated_names -> updated allow g k v v
| upd_other k v : ~ In k current_names -> ~ In k deprecated_names -> updated allow g k v v.

Lemma keys_put_present {A} (d : Dict A) k v : present d k -> keys (put d k v) = keys d.
Proof.
  induction d as [|[k' v'] r IH]; intros H; [destruct H|]. cbn [put]. destruct (String.eqb_spec k k') as [->|N]; [reflexivity|].
  cbn [keys List.map fst]. f_equal. apply IH. destruct H as [H|H]; [cbn in H; congruence | exact H].
Qed.

(** One step of the update: keys as before, at most property [k] changed. *)
Definition step (k : string) (p p' : Dict Json) : Prop := keys p' = keys p /\ forall k', k' <> k -> get p' k' = get p k'.
Lemma step_put k p v : present p k -> step k p (put p k v).
Proof. intros H. split; [apply keys_put_present, H|]. intros k' N. rewrite get_put. apply String.eqb_neq in N. rewrite N. reflexivity. Qed.
Lemma step_refl k p : step k p p.
Proof. split; [reflexivity|]. intros; reflexivity. Qed.
Lemma step_present k p p' k' : step k p p' -> present p' k' <-> present p k'.
Proof. intros [K _]. unfold present. rewrite K. reflexivity. Qed.

Lemma update_steps allow props g p' r : update allow props g = (p', r) ->
  exists p1 p2 p3 p4, step "imageGeometry" props p1 /\ step "imageBBox" p1 p2 /\ step "geom_imcoords" p2 p3 /\ step "detection" p3 p4 /\ step "bounds_imcoords" p4 p'
  /\ (present props "imageGeometry" -> get p1 "imageGeometry" = Some (geojson sh g)) /\ (~ present props "imageGeometry" -> p1 = props)
  /\ (present p1 "imageBBox" -> get p2 "imageBBox" = Some (json_of_box (bounds sh g))) /\ (~ present p1 "imageBBox" -> p2 = p1)
  /\ (allow = false -> p' = p2 /\ p3 = p2 /\ p4 = p2 /\ r = Ok tt)
  /\ (allow = true -> r = Ok tt -> update_geom_imcoords sh p2 g = Ok p3 /\ update_detection_property sh p3 g = (p4, Ok tt)
        /\ p' = if has_key p4 "bounds_imcoords" then put p4 "bounds_imcoords" (json_of_box (bounds sh g)) else p4).
Proof.
  unfold update_existing_image_geometries. intros E.
  set (p1 := if has_key props "imageGeometry" then set_image_geometry sh props g else props) in *.
  set (p2 := if has_key p1 "imageBBox" then set_image_bbox sh p1 g else p1) in *.
  assert (S1 : step "imageGeometry" props p1). { unfold p1. destruct (has_key props "imageGeometry") eqn:H; [apply step_put, has_key_spec, H | apply step_refl]. }
  assert (S2 : step "imageBBox" p1 p2). { unfold p2. destruct (has_key p1 "imageBBox") eqn:H; [apply step_put, has_key_spec, H | apply step_refl]. }
  assert (V1 : present props "imageGeometry" -> get p1 "imageGeometry" = Some (geojson sh g)).
  { intros H. apply has_key_spec in H. unfold p1. rewrite H. unfold set_image_geometry. rewrite get_put, String.eqb_refl. reflexivity. }
  assert (V1' : ~ present props "imageGeometry" -> p1 = props). { intros H. apply has_key_false in H. unfold p1. rewrite H. reflexivity. }
  assert (V2 : present p1 "imageBBox" -> get p2 "imageBBox" = Some (json_of_box (bounds sh g))).
  { intros H. apply has_key_spec in H. unfold p2. rewrite H. unfold set_image_bbox. rewrite get_put, String.eqb_refl. reflexivity. }
  assert (V2' : ~ present p1 "imageBBox" -> p2 = p1). { intros H. apply has_key_false in H. unfold p2. rewrite H. reflexivity. }
  destruct allow.
  2: { injection E as <- <-. exists p1, p2, p2, p2. do 2 (split; [assumption|]). do 3 (split; [apply step_refl|]). do 4 (split; [assumption|]). split; [intros _; repeat split|discriminate]. }
  destruct (update_geom_imcoords sh p2 g) as [p3|e] eqn:E3.
  2: { injection E as <- <-. exists p1, p2, p2, p2. do 2 (split; [assumption|]). do 3 (split; [apply step_refl|]). do 4 (split; [assumption|]). split; discriminate. }
  assert (S3 : step "geom_imcoords" p2 p3).
  { unfold update_geom_imcoords in E3. destruct (has_key p2 "geom_imcoords") eqn:H; [|injection E3 as <-; apply step_refl].
    apply has_key_spec in H. apply bind_ok in E3 as [c [_ E3]]. destruct (is_polygon sh g); [apply bind_ok in E3 as [ring [_ E3]]|]; injection E3 as <-; apply step_put, H. }
  destruct (update_detection_property sh p3 g) as [p4 r4] eqn:E4.
  assert (S4 : step "detection" p3 p4).
  { unfold update_detection_property in E4. destruct (get p3 "detection") as [d|] eqn:D; [|injection E4 as <- _; apply step_refl].
    destruct (py_in _ d) as [[]|]; [|injection E4 as <- _; apply step_refl|injection E4 as <- _; apply step_refl].
    destruct (update_detection sh d g) as [d' x]. injection E4 as <- _. apply step_put. unfold present. apply get_in. exists d; exact D. }
  destruct r4 as [[]|e]; injection E as <- <-.
  - exists p1, p2, p3, p4. do 4 (split; [assumption|]). split.
    { destruct (has_key p4 "bounds_imcoords") eqn:H; [apply step_put, has_key_spec, H | apply step_refl]. }
    do 4 (split; [assumption|]). split; [discriminate|]. intros _ _. split; [exact E3 | split; [exact E4 | reflexivity]].
  - exists p1, p2, p3, p4. do 4 (split; [assumption|]). split; [apply step_refl|]. do 4 (split; [assumption|]). split; discriminate.
Qed.

(** No property is added or removed and no unrelated property changes, even when the update fails. *)
Theorem C57_frame : forall allow props g p' r, update allow props g = (p', r) ->
  keys p' = keys props /\ (forall k, ~ In k current_names -> ~ In k deprecated_names -> get p' k = get props k)
  /\ (allow = false -> r = Ok tt /\ forall k, ~ In k current_names -> get p' k = get props k).
Proof.
  intros allow props g p' r E. destruct (update_steps _ _ _ _ _ E) as (p1 & p2 & p3 & p4 & [K1 F1] & [K2 F2] & [K3 F3] & [K4 F4] & [K5 F5] & _ & _ & _ & _ & Z & _).
  split; [congruence|]. split.
  - intros k A B. cbn in A, B. rewrite F5, F4, F3, F2, F1; try reflexivity; intros ->; intuition.
  - intros X. destruct (Z X) as (-> & _ & _ & R). split; [exact R|]. intros k A. cbn in A. rewrite F2, F1; try reflexivity; intros ->; intuition.
Qed.

(** A detection that is a text or a list mentioning the pixel coordinates is found but cannot be
    changed: TypeError. *)
Theorem C57_unchangeable_detection : forall props g v,
  ~ present props "geom_imcoords" -> get props "detection" = Some v -> ~ scalar v -> ~ no_pixel_coordinates v -> (forall d, v <> JObj d) ->
  exists p', update true props g = (p', Err TypeError) /\ get p' "detection" = Some v.
Proof.
  intros props g v N D S U O. unfold update_existing_image_geometries.
  set (p1 := if has_key props "imageGeometry" then set_image_geometry sh props g else props).
  set (p2 := if has_key p1 "imageBBox" then set_image_bbox sh p1 g else p1).
  assert (F : forall k, k <> "imageGeometry" -> k <> "imageBBox" -> get p2 k = get props k).
  { intros k A B. apply String.eqb_neq in A, B. unfold p2, p1, set_image_geometry, set_image_bbox.
    destruct (has_key props "imageGeometry"); [destruct (has_key (put _ _ _) _)|destruct (has_key _ _)]; rewrite ?get_put, ?A, ?B; reflexivity. }
  apply absent_get in N. rewrite <- (F "geom_imcoords") in N by discriminate. rewrite <- (F "detection") in D by discriminate.
  unfold update_geom_imcoords, has_key. rewrite N. unfold update_detection_property. rewrite D.
  destruct (py_in_spec v) as [(X & _)|[(_ & X & _)|(_ & _ & E)]]; try contradiction. rewrite E.
  assert (A : update_detection sh v g = (v, Err TypeError)) by (destruct v; try reflexivity; now destruct (O d)).
  rewrite A. eexists. split; [reflexivity|]. rewrite get_put, String.eqb_refl. reflexivity.
Qed.

(** A successful update gives every property present its new value. *)
Theorem C57_values : forall allow props g p', update allow props g = (p', Ok tt) ->
  forall k v, get props k = Some v -> exists v', get p' k = Some v' /\ updated allow g k v v'.
Proof.
  intros allow props g p' E k v V. destruct (update_steps _ _ _ _ _ E) as (p1 & p2 & p3 & p4 & S1 & S2 & S3 & S4 & S5 & V1 & N1 & V2 & N2 & Z & Y).
  assert (P : present props k) by (unfold present; apply get_in; exists v; exact V).
  pose proof S1 as [K1 F1]. pose proof S2 as [K2 F2]. pose proof S3 as [K3 F3]. pose proof S4 as [K4 F4]. pose proof S5 as [K5 F5].
  destruct (String.eqb_spec k "imageGeometry") as [->|D1].
  { exists (geojson sh g). split; [|constructor]. rewrite F5, F4, F3, F2 by discriminate. apply V1, P. }
  destruct (String.eqb_spec k "imageBBox") as [->|D2].
  { exists (json_of_box (bounds sh g)). split; [|constructor]. rewrite F5, F4, F3 by discriminate. apply V2. apply (step_present _ _ _ _ S1), P. }
  destruct allow.
  2: { destruct (Z eq_refl) as (-> & _ & _ & _). exists v. split; [rewrite F2, F1 by assumption; exact V|].
       destruct (in_dec string_dec k deprecated_names) as [I|I]; [apply upd_old; [reflexivity | exact I]|]. apply upd_other; [cbn; intuition | exact I]. }
  destruct (Y eq_refl eq_refl) as (Y1 & Y2 & Y3).
  assert (V2k : get p2 k = Some v) by (rewrite F2, F1 by assumption; exact V).
  destruct (String.eqb_spec k "geom_imcoords") as [->|D3].
  { assert (H : has_key p2 "geom_imcoords" = true) by (unfold has_key; rewrite V2k; reflexivity).
    unfold update_geom_imcoords in Y1. rewrite H in Y1. apply bind_ok in Y1 as [c [C Y1]].
    destruct (is_polygon sh g) eqn:Q; [apply bind_ok in Y1 as [ring [Ri Y1]]|]; injection Y1 as <-.
    - exists ring. split; [rewrite F5, F4 by discriminate; rewrite get_put, String.eqb_refl; reflexivity | eapply upd_ring; eauto].
    - exists c. split; [rewrite F5, F4 by discriminate; rewrite get_put, String.eqb_refl; reflexivity | eapply upd_coords; eauto]. }
  assert (V3k : get p3 k = Some v) by (rewrite F3 by assumption; exact V2k).
  destruct (String.eqb_spec k "detection") as [->|D4].
  { unfold update_detection_property in Y2. rewrite V3k in Y2. destruct (py_in "pixelCoordinates" v) as [[]|e] eqn:Q; [| |discriminate].
    - unfold update_detection in Y2. destruct v as [| | | | |d]; try (cbn in Y2; discriminate). cbn [assign] in Y2.
      destruct (mapping_coordinates sh g) as [c|e] eqn:C; [|discriminate]. injection Y2 as <-.
      eexists. split; [rewrite F5 by discriminate; rewrite get_put, String.eqb_refl; reflexivity|].
      eapply upd_detection; [reflexivity | cbn in Q; injection Q as Q; apply has_key_spec, Q | exact C | | |].
      + rewrite !get_put. reflexivity.
      + rewrite !get_put. reflexivity.
      + intros k A B. rewrite !get_put. apply String.eqb_neq in A, B. rewrite A, B. reflexivity.
    - injection Y2 as <-. exists v. split; [rewrite F5 by discriminate; exact V3k | apply upd_no_pixels; [reflexivity | exact Q]]. }
  assert (V4k : get p4 k = Some v) by (rewrite F4 by assumption; exact V3k).
  destruct (String.eqb_spec k "bounds_imcoords") as [->|D5].
  { assert (H : has_key p4 "bounds_imcoords" = true) by (unfold has_key; rewrite V4k; reflexivity). rewrite H in Y3. subst p'.
    eexists. split; [rewrite get_put, String.eqb_refl; reflexivity | apply upd_bounds; reflexivity]. }
  exists v. split; [rewrite F5 by assumption; exact V4k|]. apply upd_other; cbn; intuition.
Qed.

(** The new geometry is the one found afterwards. *)
Theorem C57_find : forall allow props g p', shape sh (geojson sh g) = Ok g -> update allow props g = (p', Ok tt) ->
  (present props "imageGeometry" -> find allow p' = Ok (Some g))
  /\ (~ present props "imageGeometry" -> present props "imageBBox" -> find allow p' = Ok (Some (box sh (bounds sh g)))).
Proof.
  intros allow props g p' R E. destruct (C57_frame _ _ _ _ _ E) as (K & _ & _). split.
  - intros P. pose proof P as P0. unfold present in P. apply get_in in P as [v V]. destruct (C57_values _ _ _ _ E _ _ V) as [v' [V' U]].
    unfold find_image_geometry. rewrite V'. inversion U; subst; try (exfalso; cbn in *; intuition; fail); try (cbn in *; intuition discriminate); rewrite R; reflexivity.
  - intros N P. unfold present in P. apply get_in in P as [v V]. destruct (C57_values _ _ _ _ E _ _ V) as [v' [V' U]].
    assert (N' : get p' "imageGeometry" = None) by (apply absent_get; unfold present; rewrite K; exact N).
    unfold find_image_geometry. rewrite N', V'. inversion U; subst; try (exfalso; cbn in *; intuition; fail); try (cbn in *; intuition discriminate).
    destruct (bounds sh g) as [[[a b] c] d]; reflexivity.
Qed.
End Props.

(** *** A toy shapely: geometries are points, boxes and (empty) collections *)
Inductive Toy := TPoint (x y : R) | TBox (b : Box) | TCollection.
Definition toy : Shapely Toy := mkShapely Toy
  (fun v => match v with
            | JObj [("type", JStr "Point"); ("coordinates", JArr [JNum x; JNum y])] => Ok (TPoint x y)
            | _ => Err ValueError end)
  (fun _ => Err ValueError)
  TBox
  (fun g => match g with TPoint x y => JObj [("type", JStr "Point"); ("coordinates", JArr [JNum x; JNum y])] | _ => JNull end)
  (fun g => match g with TPoint _ _ => "Point" | TBox _ => "Polygon" | TCollection => "GeometryCollection" end)
  (fun g => match g with TPoint x y => Ok (JArr [JNum x; JNum y]) | TBox _ => Ok (JArr [JArr []]) | TCollection => Err KeyError end)
  (fun g => match g with TBox _ => true | _ => false end)
  (fun g => match g with TPoint x y => (x, y, x, y) | TBox b => b | TCollection => (0, 0, 0, 0)%R end).
Example C56_non_vacuous : (forall x y, shape toy (geojson toy (TPoint x y)) = Ok (TPoint x y))
  /\ find_image_geometry toy true [("detection", JObj [("pixelCoordinates", JArr [JNum 3; JNum 4]); ("type", JStr "Point")]); ("bounds_imcoords", JNull)] = Ok (Some (TPoint 3 4))
  /\ find_image_geometry toy true [("a", JNull); ("bounds_imcoords", JArr [JNum 1; JNum 2; JNum 3; JNum 4])] = Ok (Some (TBox (1, 2, 3, 4)%R))
  /\ find_image_geometry toy false [("a", JNull); ("bounds_imcoords", JNull)] = Ok None.
Proof. repeat split. Qed.
Example C57_non_vacuous :
  update_existing_image_geometries toy true [("a", JNull); ("imageGeometry", JNull); ("detection", JObj [("pixelCoordinates", JNull); ("b", JNull)])] (TPoint 3 4)
  = ([("a", JNull); ("imageGeometry", geojson toy (TPoint 3 4));
      ("detection", JObj [("pixelCoordinates", JArr [JNum 3; JNum 4]); ("b", JNull); ("type", JStr "Point")])], Ok tt).
Proof. reflexivity. Qed.

Example C57_unchangeable_non_vacuous :
  update_existing_image_geometries toy true [("imageBBox", JNull); ("detection", JArr [JStr "pixelCoordinates"])] (TPoint 3 4)
  = ([("imageBBox", json_of_box (bounds toy (TPoint 3 4))); ("detection", JArr [JStr "pixelCoordinates"])], Err TypeError)
  /\ find_image_geometry toy false [("imageBBox", JArr [JNum 1; JNum 2; JStr "3"; JNum 4])] = Err TypeError.
Proof. split; reflexivity. Qed.

(** One detection property of each kind, as C56_detection distinguishes them, with bounds behind it. *)
Example C56_detection_cases :
  let bounds := ("bounds_imcoords", JArr [JNum 1; JNum 2; JNum 3; JNum 4; JNull]) in
  let found v := find_image_geometry toy true [("a", JNull); ("detection", v); bounds] in
  let next := Ok (Some (TBox (1, 2, 3, 4)%R)) in
  (no_pixel_coordinates (JObj [("type", JNull)]) /\ found (JObj [("type", JNull)]) = next) /\
  (no_pixel_coordinates (JArr [JStr "pixel"]) /\ found (JArr [JStr "pixel"]) = next) /\
  (py_in "pixelCoordinates" (JStr "pixels") = Ok false /\ found (JStr "pixels") = next) /\
  (scalar (JBool false) /\ found (JBool false) = Err TypeError) /\
  (~ no_pixel_coordinates (JStr "my pixelCoordinates") /\ found (JStr "my pixelCoordinates") = Err TypeError) /\
  found (JObj [("pixelCoordinates", JArr [JNum 3; JNum 4])]) = Err KeyError /\
  found (JObj [("type", JStr "Line"); ("pixelCoordinates", JNull)]) = Err ValueError.
Proof.
  cbv zeta. split; [split; [cbn; unfold present; cbn; intuition discriminate | reflexivity]|].
  split; [split; [cbn; intuition discriminate | reflexivity]|]. split; [split; reflexivity|]. split; [split; [exact I | reflexivity]|].
  split; [split; [|reflexivity]|split; reflexivity].
  intros H. apply H. exists "my ", "". reflexivity.
Qed.
(** One malformed box of each kind of C56_malformed_box, in both places. *)
Example C56_malformed_cases :
  Forall (fun ve => box_error (fst ve) (snd ve)
            /\ find_image_geometry toy false [("imageBBox", fst ve)] = Err (snd ve) /\ get_image_bbox toy [("imageBBox", fst ve)] = Err (snd ve)
            /\ find_image_geometry toy true [("bounds_imcoords", fst ve)] = Err (snd ve))
    [(JArr [JNum 1; JNum 2; JNum 3], IndexError); (JArr [JNum 1; JNum 2; JNum 3; JStr "4"], TypeError); (JObj [("0", JNum 1)], KeyError);
     (JNull, TypeError); (JNum 7, TypeError)].
Proof.
  repeat (apply Forall_cons; [split; [cbn; try reflexivity | repeat split]|]); [| |apply Forall_nil].
  - left. split; [lia | reflexivity].
  - right. split; [lia|]. split; [|reflexivity]. exists 3%nat, (JStr "4"). split; [lia|]. split; [reflexivity | discriminate].
Qed.
(** Two features that agree only on the names read (C56_reads_only), and an update and a later search
    for both places of C57_find. *)
Example C57_find_cases :
  find_image_geometry toy true [("x", JNull); ("imageBBox", JArr [JNum 1; JNum 2; JNum 3; JNum 4])]
    = find_image_geometry toy true [("imageBBox", JArr [JNum 1; JNum 2; JNum 3; JNum 4]); ("y", JNum 5)] /\
  (let p := fst (update_existing_image_geometries toy true [("imageBBox", JNull); ("imageGeometry", JNull); ("bounds_imcoords", JNull)] (TPoint 3 4)) in
   snd (update_existing_image_geometries toy true [("imageBBox", JNull); ("imageGeometry", JNull); ("bounds_imcoords", JNull)] (TPoint 3 4)) = Ok tt /\
   find_image_geometry toy true p = Ok (Some (TPoint 3 4)) /\ get_image_bbox toy p = Ok (Some (TBox (3, 4, 3, 4)%R))) /\
  (let p := fst (update_existing_image_geometries toy false [("imageBBox", JNull); ("bounds_imcoords", JNull)] (TPoint 3 4)) in
   find_image_geometry toy false p = Ok (Some (TBox (3, 4, 3, 4)%R)) /\ get p "bounds_imcoords" = Some JNull).
Proof. repeat split. Qed.
(** A box as the new geometry: the ring property gets its outer ring. *)
Example C57_ring_case :
  update_existing_image_geometries toy true [("geom_imcoords", JNull); ("bounds_imcoords", JNull)] (TBox (1, 2, 3, 4)%R)
  = ([("geom_imcoords", JArr []); ("bounds_imcoords", JArr [JNum 1; JNum 2; JNum 3; JNum 4])], Ok tt).
Proof. reflexivity. Qed.

(** A detection property that is a number stops the search with TypeError although a later property
    has the geometry. *)
Theorem C56_scalar_detection_refuted :
  ~ (forall props v b, ~ present props "imageGeometry" -> ~ present props "imageBBox" -> ~ present props "geom_imcoords" ->
       (forall d, get props "detection" <> Some (JObj d)) -> get props "bounds_imcoords" = Some v -> starts_with_box v b ->
       find_image_geometry toy true props = Ok (Some (box toy b))).
Proof.
  intros H. specialize (H [("detection", JNum 1); ("bounds_imcoords", JArr [JNum 1; JNum 2; JNum 3; JNum 4])] (JArr [JNum 1; JNum 2; JNum 3; JNum 4]) (1, 2, 3, 4)%R).
  cbn in H. unfold present in H. cbn in H. assert (X : Err TypeError = Ok (Some (TBox (1, 2, 3, 4)%R))); [|discriminate].
  apply H; try (intuition discriminate). exists []; reflexivity.
Qed.
(** An update that fails leaves some properties changed and others not. *)
Theorem C57_all_or_nothing_refuted :
  ~ (forall props g p' e, update_existing_image_geometries toy true props g = (p', Err e) -> p' = props).
Proof.
  intros H. specialize (H [("imageGeometry", JBool true); ("geom_imcoords", JBool true)] TCollection _ _ eq_refl). discriminate.
Qed.
(** For a geometry that is not a polygon the deprecated ring property no longer holds a ring. *)
Theorem C57_ring_refuted :
  ~ (forall props g p' v, update_existing_image_geometries toy true props g = (p', Ok tt) -> get p' "geom_imcoords" = Some v -> exists l, v = JArr (List.map JArr l)).
Proof.
  intros H. destruct (H [("geom_imcoords", JNull)] (TPoint 3 4) _ (JArr [JNum 3; JNum 4]) eq_refl eq_refl) as [[|a l] E]; discriminate.
Qed.

Print Assumptions C56_priority.
Print Assumptions C56_detection.
Print Assumptions C56_malformed_box.
Print Assumptions C56_none.
Print Assumptions C56_reads_only.
Print Assumptions C56_set_find.
Print Assumptions C57_frame.
Print Assumptions C57_unchangeable_detection.
Print Assumptions C57_values.
Print Assumptions C57_find.
Print Assumptions C56_scalar_detection_refuted.
Print Assumptions C57_all_or_nothing_refuted.
Print Assumptions C57_ring_refuted.

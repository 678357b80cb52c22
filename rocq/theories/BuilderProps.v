(** Properties of the sensor model builders and the factory: C50, C51, C52, C71, C72, C73. *)
Require Import ZArith Reals String Ascii List Bool Lia Lra.
Require Import Verif.Base Verif.Vec Verif.SensorBase Verif.RpcModel Verif.RsmModel Verif.TransformModel Verif.TransformSpec.
Require Import Verif.TransformProofs Verif.TransformProps.
Require Import Verif.TreModel Verif.TreSpec Verif.TreProofs Verif.TreProps Verif.BuilderModel Verif.BuilderSpec Verif.BuilderProofs.
Import ListNotations.
Local Open Scope string_scope.

Ltac steps H :=
  repeat match type of H with bind _ _ = Ok _ => apply bind_ok in H; let E := fresh "E" in destruct H as [? [E H]] end.

(** ** C71: RPC models from RPC00B *)

(** Every parameter of the model is the field of the TRE it stands for. *)
Definition rpc_says (cv : Conv) (tre : Element) (m : RPC) : Prop :=
  (exists b, number_field cv tre "ERR_BIAS" b) /\ (exists r, number_field cv tre "ERR_RAND" r)
  /\ number_field cv tre "LINE_OFF" (line_off m) /\ number_field cv tre "SAMP_OFF" (samp_off m)
  /\ number_field cv tre "LAT_OFF" (lat_off m) /\ number_field cv tre "LONG_OFF" (long_off m)
  /\ number_field cv tre "HEIGHT_OFF" (height_off m)
  /\ number_field cv tre "LINE_SCALE" (line_scale m) /\ number_field cv tre "SAMP_SCALE" (samp_scale m)
  /\ number_field cv tre "LAT_SCALE" (lat_scale m) /\ number_field cv tre "LONG_SCALE" (long_scale m)
  /\ number_field cv tre "HEIGHT_SCALE" (height_scale m)
  /\ parse_rpc_coefficients cv tre "LINE_NUM_COEFF" = Ok (line_num_poly m)
  /\ parse_rpc_coefficients cv tre "LINE_DEN_COEFF" = Ok (line_den_poly m)
  /\ parse_rpc_coefficients cv tre "SAMP_NUM_COEFF" = Ok (samp_num_poly m)
  /\ parse_rpc_coefficients cv tre "SAMP_DEN_COEFF" = Ok (samp_den_poly m).

Theorem C71_model : forall cv caught tres m,
  rpc_build cv caught tres = Ok (Some m) <->
  exists tre, first_named tres "tre" "RPC00B" tre /\ integer_field cv tre "SUCCESS" 1 /\ rpc_says cv tre m.
Proof.
  intros cv caught tres m. split.
  - unfold rpc_build. destruct (find_named tres "tre" "RPC00B") as [tre|] eqn:F; [|discriminate]. intros H.
    exists tre. apply find_named_spec in F. split; [exact F|].
    destruct (bind (int_field cv tre "SUCCESS") _) as [o|e] eqn:B; [|destruct e; cbn in H; try discriminate; destruct caught; discriminate].
    cbn in H. injection H as ->. apply bind_ok in B. destruct B as [z [S B]].
    destruct (Z.eqb_spec z 1) as [-> | N]; [|discriminate]. apply int_ok in S. split; [exact S|].
    apply bind_ok in B. destruct B as [m' [B Q]]. injection Q as ->.
    unfold build_rpc_sensor_model in B. steps B. injection B as <-. unfold rpc_says. cbn.
    rewrite <- !float_ok. split; [eexists; apply float_ok; eassumption|]. split; [eexists; apply float_ok; eassumption|].
    repeat split; assumption.
  - intros [tre [F [S [[b Hb] [[r Hr] T]]]]]. apply find_named_spec in F. unfold rpc_build. rewrite F.
    apply int_ok in S. rewrite S. cbn [bind Z.eqb Pos.eqb]. rewrite <- !float_ok in T. apply float_ok in Hb. apply float_ok in Hr.
    unfold build_rpc_sensor_model.
    destruct T as [T1 [T2 [T3 [T4 [T5 [T6 [T7 [T8 [T9 [T10 [T11 [T12 [T13 T14]]]]]]]]]]]]].
    rewrite Hb, Hr, T1, T2, T3, T4, T5, T6, T7, T8, T9, T10, T11, T12, T13, T14. destruct m; reflexivity.
Qed.

Lemma raises_rpc (P : exn -> Prop) cv tre : P ValueError -> P IndexError -> raises P (build_rpc_sensor_model cv tre).
Proof.
  intros V I. unfold build_rpc_sensor_model.
  repeat (apply raises_bind; [first [apply raises_field; exact V | apply raises_coefficients; assumption] | intros ?]).
  apply raises_ok.
Qed.

(** Otherwise there is no model, and the only exception that gets out is the IndexError of a
    malformed coefficient list (C49). *)
Theorem C71_no_model : forall cv caught tres,
  (exists o, rpc_build cv caught tres = Ok o) \/ rpc_build cv caught tres = Err IndexError.
Proof.
  intros cv caught tres. unfold rpc_build. destruct (find_named tres "tre" "RPC00B") as [tre|]; [|left; eexists; reflexivity].
  set (b := bind _ _).
  assert (Rb : raises (fun e => e = ValueError \/ e = IndexError) b).
  { apply raises_bind; [apply raises_field; tauto|]. intros z. destruct (Z.eqb z 1); [|apply raises_ok].
    apply raises_bind; [apply raises_rpc; tauto | intros m; apply raises_ok]. }
  destruct b as [o|e]; [left; eexists; reflexivity|].
  destruct (Rb e eq_refl) as [-> | ->]; [left; eexists; reflexivity | right; reflexivity].
Qed.

(** ** C50: RSM models from RSMIDA, RSMPCA and RSMPIA *)

Definition polynomial_says (cv : Conv) (tre : Element) (prefix : string) (p : Poly) : Prop :=
  integer_field cv tre (prefix ++ "PWRX") (Z.of_nat (max_x p))
  /\ integer_field cv tre (prefix ++ "PWRY") (Z.of_nat (max_y p))
  /\ integer_field cv tre (prefix ++ "PWRZ") (Z.of_nat (max_z p))
  /\ parse_rpc_coefficients cv tre (prefix ++ "PCF") = Ok (coefs p)
  /\ List.length (coefs p) = ((max_x p + 1) * (max_y p + 1) * (max_z p + 1))%nat.
Definition section_says (cv : Conv) (ground : GroundDomain) (tre : Element) (m : SectionModel) : Prop :=
  let p := section_poly m in
  rp_domain p = ground
  /\ integer_field cv tre "RSN" (section_row m) /\ integer_field cv tre "CSN" (section_col m)
  /\ number_field cv tre "RNRMO" (row_off p) /\ number_field cv tre "CNRMO" (column_off p)
  /\ number_field cv tre "XNRMO" (x_off p) /\ number_field cv tre "YNRMO" (y_off p) /\ number_field cv tre "ZNRMO" (z_off p)
  /\ number_field cv tre "RNRMSF" (row_scale p) /\ number_field cv tre "CNRMSF" (column_scale p)
  /\ number_field cv tre "XNRMSF" (x_scale p) /\ number_field cv tre "YNRMSF" (y_scale p) /\ number_field cv tre "ZNRMSF" (z_scale p)
  /\ polynomial_says cv tre "RN" (row_num p) /\ polynomial_says cv tre "RD" (row_den p)
  /\ polynomial_says cv tre "CN" (column_num p) /\ polynomial_says cv tre "CD" (column_den p).

Lemma power_ok cv tre n k : power_field cv tre n = Ok k <-> integer_field cv tre n (Z.of_nat k).
Proof.
  unfold power_field. rewrite <- int_ok. split.
  - intros H. apply bind_ok in H. destruct H as [z [E H]]. destruct (Z.ltb_spec z 0); [discriminate|].
    injection H as <-. rewrite Z2Nat.id by assumption. exact E.
  - intros H. rewrite H. cbn [bind]. destruct (Z.ltb_spec (Z.of_nat k) 0); [lia|]. rewrite Nat2Z.id. reflexivity.
Qed.
Lemma polynomial_ok cv tre prefix p : build_rsm_polynomial cv tre prefix = Ok p <-> polynomial_says cv tre prefix p.
Proof.
  unfold build_rsm_polynomial, polynomial_says. split.
  - intros H. steps H. unfold make_poly in H. destruct (Nat.eqb_spec (List.length x2) ((x + 1) * (x0 + 1) * (x1 + 1))) as [L|]; [|discriminate].
    injection H as <-. cbn [max_x max_y max_z coefs]. rewrite <- !power_ok. repeat split; assumption.
  - intros [A [B [C [D L]]]]. rewrite <- power_ok in A, B, C. rewrite A, B, C, D. cbn [bind]. unfold make_poly.
    rewrite L, Nat.eqb_refl. destruct p; reflexivity.
Qed.
Theorem C50_section_fields : forall cv ground tre m,
  build_rsm_polynomial_sensor_model cv ground tre = Ok m <-> section_says cv ground tre m.
Proof.
  intros cv ground tre m. unfold build_rsm_polynomial_sensor_model, section_says. split.
  - intros H. steps H. injection H as <-. cbn. rewrite <- !float_ok, <- !int_ok, <- !polynomial_ok. repeat split; assumption.
  - cbv zeta. rewrite <- !float_ok, <- !int_ok, <- !polynomial_ok.
    intros [D [T1 [T2 [T3 [T4 [T5 [T6 [T7 [T8 [T9 [T10 [T11 [T12 [T13 [T14 [T15 T16]]]]]]]]]]]]]]]].
    rewrite T1, T2, T3, T4, T5, T6, T7, T8, T9, T10, T11, T12, T13, T14, T15, T16. cbn [bind].
    destruct m as [r c [dom]]. cbn in *. subst. reflexivity.
Qed.

(** The low order polynomials choose a section. *)
Definition low_order_says (cv : Conv) (tre : Element) (prefix : string) (l : list R) : Prop :=
  Forall2 (fun suffix x => number_field cv tre (prefix ++ suffix) x) ["0"; "X"; "Y"; "Z"; "XX"; "XY"; "XZ"; "YY"; "YZ"; "ZZ"] l.
Lemma low_order_ok cv tre prefix l : build_loworder cv tre prefix = Ok l <-> low_order_says cv tre prefix l.
Proof.
  assert (Q : forall names l, Forall2 (fun suffix x => float_field cv tre (prefix ++ suffix) = Ok x) names l <->
                        Forall2 (fun suffix x => number_field cv tre (prefix ++ suffix) x) names l).
  { intros names k. split; intros F; induction F; constructor; try (apply float_ok; assumption); assumption. }
  unfold build_loworder, low_order_says. rewrite <- Q, <- map_res_ok. split.
  - intros H. apply bind_ok in H. destruct H as [c [E H]]. unfold make_low_order in H.
    destruct (Nat.eqb _ _); [injection H as <-; exact E | discriminate].
  - intros H. rewrite H. cbn [bind]. unfold make_low_order. apply map_res_ok in H. apply forall2_len in H. cbn in H. rewrite <- H. reflexivity.
Qed.

(** The grid holds, for each row and column up to the numbers of RSMPIA, the polynomial of the last
    RSMPCA of that section. *)
Theorem C50_sections : forall cv to_geodetic caught tres s,
  rsm_build cv to_geodetic caught tres = Ok (Some (SectionedPolynomials s)) ->
  exists rsmid rsmpi models,
  first_named tres "tre" "RSMIDA" rsmid /\ first_named tres "tre" "RSMPIA" rsmpi
  /\ build_rsm_context cv to_geodetic rsmid = Ok (ss_ground s, ss_image s)
  /\ Forall2 (section_says cv (ss_ground s)) (findall_named tres "tre" "RSMPCA") models
  /\ (2 <= List.length models)%nat
  /\ integer_field cv rsmpi "RNIS" (ss_rows s) /\ integer_field cv rsmpi "CNIS" (ss_cols s)
  /\ number_field cv rsmpi "RSSIZ" (ss_row_size s) /\ number_field cv rsmpi "CSSIZ" (ss_col_size s)
  /\ low_order_says cv rsmpi "R" (ss_row_poly s) /\ low_order_says cv rsmpi "C" (ss_col_poly s)
  /\ List.length (ss_grid s) = Z.to_nat (ss_rows s)
  /\ forall r c, (1 <= r <= ss_rows s)%Z -> (1 <= c <= ss_cols s)%Z ->
       exists row m, nth_error (ss_grid s) (Z.to_nat (r - 1)) = Some row
       /\ List.length row = Z.to_nat (ss_cols s)
       /\ nth_error row (Z.to_nat (c - 1)) = Some (section_poly m)
       /\ last_with (fun m => section_row m = r /\ section_col m = c) models m.
Proof.
  intros cv to_geodetic caught tres s. unfold rsm_build.
  destruct (find_named tres "tre" "RSMIDA") as [rsmid|] eqn:F; [|discriminate]. intros H.
  assert (G : exists context models,
    build_rsm_context cv to_geodetic rsmid = Ok context
    /\ map_res (build_rsm_polynomial_sensor_model cv (fst context)) (findall_named tres "tre" "RSMPCA") = Ok models
    /\ (2 <= List.length models)%nat
    /\ exists rsmpi, find_named tres "tre" "RSMPIA" = Some rsmpi /\ build_rsm_sections cv rsmpi context models = Ok s).
  { destruct (bind (build_rsm_context cv to_geodetic rsmid) _) as [o|e] eqn:B;
      [|destruct e; cbn in H; try discriminate; destruct caught; discriminate].
    cbn in H. injection H as ->. apply bind_ok in B. destruct B as [context [C B]]. apply bind_ok in B. destruct B as [models [Ms B]].
    exists context, models. split; [exact C|]. split; [exact Ms|]. destruct models as [|m1 [|m2 ms]]; [discriminate | discriminate|].
    split; [cbn; lia|]. destruct (find_named tres "tre" "RSMPIA") as [rsmpi|]; [|discriminate].
    exists rsmpi. split; [reflexivity|]. apply bind_ok in B. destruct B as [s' [B Q]]. injection Q as ->. exact B. }
  destruct G as [context [models [C [Ms [L [rsmpi [Fp B]]]]]]]. unfold build_rsm_sections in B. steps B.
  injection B as <-. cbn [ss_ground ss_image ss_rows ss_cols ss_row_size ss_col_size ss_row_poly ss_col_poly ss_grid].
  exists rsmid, rsmpi, models. apply find_named_spec in F. apply find_named_spec in Fp.
  split; [exact F|]. split; [exact Fp|]. split; [rewrite C; destruct context; reflexivity|].
  split.
  { apply map_res_ok in Ms. clear - Ms. induction Ms; constructor; [apply C50_section_fields; assumption | assumption]. }
  split; [exact L|]. split; [apply int_ok; eassumption|]. split; [apply int_ok; eassumption|].
  split; [apply float_ok; eassumption|]. split; [apply float_ok; eassumption|].
  split; [apply low_order_ok; eassumption|]. split; [apply low_order_ok; eassumption|].
  match goal with E : map_res _ (one_to _) = Ok _ |- _ => rename E into Grid end.
  apply map_res_ok in Grid. pose proof (forall2_len _ _ _ Grid) as LG. unfold one_to in LG. rewrite map_length, seq_length in LG.
  split; [symmetry; exact LG|]. intros r c Hr Hc.
  destruct (forall2_nth _ _ _ Grid (Z.to_nat (r - 1)) r) as [row [Nr Er]].
  { rewrite one_to_nth by lia. f_equal. lia. }
  apply map_res_ok in Er. pose proof (forall2_len _ _ _ Er) as LR. unfold one_to in LR. rewrite map_length, seq_length in LR.
  destruct (forall2_nth _ _ _ Er (Z.to_nat (c - 1)) c) as [p [Nc Ec]].
  { rewrite one_to_nth by lia. f_equal. lia. }
  apply grid_lookup_ok in Ec. destruct Ec as [m [Lm <-]]. exists row, m. split; [exact Nr|]. split; [symmetry; exact LR|].
  split; [exact Nc | exact Lm].
Qed.

(** One RSMPCA gives a single polynomial, none or several without RSMPIA give no model. *)
Theorem C50_cases : forall cv to_geodetic caught tres,
  ((forall x, In x (children_of tres) -> ~ is_named "tre" "RSMIDA" x) -> rsm_build cv to_geodetic caught tres = Ok None)
  /\ forall rsmid ground image models, first_named tres "tre" "RSMIDA" rsmid ->
     build_rsm_context cv to_geodetic rsmid = Ok (ground, image) ->
     Forall2 (section_says cv ground) (findall_named tres "tre" "RSMPCA") models ->
     (models = [] -> rsm_build cv to_geodetic caught tres = Ok None)
     /\ (forall m, models = [m] -> rsm_build cv to_geodetic caught tres = Ok (Some (OnePolynomial (section_poly m))))
     /\ ((2 <= List.length models)%nat -> (forall x, In x (children_of tres) -> ~ is_named "tre" "RSMPIA" x) ->
           rsm_build cv to_geodetic caught tres = Ok None).
Proof.
  intros cv to_geodetic caught tres. split.
  - intros H. apply find_named_none in H. unfold rsm_build. rewrite H. reflexivity.
  - intros rsmid ground image models F C Ms. apply find_named_spec in F.
    assert (M : map_res (build_rsm_polynomial_sensor_model cv ground) (findall_named tres "tre" "RSMPCA") = Ok models).
    { apply map_res_ok. clear - Ms. induction Ms; constructor; [apply C50_section_fields; assumption | assumption]. }
    unfold rsm_build. rewrite F, C. cbn [bind fst]. rewrite M. cbn [bind]. split; [|split].
    + intros ->. reflexivity.
    + intros m ->. reflexivity.
    + intros L N. apply find_named_none in N. destruct models as [|m1 [|m2 ms]]; [cbn in L; lia | cbn in L; lia|]. rewrite N. reflexivity.
Qed.

(** A missing section is a KeyError that gets out of the builder, although a sensor model that
    cannot be built is documented to give None. *)
Theorem C50_missing_section_refuted : forall cv to_geodetic caught tres rsmid rsmpi ground image models rows cols r c,
  first_named tres "tre" "RSMIDA" rsmid -> build_rsm_context cv to_geodetic rsmid = Ok (ground, image) ->
  Forall2 (section_says cv ground) (findall_named tres "tre" "RSMPCA") models -> (2 <= List.length models)%nat ->
  first_named tres "tre" "RSMPIA" rsmpi -> integer_field cv rsmpi "RNIS" rows -> integer_field cv rsmpi "CNIS" cols ->
  (1 <= r <= rows)%Z -> (1 <= c <= cols)%Z -> (forall m, In m models -> ~ (section_row m = r /\ section_col m = c)) ->
  rsm_build cv to_geodetic caught tres = Err KeyError.
Proof.
  intros cv to_geodetic caught tres rsmid rsmpi ground image models rows cols r c F C Ms L Fp Rn Cn Hr Hc N.
  apply find_named_spec in F. apply find_named_spec in Fp. apply int_ok in Rn. apply int_ok in Cn.
  assert (M : map_res (build_rsm_polynomial_sensor_model cv ground) (findall_named tres "tre" "RSMPCA") = Ok models).
  { apply map_res_ok. clear - Ms. induction Ms; constructor; [apply C50_section_fields; assumption | assumption]. }
  assert (S : build_rsm_sections cv rsmpi (ground, image) models = Err KeyError).
  { unfold build_rsm_sections. rewrite Rn. cbn [bind]. rewrite Cn. cbn [bind].
    destruct (map_res _ (one_to rows)) as [grid|e] eqn:G.
    - exfalso. apply map_res_ok in G. destruct (forall2_nth _ _ _ G (Z.to_nat (r - 1)) r) as [row [_ Er]].
      { rewrite one_to_nth by lia. f_equal. lia. }
      apply map_res_ok in Er. destruct (forall2_nth _ _ _ Er (Z.to_nat (c - 1)) c) as [p [_ Ec]].
      { rewrite one_to_nth by lia. f_equal. lia. }
      apply grid_lookup_ok in Ec. destruct Ec as [m [[a [b [E [Q _]]]] _]]. apply (N m); [|exact Q].
      rewrite E. apply in_or_app. right. left. reflexivity.
    - assert (K : raises (fun e => e = KeyError)
                    (map_res (fun r => map_res (fun c => grid_lookup models r c) (one_to cols)) (one_to rows))).
      { apply raises_map_res. intros r' _. apply raises_map_res. intros c' _ e' E'. unfold grid_lookup in E'.
        destruct (List.find _ _); [discriminate | injection E' as <-; reflexivity]. }
      cbn [bind]. f_equal. apply K. exact G. }
  unfold rsm_build. rewrite F, C. cbn [bind fst]. rewrite M. cbn [bind].
  destruct models as [|m1 [|m2 ms]]; [cbn in L; lia | cbn in L; lia|]. rewrite Fp, S. reflexivity.
Qed.

Lemma raises_vec (P : exn -> Prop) cv e x y z : P ValueError -> raises P (vec_fields cv e x y z).
Proof. intros V. unfold vec_fields. repeat (apply raises_bind; [apply raises_field; exact V | intros ?]). apply raises_ok. Qed.
Lemma raises_inv (P : exn -> Prop) m : P LinAlgError -> raises P (mat_inv m).
Proof. intros L. unfold mat_inv. destruct (Req_EM_T _ _); [apply raises_err; exact L | apply raises_ok]. Qed.
Lemma raises_ground (P : exn -> Prop) tg form v o u r : P ValueError -> P LinAlgError ->
  raises P (make_ground_domain tg form v o u r).
Proof.
  intros V L. unfold make_ground_domain. destruct (negb _); [apply raises_err; exact V|].
  assert (Q : forall us, (form = RECTANGULAR -> o <> None /\ us <> None) -> raises P
    (bind (map_res (from_ground_domain tg form o us) v) (fun gv =>
     bind (match r with
           | Some p => bind (from_ground_domain tg form o us p) (fun g => Ok (elevation g))
           | None => Ok (sum_elevations gv / INR (List.length gv))%R
           end) (fun e => Ok (mkGroundDomain form v o us gv (fold_left extend_bbox gv None) e))))).
  { intros us Us.
    assert (G : forall p, raises P (from_ground_domain tg form o us p)).
    { intros p. unfold from_ground_domain. destruct form; try apply raises_ok. destruct (Us eq_refl) as [A B].
      destruct o; [|congruence]. destruct us as [[? ?]|]; [|congruence]. apply raises_ok. }
    apply raises_bind; [apply raises_map_res; intros; apply G|]. intros gv. apply raises_bind; [|intros ?; apply raises_ok].
    destruct r; [apply raises_bind; [apply G | intros ?; apply raises_ok] | apply raises_ok]. }
  assert (K : raises P (match u with None => Ok None | Some m => bind (mat_inv m) (fun i => Ok (Some (m, i))) end)).
  { destruct u; [apply raises_bind; [apply raises_inv; exact L | intros ?; apply raises_ok] | apply raises_ok]. }
  assert (J : forall m us, bind (mat_inv m) (fun i => Ok (Some (m, i))) = Ok us -> us <> None).
  { intros m us E. apply bind_ok in E. destruct E as [i [_ E]]. injection E as <-. discriminate. }
  destruct form, o as [o|], u as [u|]; try (apply raises_err; exact V);
    (apply raises_bind_ok; [exact K|]); intros us E; apply Q; intros Rect; try discriminate Rect.
  split; [discriminate | apply (J u); exact E].
Qed.

Lemma raises_context (P : exn -> Prop) cv tg tre : P ValueError -> P LinAlgError -> raises P (build_rsm_context cv tg tre).
Proof.
  intros V L. unfold build_rsm_context. apply raises_bind; [|intros g; apply raises_bind; [|intros ?; apply raises_ok]].
  - unfold build_rsm_ground_domain. apply raises_bind; [apply raises_field; exact V|]. intros t. apply raises_bind.
    { unfold domain_form. repeat destruct (String.eqb t _); try apply raises_ok. apply raises_err; exact V. }
    intros form. apply raises_bind; [apply raises_map_res; intros; apply raises_vec; exact V|]. intros v.
    apply raises_bind.
    { destruct form; try apply raises_ok. repeat (apply raises_bind; [apply raises_vec; exact V | intros ?]). apply raises_ok. }
    intros rect. apply raises_bind; [|intros r; apply raises_ground; assumption].
    unfold reference_point. destruct (vec_fields cv tre "GRPX" "GRPY" "GRPZ") as [w|e] eqn:E; [apply raises_ok|].
    pose proof (raises_vec (fun e => e = ValueError) cv tre "GRPX" "GRPY" "GRPZ" eq_refl e E) as ->. apply raises_ok.
  - unfold build_rsm_image_domain. repeat (apply raises_bind; [apply raises_field; exact V | intros ?]). apply raises_ok.
Qed.
Lemma raises_polynomial (P : exn -> Prop) cv tre prefix : P ValueError -> P IndexError -> raises P (build_rsm_polynomial cv tre prefix).
Proof.
  intros V I. unfold build_rsm_polynomial, power_field.
  do 3 (apply raises_bind; [apply raises_bind; [apply raises_field; exact V | intros z; destruct (z <? 0)%Z; [apply raises_err; exact V | apply raises_ok]] | intros ?]).
  apply raises_bind; [apply raises_coefficients; assumption|]. intros c. unfold make_poly. destruct (Nat.eqb _ _); [apply raises_ok | apply raises_err; exact V].
Qed.

(** What can get out of the builder: a missing section, a malformed coefficient list, and (before
    numpy 1.25) a singular set of unit vectors.  Never a ValueError. *)
Theorem C50_errors : forall cv to_geodetic caught tres e, rsm_build cv to_geodetic caught tres = Err e ->
  e = KeyError \/ e = IndexError \/ (e = LinAlgError /\ caught = false).
Proof.
  intros cv tg caught tres e. unfold rsm_build. destruct (find_named tres "tre" "RSMIDA") as [rsmid|]; [|discriminate].
  set (b := bind _ _). set (P := fun e => e = ValueError \/ e = LinAlgError \/ e = KeyError \/ e = IndexError).
  assert (Pv : P ValueError) by (unfold P; tauto). assert (Pi : P IndexError) by (unfold P; tauto).
  assert (Pk : P KeyError) by (unfold P; tauto). assert (Pl : P LinAlgError) by (unfold P; tauto).
  assert (Rb : raises P b).
  { unfold b. apply raises_bind; [apply raises_context; assumption|]. intros context. apply raises_bind.
    { apply raises_map_res. intros t _. unfold build_rsm_polynomial_sensor_model.
      repeat (apply raises_bind; [first [apply raises_field; assumption | apply raises_polynomial; assumption] | intros ?]). apply raises_ok. }
    intros models. destruct models as [|m1 [|m2 ms]]; [apply raises_ok | apply raises_ok|].
    destruct (find_named tres "tre" "RSMPIA"); [|apply raises_ok]. apply raises_bind; [|intros ?; apply raises_ok].
    unfold build_rsm_sections. do 2 (apply raises_bind; [apply raises_field; assumption | intros ?]).
    apply raises_bind.
    { apply raises_map_res. intros r _. apply raises_map_res. intros c _. unfold grid_lookup.
      destruct (List.find _ _); [apply raises_ok | apply raises_err; assumption]. }
    intros grid. do 2 (apply raises_bind; [apply raises_field; assumption | intros ?]).
    do 2 (apply raises_bind; [unfold build_loworder; apply raises_bind;
      [apply raises_map_res; intros; apply raises_field; assumption
      | intros l; unfold make_low_order; destruct (Nat.eqb _ _); [apply raises_ok | apply raises_err; assumption]] | intros ?]).
    apply raises_ok. }
  destruct b as [o|x]; [discriminate|]. destruct (Rb x eq_refl) as [-> | [-> | [-> | ->]]]; cbn; try discriminate.
  - destruct caught; [discriminate|]. intros H; injection H as <-. tauto.
  - intros H; injection H as <-. tauto.
  - intros H; injection H as <-. tauto.
Qed.

(** The ground domain is the one RSMIDA describes. *)
Theorem C50_ground_domain : forall cv to_geodetic tre d, build_rsm_ground_domain cv to_geodetic tre = Ok d ->
  field_text tre "GRNDD" (match gd_form d with GEODETIC => "G" | GEODETIC_2PI => "H" | RECTANGULAR => "R" end)
  /\ List.length (gd_vertices d) = 8%nat
  /\ (forall k n, nth_error ["1"; "2"; "3"; "4"; "5"; "6"; "7"; "8"] k = Some n ->
        exists v, nth_error (gd_vertices d) k = Some v /\ vector_field cv tre ("V" ++ n ++ "X") ("V" ++ n ++ "Y") ("V" ++ n ++ "Z") v)
  /\ match gd_form d with
     | RECTANGULAR => exists o u inverse, gd_origin d = Some o /\ gd_units d = Some (u, inverse) /\ mat_inv u = Ok inverse
         /\ vector_field cv tre "XUOR" "YUOR" "ZUOR" o
         /\ vector_field cv tre "XUXR" "YUXR" "ZUXR" (row1 u)
         /\ vector_field cv tre "XUYR" "YUYR" "ZUYR" (row2 u)
         /\ vector_field cv tre "XUZR" "YUZR" "ZUZR" (row3 u)
     | _ => gd_origin d = None /\ gd_units d = None
     end
  /\ forall p, vector_field cv tre "GRPX" "GRPY" "GRPZ" p ->
       exists g, ground_domain_coordinate_to_geodetic to_geodetic d p = Ok g /\ gd_default_elevation d = elevation g.
Proof.
  intros cv tg tre d H. unfold build_rsm_ground_domain in H. steps H. rename x into t, x0 into form, x1 into v, x2 into rect, x3 into ref.
  apply field_value in E. destruct E as [t' [Ft Et]]. unfold to_str in Et. injection Et as ->.
  apply map_res_ok in E1. pose proof (forall2_len _ _ _ E1) as Lv. cbn in Lv.
  assert (Gd : exists us gv, gd_form d = form /\ gd_vertices d = v /\ gd_origin d = fst rect /\ gd_units d = us
     /\ match snd rect with None => us = None | Some m => exists i, mat_inv m = Ok i /\ us = Some (m, i) end
     /\ match ref with None => gd_default_elevation d = (sum_elevations gv / INR (List.length gv))%R
                | Some p => exists g, from_ground_domain tg form (fst rect) us p = Ok g /\ gd_default_elevation d = elevation g end).
  { unfold make_ground_domain in H. rewrite <- Lv in H. cbn [Nat.eqb negb] in H.
    assert (K : bind (match snd rect with
            | None => Ok None
            | Some m => bind (mat_inv m) (fun i => Ok (Some (m, i)))
            end) (fun us =>
      bind (map_res (from_ground_domain tg form (fst rect) us) v) (fun gv =>
      bind (match ref with
            | Some p => bind (from_ground_domain tg form (fst rect) us p) (fun g => Ok (elevation g))
            | None => Ok (sum_elevations gv / INR (List.length gv))%R
            end) (fun e =>
      Ok (mkGroundDomain form v (fst rect) us gv (fold_left extend_bbox gv None) e)))) = Ok d).
    { destruct form, (fst rect), (snd rect); try discriminate H; exact H. }
    clear H. steps K. injection K as <-. cbn. exists x, x0. do 4 (split; [reflexivity|]). split.
    - destruct (snd rect) as [m|]; [|injection E as <-; reflexivity]. apply bind_ok in E. destruct E as [i [Ei E]].
      injection E as <-. exists i. split; [exact Ei | reflexivity].
    - destruct ref as [p|]; [|injection E5 as <-; reflexivity]. apply bind_ok in E5. destruct E5 as [g [Eg E5]].
      injection E5 as <-. exists g. split; [exact Eg | reflexivity]. }
  destruct Gd as [us [gv [G1 [G2 [G3 [G4 [G5 G6]]]]]]]. rewrite G1, G2.
  split.
  { unfold domain_form in E0. destruct (String.eqb_spec t "G") as [-> |]; [injection E0 as <-; exact Ft|].
    destruct (String.eqb_spec t "H") as [-> |]; [injection E0 as <-; exact Ft|].
    destruct (String.eqb_spec t "R") as [-> |]; [injection E0 as <-; exact Ft | discriminate]. }
  split; [symmetry; exact Lv|]. split.
  { intros k n Hk. destruct (forall2_nth _ _ _ E1 k n Hk) as [w [Nw Ew]]. exists w. split; [exact Nw | apply vec_ok; exact Ew]. }
  split.
  { destruct form; try (injection E2 as <-; cbn in *; subst us; split; assumption).
    steps E2. injection E2 as <-. cbn [fst snd] in *. destruct G5 as [i [Ei ->]].
    exists x, (mkMat x0 x1 x2), i. cbn [row1 row2 row3]. rewrite <- !vec_ok. repeat split; assumption. }
  intros p Hp. apply vec_ok in Hp. unfold reference_point in E3. rewrite Hp in E3. injection E3 as <-.
  destruct G6 as [g [Eg D]]. exists g. split; [|exact D]. unfold ground_domain_coordinate_to_geodetic. rewrite G1, G3, G4. exact Eg.
Qed.

(** ** C51: the factory *)

Lemma attribute_ok {A} (a : option A) x : attribute a = Ok x <-> a = Some x.
Proof. destruct a; cbn; split; congruence. Qed.

Section Factory.
Variable M : Type.
Variable bs : Builders M.
Variable cv : Conv.
Variable decode : string -> res string.
Variable tostring : Element -> string.

Lemma has_tre_find md tres n : md_tres md = Some tres -> (has_tre md n <-> exists e, find_named tres "tre" n = Some e).
Proof.
  intros T. unfold has_tre. split.
  - intros [tres' [e [E [I N]]]]. rewrite T in E. injection E as <-. destruct (find_named tres "tre" n) as [f|] eqn:F; [exists f; reflexivity|].
    rewrite find_named_none in F. exfalso. apply (F e I N).
  - intros [e E]. apply find_named_spec in E. destruct E as [a [b [E [N _]]]]. exists tres, e. split; [exact T|]. split; [|exact N].
    rewrite E. apply in_or_app. right. left. reflexivity.
Qed.
Lemma wrap_on_chip chip full m : wrap_chip M bs chip full = Ok m -> on_chip M bs chip full m.
Proof.
  unfold wrap_chip, on_chip. destruct full as [x|]; [|intros H; injection H as <-; destruct chip; reflexivity].
  destruct chip as [f|]; [|intros H; injection H as <-; reflexivity].
  intros H. apply bind_ok in H. destruct H as [c [E H]]. injection H as <-. exists c. split; [exact E | reflexivity].
Qed.

(** The approximate model before the TREs are looked at. *)
Lemma gdal_source md a : approximate_from_gdal M bs md = Ok a ->
  (exists gcps, wants md TPROJECTIVE /\ enough_gcps md gcps /\ b_gcp bs gcps = Ok a)
  \/ (~ (wants md TPROJECTIVE /\ exists gcps, enough_gcps md gcps) /\
       ((exists gt, wants md TAFFINE /\ md_geo_transform md = Some gt /\ b_affine bs gt (md_proj_wkt md) = Ok a)
        \/ (~ (wants md TAFFINE /\ exists gt, md_geo_transform md = Some gt) /\ a = None))).
Proof.
  unfold approximate_from_gdal. intros H. apply bind_ok in H. destruct H as [a0 [A H]].
  assert (Aff : (exists gt, wants md TAFFINE /\ md_geo_transform md = Some gt /\ b_affine bs gt (md_proj_wkt md) = Ok a0)
        \/ (~ (wants md TAFFINE /\ exists gt, md_geo_transform md = Some gt) /\ a0 = None)).
  { destruct (selected (selection md) TAFFINE) eqn:Sa.
    - apply selected_wants in Sa. destruct (md_geo_transform md) as [gt|].
      + left. exists gt. split; [exact Sa|]. split; [reflexivity | exact A].
      + right. injection A as <-. split; [intros [_ [gt E]]; discriminate | reflexivity].
    - apply not_selected in Sa. injection A as <-. right. split; [tauto | reflexivity]. }
  destruct (selected (selection md) TPROJECTIVE) eqn:Sp.
  - apply selected_wants in Sp. destruct (md_gcps md) as [gcps|] eqn:G.
    + destruct (Nat.ltb_spec 3 (List.length gcps)) as [L|L].
      * left. exists gcps. split; [exact Sp|]. split; [split; [exact G | exact L] | exact H].
      * injection H as <-. right. split; [|exact Aff]. intros [_ [g [E L']]]. rewrite G in E. injection E as <-. lia.
    + injection H as <-. right. split; [|exact Aff]. intros [_ [g [E _]]]. congruence.
  - apply not_selected in Sp. injection H as <-. right. split; [tauto | exact Aff].
Qed.

(** The factory's result is made of exactly the approximate model and the precise model that the
    metadata and the selection determine. *)
Theorem C51_selection : forall md r, factory_build M bs cv decode tostring md = Ok r ->
  exists a p, approximate_is M bs cv md a /\ precision_is M bs cv decode tostring md p
  /\ r = match a, p with
         | Some a, Some p => Some (b_composite bs a p)
         | None, Some p => Some p
         | Some a, None => Some a
         | None, None => None
         end.
Proof.
  intros md r H. unfold factory_build in H. apply bind_ok in H. destruct H as [a0 [A0 H]]. apply bind_ok in H. destruct H as [[a p0] [Ms H]].
  apply bind_ok in H. destruct H as [p [P H]]. cbn [fst snd] in *. injection H as <-.
  apply gdal_source in A0.
  assert (TP : approximate_is M bs cv md a /\ tre_precision_is M bs cv md p0).
  { unfold approximate_is, tre_precision_is. destruct (md_tres md) as [tres|] eqn:T.
    - unfold models_from_tres in Ms. apply bind_ok in Ms. destruct Ms as [[[chip w] h] [I Ms]].
      assert (CS : chip_and_size cv md tres chip w h).
      { unfold chip_and_size. destruct (find_named tres "tre" "ICHIPB") as [e|] eqn:F.
        - right. apply bind_ok in I. destruct I as [w' [W I]]. apply bind_ok in I. destruct I as [h' [Hh I]]. injection I as <- <- <-.
          apply attribute_ok in W. apply attribute_ok in Hh. exists e, (make_facade cv e). apply find_named_spec in F. repeat split; assumption.
        - left. injection I as <- <- <-. split; [|repeat split]. rewrite (has_tre_find md tres _ T). intros [e E]. congruence. }
      apply bind_ok in Ms. destruct Ms as [rsm [Rs Ms]]. apply bind_ok in Ms. destruct Ms as [full [Fu Ms]].
      apply bind_ok in Ms. destruct Ms as [p1 [W1 Ms]]. apply bind_ok in Ms. destruct Ms as [a1 [A1 Ms]]. injection Ms as <- <-.
      split.
      + destruct (selected (selection md) TPROJECTIVE) eqn:Sp.
        * apply selected_wants in Sp. destruct (find_named tres "tre" "CSCRNA") as [e|] eqn:F.
          { left. split; [exact Sp|]. split; [apply (has_tre_find md tres _ T); exists e; exact F|].
            apply bind_ok in A1. destruct A1 as [q [Q A1]]. exists tres, chip, w, h, q. split; [reflexivity|]. split; [exact CS|].
            split; [exact Q | apply wrap_on_chip; exact A1]. }
          injection A1 as <-. right. split; [|exact A0]. rewrite (has_tre_find md tres _ T). intros [_ [e E]]. congruence.
        * apply not_selected in Sp. injection A1 as <-. right. split; [tauto | exact A0].
      + exists chip, w, h, full. split; [exact CS|]. split; [apply wrap_on_chip; exact W1|].
        assert (NoRsm : (~ wants md TRSM \/ b_rsm bs tres = Ok None) -> rsm = None ->
           (wants md TRPC /\ b_rpc bs tres = Ok full) \/ (~ wants md TRPC /\ full = None)).
        { intros _ ->. destruct (selected (selection md) TRPC) eqn:Sr; [left | right].
          - apply selected_wants in Sr. split; assumption.
          - apply not_selected in Sr. injection Fu as <-. split; [exact Sr | reflexivity]. }
        destruct (selected (selection md) TRSM) eqn:Sr.
        * apply selected_wants in Sr. destruct rsm as [m|].
          { left. injection Fu as <-. exists m. repeat split; assumption. }
          right. split; [right; exact Rs | apply NoRsm; [right; exact Rs | reflexivity]].
        * apply not_selected in Sr. injection Rs as <-. right. split; [left; exact Sr | apply NoRsm; [left; exact Sr | reflexivity]].
    - injection Ms as <- <-. split; [|reflexivity]. right. split; [|exact A0]. intros [_ [tres [e [E _]]]]. congruence. }
  destruct TP as [Ap Tp]. exists a, p. split; [exact Ap|]. split; [|destruct a, p; reflexivity].
  assert (U : forall t, unusable (selected (selection md) TSICD) t -> ~ is_sidd t /\ ~ is_sicd md t).
  { intros t U. split.
    - intros [x [E O]]. exact (proj1 (U x E) O).
    - intros [Wt [x [E O]]]. apply (proj2 (U x E)). split; [exact O | apply selected_wants; exact Wt]. }
  unfold precision_is, visited, segments.
  assert (Seg : match md_dess md with Some l => precision_from_segments M bs decode tostring (selected (selection md) TSICD)
                   (get_segments_by_name l "XML_DATA_CONTENT") p0 | None => Ok p0 end = Ok p).
  { destruct (md_dess md) as [[|l ls]|]; exact P. }
  destruct (md_dess md) as [l|].
  - apply segments_loop in Seg. destruct Seg as [[done [rest [texts [x [E1 [E2 [E3 E4]]]]]]] | [texts [E1 [E2 ->]]]].
    + left. exists texts, x. split; [exists done, rest; split; assumption|]. split; [intros t I; apply U, E3, I|].
      destruct E4 as [E4 | [N [O [S ->]]]]; [left; exact E4|]. right. split; [exact N|]. split; [|reflexivity].
      split; [apply selected_wants; exact S | exists x; split; [reflexivity | exact O]].
    + right. exists texts. split; [exact E1|]. split; [intros t I; apply U, E2, I | exact Tp].
  - injection Seg as <-. right. exists []. split; [constructor|]. split; [intros t []|exact Tp].
Qed.

(** A builder that cannot raise, no malformed chip description and decodable segments: the factory
    returns. *)
Theorem C51_returns : forall md,
  (forall gt wkt, is_ok (b_affine bs gt wkt)) -> (forall g, is_ok (b_gcp bs g)) ->
  (forall t, is_ok (b_rsm bs t)) -> (forall t, is_ok (b_rpc bs t)) ->
  (forall t w h, is_ok (b_projective bs t w h)) -> (forall f c m, is_ok (b_chip bs f c m)) ->
  (forall s, In s (segments md) -> is_ok (extract_desdata_xml decode tostring s)) ->
  (forall tres e, md_tres md = Some tres -> first_named tres "tre" "ICHIPB" e ->
     full_image_width (make_facade cv e) <> None /\ full_image_height (make_facade cv e) <> None) ->
  exists r, factory_build M bs cv decode tostring md = Ok r.
Proof.
  intros md Ba Bg Brs Brp Bp Bc Bx Bi.
  assert (T : forall A (x : res A), is_ok x -> exists a, x = Ok a) by (intros A [a|e] K; [exists a; reflexivity | destruct K; congruence]).
  assert (W : forall chip m, exists x, wrap_chip M bs chip m = Ok x).
  { intros chip m. unfold wrap_chip. destruct m as [m|], chip as [f|]; try (eexists; reflexivity).
    destruct (T _ _ (Bc (full_image_coordinates f) (chipped_image_coordinates f) m)) as [c ->]. eexists; reflexivity. }
  assert (A : exists a, approximate_from_gdal M bs md = Ok a).
  { unfold approximate_from_gdal.
    assert (Q : exists a, (if selected (selection md) TAFFINE
           then match md_geo_transform md with Some gt => b_affine bs gt (md_proj_wkt md) | None => Ok None end else Ok None) = Ok a).
    { destruct (selected _ _); [|eexists; reflexivity]. destruct (md_geo_transform md); [apply T, Ba | eexists; reflexivity]. }
    destruct Q as [a ->]. cbn [bind]. destruct (selected _ _); [|eexists; reflexivity].
    destruct (md_gcps md) as [g|]; [|eexists; reflexivity]. destruct (Nat.ltb _ _); [apply T, Bg | eexists; reflexivity]. }
  destruct A as [a A]. unfold factory_build. rewrite A. cbn [bind].
  assert (Q : exists ap, match md_tres md with None => Ok (a, None) | Some tres => models_from_tres M bs cv md tres a end = Ok ap).
  { destruct (md_tres md) as [tres|] eqn:Et; [|eexists; reflexivity]. unfold models_from_tres.
    assert (I : exists i, match find_named tres "tre" "ICHIPB" with
              | None => Ok (None, md_width md, md_height md)
              | Some tre => bind (attribute (full_image_width (make_facade cv tre))) (fun w =>
                  bind (attribute (full_image_height (make_facade cv tre))) (fun h => Ok (Some (make_facade cv tre), w, h)))
              end = Ok i).
    { destruct (find_named tres "tre" "ICHIPB") as [e|] eqn:F; [|eexists; reflexivity].
      apply find_named_spec in F. destruct (Bi tres e eq_refl F) as [Nw Nh].
      destruct (full_image_width _) as [w|]; [|congruence]. destruct (full_image_height _) as [h|]; [|congruence]. eexists; reflexivity. }
    destruct I as [[[chip w] h] ->]. cbn [bind].
    assert (Q1 : exists x, (if selected (selection md) TRSM then b_rsm bs tres else Ok None) = Ok x)
      by (destruct (selected _ _); [apply T, Brs | eexists; reflexivity]).
    destruct Q1 as [rsm ->]. cbn [bind].
    assert (Q2 : exists x, match rsm with Some m => Ok (Some m) | None => if selected (selection md) TRPC then b_rpc bs tres else Ok None end = Ok x)
      by (destruct rsm; [eexists; reflexivity | destruct (selected _ _); [apply T, Brp | eexists; reflexivity]]).
    destruct Q2 as [full ->]. cbn [bind]. destruct (W chip full) as [p ->]. cbn [bind].
    assert (Q3 : exists x, (if selected (selection md) TPROJECTIVE
                     then match find_named tres "tre" "CSCRNA" with
                          | None => Ok a
                          | Some _ => bind (b_projective bs tres w h) (fun p => wrap_chip M bs chip p)
                          end
                     else Ok a) = Ok x).
    { destruct (selected _ _); [|eexists; reflexivity]. destruct (find_named _ _ _); [|eexists; reflexivity].
      destruct (T _ _ (Bp tres w h)) as [q ->]. cbn [bind]. apply W. }
    destruct Q3 as [x ->]. cbn [bind]. eexists; reflexivity. }
  destruct Q as [ap ->]. cbn [bind].
  assert (S : forall ss p, (forall s, In s ss -> is_ok (extract_desdata_xml decode tostring s)) ->
     exists x, precision_from_segments M bs decode tostring (selected (selection md) TSICD) ss p = Ok x).
  { induction ss as [|s ss IH]; intros p Hs; [eexists; reflexivity|]. cbn [precision_from_segments].
    destruct (T _ _ (Hs s (or_introl eq_refl))) as [x ->]. cbn [bind].
    assert (Hr : forall s, In s ss -> is_ok (extract_desdata_xml decode tostring s)) by (intros; apply Hs; right; assumption).
    destruct x as [[|c x]|]; [apply IH; exact Hr | | apply IH; exact Hr].
    destruct (contains "SIDD" _); [eexists; reflexivity|]. destruct (_ && _)%bool; [eexists; reflexivity | apply IH; exact Hr]. }
  assert (Q : exists p, match md_dess md with
                   | None | Some [] => Ok (snd ap)
                   | Some lists => precision_from_segments M bs decode tostring (selected (selection md) TSICD)
                                     (get_segments_by_name lists "XML_DATA_CONTENT") (snd ap)
                   end = Ok p).
  { unfold segments in Bx. destruct (md_dess md) as [[|l ls]|]; try (eexists; reflexivity). apply S. exact Bx. }
  destruct Q as [p ->]. cbn [bind]. eexists; reflexivity.
Qed.

(** Whatever is selected, SIDD metadata is used; and a SIDD or SICD builder that fails throws the
    model of the TREs away. *)
Theorem C51_sidd_not_gated : forall md s rest x,
  segments md = s :: rest -> extract_desdata_xml decode tostring s = Ok (Some x) -> occurs "SIDD" x ->
  md_tres md = None -> md_geo_transform md = None -> md_gcps md = None ->
  factory_build M bs cv decode tostring md = Ok (b_sidd bs x).
Proof.
  intros md s rest x Sg E O T Gt Gc. unfold factory_build, approximate_from_gdal. rewrite T, Gt, Gc.
  unfold segments in Sg. destruct (md_dess md) as [[|l ls]|]; try discriminate.
  destruct (selected (selection md) TAFFINE), (selected (selection md) TPROJECTIVE); cbn [bind fst snd]; rewrite Sg;
    cbn [precision_from_segments]; rewrite E; cbn [bind];
    (destruct x as [|c x]; [destruct O as [a [b Eab]]; destruct a; discriminate|]);
    apply contains_occurs in O; rewrite O; cbn [bind]; destruct (b_sidd bs (String c x)); reflexivity.
Qed.
Theorem C51_failed_sidd_discards_refuted : forall md s rest x m r,
  segments md = s :: rest -> extract_desdata_xml decode tostring s = Ok (Some x) -> occurs "SIDD" x -> b_sidd bs x = None ->
  wants md TRSM -> (exists tres, md_tres md = Some tres /\ b_rsm bs tres = Ok (Some m)) -> md_geo_transform md = None -> md_gcps md = None ->
  ~ has_tre md "CSCRNA" -> factory_build M bs cv decode tostring md = Ok r -> r = None.
Proof.
  intros md s rest x m r Sg E O B _ [tres [T _]] Gt Gc N H.
  destruct (C51_selection md r H) as [a [p [A [P ->]]]].
  assert (a = None).
  { destruct A as [[_ [C _]] | [_ [[g [_ [[G _] _]]] | [_ [[gt [_ [G _]]] | [_ ->]]]]]]; [contradiction | congruence | congruence | reflexivity]. }
  assert (p = None).
  { destruct P as [[texts [y [[done [rs [E1 F]]] [U C]]]] | [texts [F [U _]]]].
    - rewrite Sg in E1. destruct texts as [|t texts].
      + cbn in F. inversion F as [|s' t' done' r' Es F' E3]; subst. inversion F'; subst. cbn in E1. injection E1 as <- _.
        rewrite E in Es. injection Es as <-. destruct C as [[_ ->] | [C _]]; [exact B | contradiction].
      + cbn in F. inversion F as [|s' t' done' r' Es F' E3]; subst. cbn in E1. injection E1 as <- _. rewrite E in Es. injection Es as <-.
        destruct (U (Some x) (or_introl eq_refl)) as [C' _]. exfalso. apply C'. exists x. split; [reflexivity | exact O].
    - rewrite Sg in F. inversion F as [|s' t' done' r' Es F' E3]; subst. rewrite E in Es. injection Es as <-.
      destruct (U (Some x) (or_introl eq_refl)) as [C' _]. exfalso. apply C'. exists x. split; [reflexivity | exact O]. }
  subst. reflexivity.
Qed.

(** An exception of the corner builder gets out of build, whatever precise model was available. *)
Theorem C51_corner_error : forall md tres a e x,
  approximate_from_gdal M bs md = Ok a -> md_tres md = Some tres -> ~ has_tre md "ICHIPB" ->
  (forall t, is_ok (b_rsm bs t)) -> (forall t, is_ok (b_rpc bs t)) ->
  wants md TPROJECTIVE -> first_named tres "tre" "CSCRNA" e ->
  b_projective bs tres (md_width md) (md_height md) = Err x ->
  factory_build M bs cv decode tostring md = Err x.
Proof.
  intros md tres a e x A T NI Rs Rp W F B. unfold factory_build. rewrite A. cbn [bind]. rewrite T. unfold models_from_tres.
  destruct (find_named tres "tre" "ICHIPB") as [c|] eqn:I.
  { exfalso. apply NI. apply (has_tre_find md tres _ T). exists c. exact I. }
  cbn [bind].
  assert (Q1 : exists r, (if selected (selection md) TRSM then b_rsm bs tres else Ok None) = Ok r)
    by (destruct (selected (selection md) TRSM); [apply Rs | eexists; reflexivity]).
  destruct Q1 as [r ->]. cbn [bind].
  assert (Q2 : exists r', match r with Some m => Ok (Some m) | None => if selected (selection md) TRPC then b_rpc bs tres else Ok None end = Ok r')
    by (destruct r; [eexists; reflexivity | destruct (selected (selection md) TRPC); [apply Rp | eexists; reflexivity]]).
  destruct Q2 as [r' ->]. cbn [bind]. assert (Q3 : wrap_chip M bs None r' = Ok r') by (destruct r'; reflexivity). rewrite Q3. cbn [bind].
  apply selected_wants in W. rewrite W. apply find_named_spec in F. rewrite F, B. reflexivity.
Qed.

(** ** C52: chip metadata *)

(** The fields of ICHIPB, and which of them [make_facade] needs. *)
Definition chip_number_fields : list string :=
  flat_map (fun p => ["OP_COL_" ++ p; "OP_ROW_" ++ p; "FI_COL_" ++ p; "FI_ROW_" ++ p]) ["11"; "12"; "21"; "22"].
Definition well_formed_chip (e : Element) : Prop :=
  (forall n, In n chip_number_fields -> exists x, number_field cv e n x)
  /\ (exists w, integer_field cv e "FI_COL" w) /\ (exists h, integer_field cv e "FI_ROW" h).

Definition point_says (e : Element) (p : string) (f c : Image) : Prop :=
  number_field cv e ("FI_COL_" ++ p) (ix f) /\ number_field cv e ("FI_ROW_" ++ p) (iy f)
  /\ number_field cv e ("OP_COL_" ++ p) (ix c) /\ number_field cv e ("OP_ROW_" ++ p) (iy c).
Lemma grid_point_ok e p f c : grid_point cv e p = Ok (f, c) <-> point_says e p f c.
Proof.
  unfold grid_point, point_says. rewrite <- !float_ok. split.
  - intros H. steps H. injection H as <- <-. cbn. tauto.
  - intros [A [B [C D]]]. rewrite A, B, C, D. destruct f, c; reflexivity.
Qed.
Lemma grid_point_exists e p : (exists q, grid_point cv e p = Ok q) <->
  (forall n, In n ["OP_COL_" ++ p; "OP_ROW_" ++ p; "FI_COL_" ++ p; "FI_ROW_" ++ p] -> exists x, number_field cv e n x).
Proof.
  split.
  - intros [[f c] H]. apply grid_point_ok in H. destruct H as [A [B [C D]]].
    intros n [<- | [<- | [<- | [<- | []]]]]; eexists; eassumption.
  - intros H. destruct (H _ (or_introl eq_refl)) as [a A]. destruct (H _ (or_intror (or_introl eq_refl))) as [b B].
    destruct (H _ (or_intror (or_intror (or_introl eq_refl)))) as [c C].
    destruct (H _ (or_intror (or_intror (or_intror (or_introl eq_refl))))) as [d D].
    exists (mkImage c d, mkImage a b). apply grid_point_ok. repeat split; assumption.
Qed.
Lemma grid_points_done e ps : snd (grid_points cv e ps) = true <-> forall p, In p ps -> exists q, grid_point cv e p = Ok q.
Proof.
  induction ps as [|p ps IH]; cbn [grid_points]; [split; [intros _ p [] | reflexivity]|].
  destruct (grid_point cv e p) as [q|x] eqn:E.
  - destruct (grid_points cv e ps) as [l d]. cbn [snd] in *. rewrite IH. split.
    + intros H p' [<- | I]; [exists q; exact E | apply H; exact I].
    + intros H p' I. apply H. right; exact I.
  - split; [discriminate|]. intros H. destruct (H p (or_introl eq_refl)) as [q Q]. congruence.
Qed.
Lemma grid_points_all e ps l : grid_points cv e ps = (l, true) -> Forall2 (fun p q => grid_point cv e p = Ok q) ps l.
Proof.
  revert l; induction ps as [|p ps IH]; intros l H; cbn [grid_points] in H; [injection H as <-; constructor|].
  destruct (grid_point cv e p) as [q|] eqn:E; [|discriminate]. destruct (grid_points cv e ps) as [k d]. injection H as <- ->.
  constructor; [exact E | apply IH; reflexivity].
Qed.

(** A well-formed ICHIPB gives the four correspondences and the size of the full image. *)
Theorem C52_well_formed : forall e, well_formed_chip e ->
  exists f11 f12 f21 f22 c11 c12 c21 c22 w h,
  make_facade cv e = mkFacade [f11; f12; f21; f22] [c11; c12; c21; c22] (Some w) (Some h)
  /\ point_says e "11" f11 c11 /\ point_says e "12" f12 c12 /\ point_says e "21" f21 c21 /\ point_says e "22" f22 c22
  /\ integer_field cv e "FI_COL" w /\ integer_field cv e "FI_ROW" h.
Proof.
  intros e [N [[w W] [h Hh]]].
  assert (G : forall p, In p ["11"; "12"; "21"; "22"] -> exists f c, grid_point cv e p = Ok (f, c)).
  { intros p I. assert (Q : exists q, grid_point cv e p = Ok q).
    { apply grid_point_exists. intros n J. apply N. unfold chip_number_fields. apply in_flat_map. exists p. split; assumption. }
    destruct Q as [[f c] Q]. exists f, c. exact Q. }
  destruct (G "11") as [f11 [c11 G11]]; [cbn; tauto|]. destruct (G "12") as [f12 [c12 G12]]; [cbn; tauto|].
  destruct (G "21") as [f21 [c21 G21]]; [cbn; tauto|]. destruct (G "22") as [f22 [c22 G22]]; [cbn; tauto|].
  exists f11, f12, f21, f22, c11, c12, c21, c22, w, h. split.
  { unfold make_facade, grid_point_names. cbn [grid_points]. rewrite G11, G12, G21, G22. apply int_ok in W. apply int_ok in Hh. rewrite W, Hh. reflexivity. }
  rewrite <- !grid_point_ok. repeat split; assumption.
Qed.

(** Anything else leaves the width or the height unset, and reading it raises AttributeError out of
    build: the image loses every sensor model, although the warning says "SensorModel is unchanged". *)
Lemma facade_unset e : ~ well_formed_chip e ->
  full_image_width (make_facade cv e) = None \/ full_image_height (make_facade cv e) = None.
Proof.
  intros N. unfold make_facade. destruct (grid_points cv e grid_point_names) as [l d] eqn:G. destruct d; [|left; reflexivity].
  destruct (int_field cv e "FI_COL") as [w|] eqn:W; [|left; reflexivity].
  destruct (int_field cv e "FI_ROW") as [h|] eqn:Hh; [|right; reflexivity].
  exfalso. apply N. split; [|split; [exists w; apply int_ok; exact W | exists h; apply int_ok; exact Hh]].
  intros n I. unfold chip_number_fields in I. apply in_flat_map in I. destruct I as [p [I J]].
  assert (D : snd (grid_points cv e grid_point_names) = true) by (rewrite G; reflexivity).
  rewrite grid_points_done in D. destruct (D p I) as [q Q]. assert (E : exists q, grid_point cv e p = Ok q) by (exists q; exact Q).
  rewrite grid_point_exists in E. apply E. exact J.
Qed.
Theorem C52_malformed_refuted : forall md tres e,
  md_tres md = Some tres -> first_named tres "tre" "ICHIPB" e -> ~ well_formed_chip e ->
  (exists a, approximate_from_gdal M bs md = Ok a) ->
  factory_build M bs cv decode tostring md = Err AttributeError.
Proof.
  intros md tres e T F N [a A]. unfold factory_build. rewrite A. cbn [bind]. rewrite T. unfold models_from_tres.
  apply find_named_spec in F. rewrite F. cbv zeta. destruct (facade_unset e N) as [-> | E]; [reflexivity|].
  rewrite E. destruct (full_image_width (make_facade cv e)); reflexivity.
Qed.
End Factory.

(** A corner TRE with a missing or malformed number is a ValueError, which C51_corner_error lets out. *)
Theorem C51_malformed_corner : forall cv lstsq tres tre w h c n,
  first_named tres "tre" "CSCRNA" tre -> In c ["UL"; "UR"; "LR"; "LL"] -> In n ["CNR_LONG"; "CNR_LAT"; "CNR_HT"] ->
  (forall x, ~ number_field cv tre (c ++ n) x) ->
  projective_build cv lstsq tres w h = Err ValueError.
Proof.
  intros cv lstsq tres tre w h c n F Ic In_ N. apply find_named_spec in F. unfold projective_build, build_projective_sensor_model. rewrite F.
  destruct (map_res (corner cv tre) ["UL"; "UR"; "LR"; "LL"]) as [l|e] eqn:E.
  - exfalso. apply map_res_ok in E. apply In_nth_error in Ic. destruct Ic as [k K].
    destruct (forall2_nth _ _ _ E k c K) as [g [_ G]]. unfold corner in G. steps G.
    cbn [In] in In_. destruct In_ as [<- | [<- | [<- | []]]]; [apply (N x) | apply (N x0) | apply (N x1)]; apply float_ok; assumption.
  - assert (K : raises (fun e => e = ValueError) (map_res (corner cv tre) ["UL"; "UR"; "LR"; "LL"])).
    { apply raises_map_res. intros a _. unfold corner. repeat (apply raises_bind; [apply raises_field; reflexivity | intros ?]). apply raises_ok. }
    rewrite (K e E). reflexivity.
Qed.

(** ** C73: models fitted to corners and control points *)

(** A projective transform that takes each corner of the TRE to its corner of the image, when there
    is one, is what the model does at the corners, in both directions. *)
Theorem C73_corners : forall cv lstsq tres tre (w h : R) t t0 (lon lat : string -> R),
  least_squares lstsq -> first_named tres "tre" "CSCRNA" tre ->
  (forall c, In c ["UL"; "UR"; "LR"; "LL"] ->
     number_field cv tre (c ++ "CNR_LONG") (lon c) /\ number_field cv tre (c ++ "CNR_LAT") (lat c)) ->
  Forall2 (fun c q => takes t0 (lon c * PI / 180, lat c * PI / 180)%R q) ["UL"; "UR"; "LR"; "LL"] [(0, 0); (w, 0); (w, h); (0, h)]%R ->
  projective_build cv lstsq tres w h = Ok (Some t) ->
  forall c q, In (c, q) (combine ["UL"; "UR"; "LR"; "LL"] [(0, 0); (w, 0); (w, h); (0, h)]%R) ->
  denominator t (lon c * PI / 180, lat c * PI / 180)%R <> 0%R ->
  (forall e, projective_world_to_image t (mkGeo (lon c * PI / 180) (lat c * PI / 180) e) = Ok (mkImage (fst q) (snd q)))
  /\ (determinant t <> 0%R -> forall o,
       projective_image_to_world t (mkImage (fst q) (snd q)) None o = Ok (mkGeo (lon c * PI / 180) (lat c * PI / 180) 0)).
Proof.
  intros cv lstsq tres tre w h t t0 lon lat LS F Fields F0 B c q I D.
  unfold projective_build in B. apply find_named_spec in F. rewrite F in B. apply bind_ok in B. destruct B as [t' [B Q]]. injection Q as ->.
  unfold build_projective_sensor_model in B. apply bind_ok in B. destruct B as [world [W B]]. unfold make_projective_sensor in B.
  assert (Ws : List.map (fun g => (longitude g, latitude g)) world
             = List.map (fun c => (lon c * PI / 180, lat c * PI / 180)%R) ["UL"; "UR"; "LR"; "LL"]).
  { apply map_res_ok in W. clear - W Fields.
    assert (G : forall names, (forall c, In c names -> In c ["UL"; "UR"; "LR"; "LL"]) -> forall world,
       Forall2 (fun c g => corner cv tre c = Ok g) names world ->
       List.map (fun g => (longitude g, latitude g)) world = List.map (fun c => (lon c * PI / 180, lat c * PI / 180)%R) names).
    { induction names as [|n names IH]; intros S wd H; inversion H as [|? g ? gs Hg Hs]; subst; [reflexivity|].
      cbn [List.map]. rewrite (IH (fun c Ic => S c (or_intror Ic)) gs Hs). f_equal.
      unfold corner in Hg. steps Hg. injection Hg as <-. cbn [longitude latitude].
      destruct (Fields n (S n (or_introl eq_refl))) as [L1 L2]. apply float_ok in L1. apply float_ok in L2.
      rewrite L1 in E. injection E as ->. rewrite L2 in E0. injection E0 as ->. reflexivity. }
    apply G; [intros c Ic; exact Ic | exact W]. }
  rewrite Ws in B.
  assert (Fit : Forall2 (takes t0) (List.map (fun c => (lon c * PI / 180, lat c * PI / 180)%R) ["UL"; "UR"; "LR"; "LL"])
                  (List.map (fun i => (ix i, iy i)) [mkImage 0 0; mkImage w 0; mkImage w h; mkImage 0 h])).
  { cbn [List.map ix iy]. repeat match goal with H : Forall2 _ (_ :: _) (_ :: _) |- _ => inversion H; clear H; subst end.
    repeat (apply Forall2_cons; [assumption|]). apply Forall2_nil. }
  assert (X : forward1 t (lon c * PI / 180, lat c * PI / 180)%R = q).
  { apply (C28_exact_fit lstsq _ _ t t0 LS Fit B); [|exact D].
    cbn [combine List.map ix iy] in I |- *. cbn [In] in I |- *.
    destruct I as [E | [E | [E | [E | []]]]]; injection E as <- <-; tauto. }
  split.
  - intros e. unfold projective_world_to_image. cbn [longitude latitude]. rewrite X. reflexivity.
  - intros Dt o. unfold projective_image_to_world. cbn [ix iy]. rewrite <- surjective_pairing, <- X.
    rewrite inverse_forward by assumption. reflexivity.
Qed.

(** The same for control points, of which there have to be four. *)
Theorem C73_control_points : forall lstsq gcps t t0,
  least_squares lstsq ->
  Forall (fun g => takes t0 (gcp_x g * PI / 180, gcp_y g * PI / 180)%R (gcp_pixel g, gcp_line g)) gcps ->
  gcp_build lstsq gcps = Ok (Some t) ->
  (4 <= List.length gcps)%nat /\
  forall g, In g gcps -> denominator t (gcp_x g * PI / 180, gcp_y g * PI / 180)%R <> 0%R ->
  (forall e, projective_world_to_image t (mkGeo (gcp_x g * PI / 180) (gcp_y g * PI / 180) e) = Ok (mkImage (gcp_pixel g) (gcp_line g)))
  /\ (determinant t <> 0%R -> forall o,
       projective_image_to_world t (mkImage (gcp_pixel g) (gcp_line g)) None o = Ok (mkGeo (gcp_x g * PI / 180) (gcp_y g * PI / 180) 0)).
Proof.
  intros lstsq gcps t t0 LS F B. unfold gcp_build in B. destruct (Nat.ltb_spec (List.length gcps) 4) as [|L]; [discriminate|].
  split; [exact L|]. apply bind_ok in B. destruct B as [t' [B Q]]. injection Q as ->. unfold make_projective_sensor in B.
  destruct gcps as [|g0 gs] eqn:Eg; [cbn in L; lia|]. rewrite <- Eg in *. cbn [List.map] in B.
  replace (match List.map (fun g => mkImage (gcp_pixel g) (gcp_line g)) gcps with
           | [] => Err ValueError
           | _ :: _ => estimate lstsq (List.map (fun g => (longitude g, latitude g))
                         (List.map (fun g => mkGeo (CoordModel.radians (gcp_x g)) (CoordModel.radians (gcp_y g)) (gcp_z g)) gcps))
                         (List.map (fun i => (ix i, iy i)) (List.map (fun g => mkImage (gcp_pixel g) (gcp_line g)) gcps)) end)
    with (estimate lstsq (List.map (fun g => (longitude g, latitude g))
                         (List.map (fun g => mkGeo (CoordModel.radians (gcp_x g)) (CoordModel.radians (gcp_y g)) (gcp_z g)) gcps))
                         (List.map (fun i => (ix i, iy i)) (List.map (fun g => mkImage (gcp_pixel g) (gcp_line g)) gcps))) in B
    by (rewrite Eg; reflexivity).
  rewrite !map_map in B. cbn [longitude latitude ix iy] in B.
  assert (Fit : Forall2 (takes t0) (List.map (fun g => (CoordModel.radians (gcp_x g), CoordModel.radians (gcp_y g))) gcps)
                  (List.map (fun g => (gcp_pixel g, gcp_line g)) gcps)).
  { clear - F. induction F; constructor; assumption. }
  intros g I D.
  assert (X : forward1 t (gcp_x g * PI / 180, gcp_y g * PI / 180)%R = (gcp_pixel g, gcp_line g)).
  { apply (C28_exact_fit lstsq _ _ t t0 LS Fit B); [|exact D]. clear - I. induction gcps as [|x l IH]; [destruct I|].
    cbn [List.map combine In]. destruct I as [-> | I]; [left; reflexivity | right; apply IH; exact I]. }
  split.
  - intros e. unfold projective_world_to_image. cbn [longitude latitude]. rewrite X. reflexivity.
  - intros Dt o. unfold projective_image_to_world. cbn [ix iy]. rewrite <- X. rewrite inverse_forward by assumption. reflexivity.
Qed.

(** Without the TRE, or with fewer than four control points, there is no model; exceptions of the
    fields and of the fit get out. *)
Theorem C73_no_model : forall cv lstsq tres w h gcps,
  ((forall x, In x (children_of tres) -> ~ is_named "tre" "CSCRNA" x) <-> projective_build cv lstsq tres w h = Ok None)
  /\ (gcp_build lstsq gcps = Ok None <-> (List.length gcps < 4)%nat).
Proof.
  intros cv lstsq tres w h gcps. split.
  - rewrite <- find_named_none. unfold projective_build. destruct (find_named tres "tre" "CSCRNA") as [tre|]; [|split; reflexivity].
    split; [discriminate|]. destruct (build_projective_sensor_model cv lstsq tre w h); discriminate.
  - unfold gcp_build. destruct (Nat.ltb_spec (List.length gcps) 4) as [L|L]; [split; [intros _; exact L|reflexivity]|].
    split; [|lia]. destruct (make_projective_sensor _ _ _); discriminate.
Qed.

(** ** C72: load_gdal_dataset *)
Section Load.
Variable M : Type.
Variable bs : Builders M.
Variable cv : Conv.
Variable decode : string -> res string.
Variable tostring : Element -> string.
Variable parse : string -> res Element.
Variable trim : string -> string.
Variable open_dataset : string -> res (option Dataset).
Let load := load_gdal_dataset M bs cv decode tostring parse trim open_dataset.

(** A file GDAL cannot open is a ValueError, with or without GDAL exceptions. *)
Theorem C72_cannot_open : forall path,
  open_dataset path = Ok None \/ open_dataset path = Err RuntimeError -> load path = Err ValueError.
Proof. intros path [E | E]; unfold load, load_gdal_dataset; rewrite E; reflexivity. Qed.

(** Otherwise the dataset comes back with the factory's model for its size, its first TRE document
    and its DES documents, and every type selected. *)
Theorem C72_loaded : forall path d m, load path = Ok (d, m) ->
  open_dataset path = Ok (Some d) /\
  exists md, factory_build M bs cv decode tostring md = Ok m
  /\ md_width md = ds_width d /\ md_height md = ds_height d /\ md_geo_transform md = ds_geo_transform d
  /\ md_proj_wkt md = ds_proj_wkt d /\ md_gcps md = ds_gcps d /\ (forall t, wants md t)
  /\ match ds_tres d with
     | Some (t :: _) => exists e, parse t = Ok e /\ md_tres md = Some e
     | _ => md_tres md = None
     end
  /\ match ds_dess d with
     | Some l => exists es, md_dess md = Some es /\ Forall2 (fun s e => parse (trim (strip_prologs s)) = Ok e) l es
     | None => md_dess md = None
     end.
Proof.
  intros path d m H. unfold load, load_gdal_dataset in H. destruct (open_dataset path) as [[ds|]|[]] eqn:O; try discriminate.
  apply bind_ok in H. destruct H as [tres [T H]]. apply bind_ok in H. destruct H as [dess [De H]].
  apply bind_ok in H. destruct H as [m' [F H]]. injection H as <- <-. split; [reflexivity|].
  eexists. split; [exact F|]. cbn [md_width md_height md_tres md_dess md_geo_transform md_proj_wkt md_gcps md_selected].
  do 5 (split; [reflexivity|]). split; [intros t; unfold wants; cbn; destruct t; tauto|]. split.
  - destruct (ds_tres ds) as [[|t l]|]; try (injection T as <-; reflexivity). apply bind_ok in T. destruct T as [e [E T]].
    injection T as <-. exists e. split; [exact E | reflexivity].
  - destruct (ds_dess ds) as [l|]; [|injection De as <-; reflexivity]. apply bind_ok in De. destruct De as [es [E De]].
    injection De as <-. exists es. split; [reflexivity | apply map_res_ok; exact E].
Qed.
End Load.

(** *** Non-vacuity *)
Definition coefficients (n : string) : Element := El "repeated" [("name", n); ("number", "2")] [group "0" "1"; group "1" "3"].
Definition rpc_tre : Element := El "tre" [("name", "RPC00B")]
  (field "SUCCESS" "1" :: List.map (fun n => field n "7")
     ["ERR_BIAS"; "ERR_RAND"; "LINE_OFF"; "SAMP_OFF"; "LAT_OFF"; "LONG_OFF"; "HEIGHT_OFF";
      "LINE_SCALE"; "SAMP_SCALE"; "LAT_SCALE"; "LONG_SCALE"; "HEIGHT_SCALE"]
   ++ List.map coefficients ["LINE_NUM_COEFF"; "LINE_DEN_COEFF"; "SAMP_NUM_COEFF"; "SAMP_DEN_COEFF"])%list.
Example C71_non_vacuous :
  exists m, rpc_build one_char_conv true (El "tres" [] [El "tre" [("name", "OTHER")] []; rpc_tre]) = Ok (Some m)
  /\ long_off m = 7%R /\ samp_den_poly m = [1; 3]%R.
Proof. eexists. split; [reflexivity | split; reflexivity]. Qed.

Definition rsm_poly_fields (p : string) : list Element :=
  [field (p ++ "PWRX") "1"; field (p ++ "PWRY") "0"; field (p ++ "PWRZ") "0"; coefficients (p ++ "PCF")].
Definition rsmpca (row col off : string) : Element := El "tre" [("name", "RSMPCA")]
  ([field "RSN" row; field "CSN" col; field "RNRMO" off] ++
   List.map (fun n => field n "1") ["CNRMO"; "XNRMO"; "YNRMO"; "ZNRMO"; "RNRMSF"; "CNRMSF"; "XNRMSF"; "YNRMSF"; "ZNRMSF"] ++
   rsm_poly_fields "RN" ++ rsm_poly_fields "RD" ++ rsm_poly_fields "CN" ++ rsm_poly_fields "CD")%list.
Definition rsmida : Element := El "tre" [("name", "RSMIDA")]
  (field "GRNDD" "G" :: List.map (fun n => field n "1") ["MINR"; "MAXR"; "MINC"; "MAXC"] ++
   flat_map (fun n => [field ("V" ++ n ++ "X") n; field ("V" ++ n ++ "Y") n; field ("V" ++ n ++ "Z") "4"]) vertex_numbers)%list.
Definition rsmpia : Element := El "tre" [("name", "RSMPIA")]
  ([field "RNIS" "1"; field "CNIS" "2"; field "RSSIZ" "50"; field "CSSIZ" "60"] ++
   flat_map (fun p => List.map (fun s => field (p ++ s) "2") ["0"; "X"; "Y"; "Z"; "XX"; "XY"; "XZ"; "YY"; "YZ"; "ZZ"]) ["R"; "C"])%list.
(** Two sections given in the wrong order, the first of them twice; and with one of them missing. *)
Example C50_non_vacuous : forall to_geodetic,
  (exists s p q, rsm_build one_char_conv to_geodetic true
     (El "tres" [] [rsmida; rsmpca "1" "2" "22"; rsmpca "1" "1" "10"; rsmpca "1" "1" "11"; rsmpia]) = Ok (Some (SectionedPolynomials s))
   /\ ss_grid s = [[p; q]] /\ row_off p = 11%R /\ row_off q = 22%R)
  /\ rsm_build one_char_conv to_geodetic true
       (El "tres" [] [rsmida; rsmpca "1" "2" "22"; rsmpca "1" "2" "10"; rsmpia]) = Err KeyError.
Proof. intros tg. split; [do 3 eexists; split; [reflexivity | split; [reflexivity | split; reflexivity]] | reflexivity]. Qed.

(** One section, no section, and two sections without a low order polynomial. *)
Example C50_cases_non_vacuous : forall to_geodetic,
  (exists p, rsm_build one_char_conv to_geodetic true (El "tres" [] [rsmida; rsmpca "1" "2" "22"]) = Ok (Some (OnePolynomial p)) /\ row_off p = 22%R)
  /\ rsm_build one_char_conv to_geodetic true (El "tres" [] [rsmida; rsmpia]) = Ok None
  /\ rsm_build one_char_conv to_geodetic true (El "tres" [] [rsmida; rsmpca "1" "2" "22"; rsmpca "1" "1" "10"]) = Ok None
  /\ rsm_build one_char_conv to_geodetic true (El "tres" [] [rsmpca "1" "2" "22"; rsmpia]) = Ok None.
Proof. intros tg. split; [eexists; split; reflexivity|]. repeat split. Qed.

(** Sensor models that are just descriptions. *)
Definition text_builders : Builders string :=
  mkBuilders string (fun _ _ => Ok (Some "affine")) (fun _ => Ok (Some "gcp"))
    (fun t => Ok (match find_named t "tre" "RSMIDA" with Some _ => Some "rsm" | None => None end))
    (fun t => Ok (match find_named t "tre" "RPC00B" with Some _ => Some "rpc" | None => None end))
    (fun _ _ _ => Ok (Some "corners")) (fun x => if String.eqb x "<SIDD bad/>" then None else Some "sidd") (fun _ => Some "sicd")
    (fun _ _ m => Ok ("chip of " ++ m)) (fun a p => a ++ "+" ++ p).
Definition ichipb : Element := El "tre" [("name", "ICHIPB")]
  (field "FI_COL" "900" :: field "FI_ROW" "800" :: List.map (fun n => field n "5") (flat_map
     (fun p => ["OP_COL_" ++ p; "OP_ROW_" ++ p; "FI_COL_" ++ p; "FI_ROW_" ++ p]) ["11"; "12"; "21"; "22"])).
Definition some_metadata (tres : list Element) (des : list string) (sel : option (list SensorType)) : Metadata :=
  mkMetadata 10 20 (Some (El "tres" [] tres))
    (Some [El "des_list" [] (List.map (fun x => El "des" [("name", "XML_DATA_CONTENT")] [field "DESDATA" x]) des)])
    (Some [0; 1; 0; 0; 0; 1]%R) None None sel.
Definition text_factory : Metadata -> res (option string) :=
  factory_build string text_builders one_char_conv (fun s => Ok s) (fun _ => "").
Example C51_non_vacuous :
  text_factory (some_metadata [rpc_tre; ichipb] [] None) = Ok (Some "affine+chip of rpc")
  /\ text_factory (some_metadata [rpc_tre; rsmida; El "tre" [("name", "CSCRNA")] []] [] None) = Ok (Some "corners+rsm")
  /\ text_factory (some_metadata [rsmida] ["other"; "<SICD/>"] None) = Ok (Some "affine+sicd")
  /\ text_factory (some_metadata [rsmida] ["<SICD/>"] (Some [TRSM])) = Ok (Some "rsm")
  /\ text_factory (some_metadata [rsmida] ["<SIDD/>"] (Some [])) = Ok (Some "sidd")
  /\ text_factory (some_metadata [rsmida] ["<SIDD bad/>"] (Some [TRSM])) = Ok None.
Proof. repeat split; reflexivity. Qed.
Example C52_non_vacuous :
  well_formed_chip one_char_conv ichipb
  /\ text_factory (some_metadata [rpc_tre; El "tre" [("name", "ICHIPB")] [field "FI_COL" "900"]] [] None) = Err AttributeError.
Proof.
  split; [|reflexivity]. split.
  - intros n I. exists 5%R. apply float_ok. cbn in I. repeat (destruct I as [<- | I]; [reflexivity|]). destruct I.
  - split; [exists 900%Z | exists 800%Z]; apply int_ok; reflexivity.
Qed.

Definition cscrna (missing : list string) : Element := El "tre" [("name", "CSCRNA")]
  (List.map (fun n => field n "5") (List.filter (fun n => negb (existsb (String.eqb n) missing))
     (flat_map (fun c => [c ++ "CNR_LONG"; c ++ "CNR_LAT"; c ++ "CNR_HT"]) ["UL"; "UR"; "LR"; "LL"]))).
(** A corner without a height: the builder raises, and the factory lets it out although there is an
    RPC model. *)
Definition raising_builders (lstsq : list (list R) -> list R -> res (list R)) : Builders string :=
  mkBuilders string (fun _ _ => Ok (Some "affine")) (fun _ => Ok (Some "gcp")) (fun _ => Ok None) (fun _ => Ok (Some "rpc"))
    (fun t w h => match projective_build one_char_conv lstsq t (IZR w) (IZR h) with Ok (Some _) => Ok (Some "corners") | Ok None => Ok None | Err e => Err e end)
    (fun _ => None) (fun _ => None) (fun _ _ m => Ok m) (fun a p => a ++ "+" ++ p).
Example C51_corner_non_vacuous : forall lstsq,
  projective_build one_char_conv lstsq (El "tres" [] [rpc_tre; cscrna ["LRCNR_HT"]]) 10 20 = Err ValueError /\
  factory_build string (raising_builders lstsq) one_char_conv (fun s => Ok s) (fun _ => "")
    (some_metadata [rpc_tre; cscrna ["LRCNR_HT"]] [] None) = Err ValueError.
Proof. intros lstsq. split; reflexivity. Qed.
Example C72_non_vacuous :
  exists d, load_gdal_dataset string text_builders one_char_conv (fun s => Ok s) (fun _ => "")
    (fun s => Ok (El "tres" [] [rpc_tre])) (fun s => s)
    (fun _ => Ok (Some (mkDataset 10 20 (Some ["first"; "second"]) None None None None))) "image.ntf" = Ok (d, Some "rpc").
Proof. eexists. reflexivity. Qed.

Definition unit_gcps : list Gcp := [mkGcp 0 0 0 10 20; mkGcp 180 0 0 (10 + PI) 20; mkGcp 180 180 0 (10 + PI) (20 + PI); mkGcp 0 180 0 10 (20 + PI)]%R.
Example C73_non_vacuous : exists lstsq t t0, least_squares lstsq
  /\ Forall (fun g => takes t0 (gcp_x g * PI / 180, gcp_y g * PI / 180)%R (gcp_pixel g, gcp_line g)) unit_gcps
  /\ gcp_build lstsq unit_gcps = Ok (Some t) /\ determinant t <> 0%R.
Proof.
  set (t := mkProjective 10 1 0 20 0 1 0 0). exists (knowing t), t, t. split; [apply knowing_least_squares|].
  assert (F : Forall (fun g => takes t (gcp_x g * PI / 180, gcp_y g * PI / 180)%R (gcp_pixel g, gcp_line g)) unit_gcps).
  { repeat (apply Forall_cons; [apply takes_affine; cbn; lra|]). apply Forall_nil. }
  split; [exact F|]. split.
  - unfold gcp_build. cbn [unit_gcps List.length Nat.ltb Nat.leb]. unfold make_projective_sensor. cbn [unit_gcps List.map].
    rewrite knowing_estimate; [reflexivity | discriminate|]. cbn [List.map longitude latitude ix iy gcp_x gcp_y gcp_pixel gcp_line].
    unfold unit_gcps in F. repeat match goal with H : Forall _ (_ :: _) |- _ => inversion H; clear H; subst end.
    repeat (apply Forall2_cons; [assumption|]). apply Forall2_nil.
  - unfold determinant, t. cbn. lra.
Qed.

(** A CSCRNA TRE whose corners are at 0 and 180 degrees, upside down. *)
Definition corners_tre : Element := El "tre" [("name", "CSCRNA")]
  (List.map (fun p => field (fst p) (snd p))
    [("ULCNR_LONG", "0"); ("ULCNR_LAT", "0"); ("URCNR_LONG", "180"); ("URCNR_LAT", "0"); ("LRCNR_LONG", "180"); ("LRCNR_LAT", "180");
     ("LLCNR_LONG", "0"); ("LLCNR_LAT", "180"); ("ULCNR_HT", "7"); ("URCNR_HT", "7"); ("LRCNR_HT", "7"); ("LLCNR_HT", "7")]).
Example C73_corners_non_vacuous : exists lstsq t, least_squares lstsq /\
  projective_build one_char_conv lstsq (El "tres" [] [rpc_tre; corners_tre]) 20 30 = Ok (Some t) /\ determinant t <> 0%R /\
  projective_world_to_image t (mkGeo PI PI 5) = Ok (mkImage 20 30) /\ projective_image_to_world t (mkImage 20 30) None None = Ok (mkGeo PI PI 0).
Proof.
  pose proof PI_RGT_0 as P0. set (t := mkProjective 0 (20 / PI) 0 0 0 (30 / PI) 0 0). exists (knowing t), t. split; [apply knowing_least_squares|].
  set (lon c := if existsb (String.eqb c) ["UL"; "LL"] then 0%R else 180%R). set (lat c := if existsb (String.eqb c) ["UL"; "UR"] then 0%R else 180%R).
  assert (T : Forall2 (fun c q => takes t (lon c * PI / 180, lat c * PI / 180)%R q) ["UL"; "UR"; "LR"; "LL"] [(0, 0); (20, 0); (20, 30); (0, 30)]%R).
  { repeat (apply Forall2_cons; [apply takes_affine; cbn; field; lra|]). apply Forall2_nil. }
  assert (B : projective_build one_char_conv (knowing t) (El "tres" [] [rpc_tre; corners_tre]) 20 30 = Ok (Some t)).
  { unfold projective_build. change (find_named _ "tre" "CSCRNA") with (Some corners_tre). cbv iota. unfold build_projective_sensor_model.
    replace (map_res (corner one_char_conv corners_tre) ["UL"; "UR"; "LR"; "LL"])
      with (Ok [mkGeo (radians 0) (radians 0) (radians 7); mkGeo (radians 180) (radians 0) (radians 7); mkGeo (radians 180) (radians 180) (radians 7); mkGeo (radians 0) (radians 180) (radians 7)]) by reflexivity.
    cbn [bind make_projective_sensor List.map longitude latitude ix iy]. rewrite knowing_estimate; [reflexivity|discriminate|].
    repeat match goal with H : Forall2 _ (_ :: _) _ |- _ => inversion H; clear H; subst end. repeat (apply Forall2_cons; [assumption|]). apply Forall2_nil. }
  assert (D : determinant t <> 0%R).
  { unfold determinant, t. cbn [a0 a1 a2 b0 b1 b2 c0 c1]. assert (0 < / PI)%R by (apply Rinv_0_lt_compat; exact P0). unfold Rdiv. nra. }
  split; [exact B|]. split; [exact D|].
  destruct (C73_corners one_char_conv (knowing t) (El "tres" [] [rpc_tre; corners_tre]) corners_tre 20 30 t t lon lat (knowing_least_squares t)) with (c := "LR") (q := (20, 30)%R) as [W I]; auto.
  - apply find_named_spec. reflexivity.
  - intros c [<-|[<-|[<-|[<-|[]]]]]; split; apply float_ok; reflexivity.
  - right. right. now left.
  - unfold denominator, t. cbn. lra.
  - replace (lon "LR" * PI / 180)%R with PI in * by (cbn; field). replace (lat "LR" * PI / 180)%R with PI in * by (cbn; field). split; [exact (W 5%R)|exact (I D None)].
Qed.

Print Assumptions C71_model.
Print Assumptions C71_no_model.
Print Assumptions C50_section_fields.
Print Assumptions C50_sections.
Print Assumptions C50_cases.
Print Assumptions C50_missing_section_refuted.
Print Assumptions C50_errors.
Print Assumptions C50_ground_domain.
Print Assumptions C51_selection.
Print Assumptions C51_returns.
Print Assumptions C51_sidd_not_gated.
Print Assumptions C51_failed_sidd_discards_refuted.
Print Assumptions C51_corner_error.
Print Assumptions C52_well_formed.
Print Assumptions C52_malformed_refuted.
Print Assumptions C51_malformed_corner.
Print Assumptions C73_corners.
Print Assumptions C73_control_points.
Print Assumptions C72_cannot_open.
Print Assumptions C72_loaded.

(** Specification vocabulary for coordinate text and DEM tile names. *)
Require Import ZArith NArith Reals String Ascii List Bool.
Require Import Verif.Base Verif.Text Verif.TextFacts Verif.CoordModel.
Import ListNotations.
Local Open Scope R_scope.

(** An angle in radians, in degrees. *)
Definition in_degrees (angle : R) : R := angle * 180 / PI.

(** [s] is the 15 character text ddmmss[NS]dddmmss[EW] with the given fields. *)
Definition dms_layout (s : string) (south : bool) (ld lm ls : Z) (west : bool) (od om os : Z) : Prop :=
  exists f1 f2 f3 f4 f5 f6,
    (s = f1 ++ f2 ++ f3 ++ (if south then "S" else "N")
           ++ f4 ++ f5 ++ f6 ++ (if west then "W" else "E"))%string /\
    is_field 2 ld f1 /\ is_field 2 lm f2 /\ is_field 2 ls f3 /\
    is_field 3 od f4 /\ is_field 2 om f5 /\ is_field 2 os f6.

(** Angle denoted by degrees, minutes and seconds, in degrees. *)
Definition dms_value (d m s : Z) : R := IZR d + IZR m / 60 + IZR s / 3600.

(** Which whole seconds are written back.  An angle of exactly [D] degrees, [M] minutes and [S]
    seconds is written with these fields unless [S] leaves remainder 3, 4, 7 or 8 when divided by 9
    (then the seconds are one too low), or [S] is 0 and [M] leaves remainder 2 when divided by 3
    (then one minute too few is written, with 60 seconds). *)
Definition short_second (S : Z) : bool := existsb (Z.eqb (S mod 9)) [3; 4; 7; 8]%Z.
Definition written_fields (M S : Z) : Z * Z :=
  if short_second S then (M, S - 1)%Z
  else if ((S =? 0) && (M mod 3 =? 2))%Z then (M - 1, 60)%Z else (M, S).

(** Format specifications as sequences of tokens. *)
Inductive part := Deg | Min | Sec | HemiLower | HemiUpper.
Inductive token :=
| Literal (c : ascii)          (* any character but '%' *)
| PercentSign                  (* %% *)
| LatRadians | LonRadians      (* %L %O *)
| LatDegrees | LonDegrees      (* %l %o *)
| Elev                         (* %E *)
| LatPart (p : part) | LonPart (p : part)   (* %ld %lm ... %oH *)
| Unknown (c : ascii).         (* % followed by any other character *)

Definition part_char (p : part) : ascii :=
  match p with Deg => "d" | Min => "m" | Sec => "s" | HemiLower => "h" | HemiUpper => "H" end%char.

Definition token_text (t : token) : string :=
  match t with
  | Literal c => String c ""
  | PercentSign => "%%"
  | LatRadians => "%L" | LonRadians => "%O"
  | LatDegrees => "%l" | LonDegrees => "%o"
  | Elev => "%E"
  | LatPart p => String "%" (String "l" (String (part_char p) ""))
  | LonPart p => String "%" (String "o" (String (part_char p) ""))
  | Unknown c => String "%" (String c "")
  end.

Fixpoint spec_text (ts : list token) : string :=
  match ts with [] => "" | t :: r => (token_text t ++ spec_text r)%string end.

Definition is_part_char (c : ascii) : Prop := exists p, c = part_char p.

(** A token is what it says it is. *)
Definition token_ok (t : token) : Prop :=
  match t with
  | Literal c => c <> "%"%char
  | Unknown c => ~ In c ["L"; "O"; "l"; "o"; "E"; "%"]%char
  | _ => True
  end.

(** %l and %o must not be followed by a literal part letter (it would be read as part
    of the directive). *)
Fixpoint tokens_ok (ts : list token) : Prop :=
  match ts with
  | [] => True
  | t :: r => token_ok t /\
      (match t, r with
       | (LatDegrees | LonDegrees), Literal c :: _ => ~ is_part_char c
       | _, _ => True
       end) /\ tokens_ok r
  end.

(** The one-degree cell of an angle. *)
Definition in_cell (k : Z) (angle : R) : Prop := IZR k <= in_degrees angle < IZR k + 1.

(** Text each token stands for.  The degree, minute and second numbers are those of
    the model; their meaning is the subject of C07 - C09. *)
Definition token_output (show_float : R -> string) (w : Geodetic) (t : token) : string :=
  let lat := split_dms (latitude w) in
  let lon := split_dms (longitude w) in
  match t with
  | Literal c => String c ""
  | PercentSign => "%"
  | LatRadians => show_float (latitude w)
  | LonRadians => show_float (longitude w)
  | LatDegrees => show_float (Rabs (in_degrees (latitude w)))
  | LonDegrees => show_float (Rabs (in_degrees (longitude w)))
  | Elev => show_float (elevation w)
  | LatPart Deg => fmt0 2 (dms_d lat)
  | LatPart Min => fmt0 2 (dms_m lat)
  | LatPart Sec => fmt0 2 (dms_s lat)
  | LatPart HemiLower => if Rlt_dec (in_degrees (latitude w)) 0 then "s" else "n"
  | LatPart HemiUpper => if Rlt_dec (in_degrees (latitude w)) 0 then "S" else "N"
  | LonPart Deg => fmt0 3 (dms_d lon)
  | LonPart Min => fmt0 2 (dms_m lon)
  | LonPart Sec => fmt0 2 (dms_s lon)
  | LonPart HemiLower => if Rlt_dec (in_degrees (longitude w)) 0 then "w" else "e"
  | LonPart HemiUpper => if Rlt_dec (in_degrees (longitude w)) 0 then "W" else "E"
  | Unknown _ => ""
  end%string.


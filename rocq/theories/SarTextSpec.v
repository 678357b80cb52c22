(** Vocabulary for what the SAR sensor models are made of: the elements and attributes of an XML
    document, found by their names.  Nothing here mentions the dataclasses. *)
Require Import ZArith Reals String List Bool.
Require Import Verif.Base Verif.Vec Verif.SarMetaModel Verif.SchemaModel.
Import ListNotations.
Local Open Scope string_scope.

Definition contents (x : Xml) : list Xml := let '(Node _ _ _ ys) := x in ys.
Definition text_of (x : Xml) : string := let '(Node _ _ s _) := x in s.
(** The attribute [n], which has no namespace. *)
Definition attribute_of (x : Xml) (n : string) : option string :=
  let '(Node _ l _ _) := x in option_map snd (find (fun p => String.eqb (fst (fst p)) "" && String.eqb (snd (fst p)) n)%bool l).
(** The children with the local name [n], and the elements at a path of local names. *)
Definition part (x : Xml) (n : string) : list Xml := filter (fun y => String.eqb (snd (tag y)) n) (contents x).
Fixpoint elements (x : Xml) (p : list string) : list Xml :=
  match p with [] => [x] | n :: r => flat_map (fun y => elements y r) (part x n) end.

Section At.
Context {F D T : Type}.
Variable L : Lexical F D T.
Variable num : F -> R.

Definition says_number (s : string) (r : R) : Prop := exists f, read_float L s = Some f /\ num f = r.
Definition says_integer (s : string) (z : Z) : Prop := read_int L s = Some z.
Definition attribute_integer (x : Xml) (n : string) (z : Z) : Prop := exists s, attribute_of x n = Some s /\ says_integer s z.

(** One element is at the path, and its text is the number. *)
Definition number_at (x : Xml) (p : list string) (r : R) : Prop := exists y, elements x p = [y] /\ contents y = [] /\ says_number (text_of y) r.
Definition integer_at (x : Xml) (p : list string) (z : Z) : Prop := exists y, elements x p = [y] /\ contents y = [] /\ says_integer (text_of y) z.
(** Its text, up to white space, is [s]. *)
Definition word_at (x : Xml) (p : list string) (s : string) : Prop := exists y, elements x p = [y] /\ contents y = [] /\ collapse (text_of y) = s.
Definition vector_at (x : Xml) (p : list string) (v : Vec) : Prop :=
  number_at x (p ++ ["X"]) (vx v) /\ number_at x (p ++ ["Y"]) (vy v) /\ number_at x (p ++ ["Z"]) (vz v).
(** A column and a row. *)
Definition pixel_at (x : Xml) (p : list string) (c : R * R) : Prop := number_at x (p ++ ["Col"]) (fst c) /\ number_at x (p ++ ["Row"]) (snd c).
(** A polynomial: its order, and a coefficient for each Coef element, in their order. *)
Definition poly1_at (x : Xml) (p : list string) (q : Poly1) : Prop :=
  exists y, elements x p = [y] /\ attribute_integer y "order1" (order1 q) /\
    Forall2 (fun e c => attribute_integer e "exponent1" (exponent1 c) /\ says_number (text_of e) (value1 c)) (part y "Coef") (coefs1 q).
Definition poly2_at (x : Xml) (p : list string) (q : Poly2) : Prop :=
  exists y, elements x p = [y] /\ attribute_integer y "order1" (order2_1 q) /\ attribute_integer y "order2" (order2_2 q) /\
    Forall2 (fun e c => attribute_integer e "exponent1" (exponent2_1 c) /\ attribute_integer e "exponent2" (exponent2_2 c) /\
                        says_number (text_of e) (value2 c)) (part y "Coef") (coefs2 q).
Definition xyz_at (x : Xml) (p : list string) (q : XyzPoly) : Prop :=
  poly1_at x (p ++ ["X"]) (poly_x q) /\ poly1_at x (p ++ ["Y"]) (poly_y q) /\ poly1_at x (p ++ ["Z"]) (poly_z q).

(** The names of the grids and of the algorithms in the SICD format. *)
Definition grid_name (t : GridType) : string :=
  match t with RGAZIM => "RGAZIM" | RGZERO => "RGZERO" | XRGYCR => "XRGYCR" | XCTYAT => "XCTYAT" | GridPLANE => "PLANE" end.
Definition algorithm_name (a : FormAlgo) (s : string) : Prop :=
  match a with AlgoPFA => s = "PFA" | AlgoRMA => s = "RMA" | AlgoRGAZCOMP => s = "RGAZCOMP" | AlgoOTHER => ~ In s ["PFA"; "RMA"; "RGAZCOMP"] end.
End At.

(** The XML schemas of SICD and SIDD.
    Source: schemas/sicd and schemas/sidd, from which the dataclasses in src/aws/osml/formats were
    generated; the tables XsdTypes.v, XsdCommon.v, XsdSicd.v and XsdSidd.v have all their types.
    Modelled: which element trees an XML Schema validator accepts: names, order and number of
    elements, attributes, and texts of simple types with their facets.
    Simplifications: extensions, attribute groups and references are already expanded, an attribute
    with a fixed value has a type with one value; other attributes than the declared ones are not
    excluded, nor is text between elements; xsi:type and xsi:nil are not modelled; an enumeration of
    integers is one of their shortest texts; the length of a text is counted in bytes. *)
Require Import ZArith Reals String List Bool.
Require Import Verif.Base Verif.SchemaModel.
Import ListNotations.
Local Open Scope string_scope.

(** *** Types *)

(** Simple types.  [collapsed] means that white space is collapsed first (xs:token).  Several patterns
    are alternatives; no pattern means any text.  The upper bound of a double comes with whether it is
    included. *)
Inductive Simple :=
| SString (collapsed : bool) (max_length : option nat) (patterns : list string)
| SEnum (collapsed : bool) (vs : list string)
| SInt (lo hi : option Z)
| SDouble (lo : option Z) (hi : option (Z * bool))
| SBoolean (only : option bool)
| SDate
| SDateTime
| SList (s : Simple) (max_length : option nat)
| SUnion (a b : Simple).
(** xs:string, xs:token, xs:double and xs:int. *)
Definition SText : Simple := SString false None [].
Definition SToken : Simple := SString true None [].
Definition SNumber : Simple := SDouble None None.
Definition SInt32 : Simple := SInt (Some (-2147483648)%Z) (Some 2147483647%Z).

Inductive XTy := XSimple (s : Simple) | XComplex (name : string).
(** xs:element with minOccurs and maxOccurs, xs:sequence, xs:choice, and either with minOccurs="0". *)
Inductive Particle :=
| PElement (q : QName) (t : XTy) (least : nat) (most : option nat)
| PSequence (ps : list Particle)
| PChoice (ps : list Particle)
| POptional (p : Particle).
Record XAttribute := mkXAttribute { xa_name : QName; xa_type : Simple; xa_required : bool }.
(** A complex type has elements, or a text ([x_text]), and attributes. *)
Record XClass := mkXClass { x_name : string; x_particle : Particle; x_text : option Simple; x_attributes : list XAttribute }.
Definition find_xclass (xs : list XClass) (n : string) : option XClass := find (fun k => String.eqb (x_name k) n) xs.

(** *** Validity *)

(** An element, as its name and the types of which it is valid. *)
Notation Judged := (QName * (XTy -> Prop))%type.

Section Validity.
Context {F D T : Type}.
(** Which texts denote which values, and which texts match a pattern. *)
Record XsdTexts := mkXsdTexts {
  int_text : string -> Z -> Prop; double_text : string -> F -> Prop;
  date_text : string -> D -> Prop; datetime_text : string -> T -> Prop;
  pattern_text : string -> string -> Prop; number_of : F -> R }.
Variable X : XsdTexts.
(** Whether a list may be empty; XML Schema says yes. *)
Variable empty_lists : bool.

Definition longest {A} (m : option nat) (length : A -> nat) (a : A) : Prop := match m with Some n => (length a <= n)%nat | None => True end.
Fixpoint valid_simple (s : Simple) (text : string) : Prop :=
  match s with
  | SString c m ps =>
    let t := if c then collapse text else text in
    longest m String.length t /\ (ps = [] \/ Exists (fun p => pattern_text X p t) ps)
  | SEnum c vs => In (if c then collapse text else text) vs
  | SInt lo hi => exists z, int_text X text z /\ match lo with Some l => (l <= z)%Z | None => True end /\ match hi with Some h => (z <= h)%Z | None => True end
  | SDouble lo hi =>
    exists f, double_text X text f /\ match lo with Some l => (IZR l <= number_of X f)%R | None => True end
    /\ match hi with Some (h, true) => (number_of X f <= IZR h)%R | Some (h, false) => (number_of X f < IZR h)%R | None => True end
  | SBoolean only =>
    (In (collapse text) ["true"; "1"] /\ only <> Some false) \/ (In (collapse text) ["false"; "0"] /\ only <> Some true)
  | SDate => exists d, date_text X text d
  | SDateTime => exists t, datetime_text X text t
  | SList s m => Forall (valid_simple s) (words text) /\ longest m (@List.length string) (words text) /\ (empty_lists = true \/ words text <> [])
  | SUnion a b => valid_simple a text \/ valid_simple b text
  end.

Fixpoint matches (p : Particle) (vs : list Judged) : Prop :=
  match p with
  | PElement q t least most =>
    Forall (fun v => fst v = q /\ snd v t) vs /\ (least <= List.length vs)%nat /\ longest most (@List.length Judged) vs
  | PSequence ps =>
    (fix each (ps : list Particle) (vs : list Judged) : Prop :=
       match ps with [] => vs = [] | p :: r => exists a b, vs = (a ++ b)%list /\ matches p a /\ each r b end) ps vs
  | PChoice ps => (fix any (ps : list Particle) : Prop := match ps with [] => False | p :: r => matches p vs \/ any r end) ps
  | POptional p => vs = [] \/ matches p vs
  end.
Definition valid_attribute (attributes : list (QName * string)) (a : XAttribute) : Prop :=
  match find_text (xa_name a) attributes with Some s => valid_simple (xa_type a) s | None => xa_required a = false end.

Variable types : list XClass.
Fixpoint valid (x : Xml) : XTy -> Prop :=
  let '(Node _ attributes text children) := x in
  let judged := map (fun y => (tag y, valid y)) children in
  fun t =>
  match t with
  | XSimple s => children = [] /\ valid_simple s text
  | XComplex n =>
    exists k, find_xclass types n = Some k /\ matches (x_particle k) judged
    /\ match x_text k with Some s => valid_simple s text | None => True end
    /\ Forall (valid_attribute attributes) (x_attributes k)
  end.
End Validity.
Arguments XsdTexts : clear implicits.

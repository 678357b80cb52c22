(** Vocabulary for documents that are valid against the schemas, and the check that the dataclasses
    fit the types they were generated from. *)
Require Import ZArith Reals String Ascii List Bool.
Require Import Verif.Base Verif.SchemaModel Verif.SchemaSpec Verif.XsdModel Verif.XsdCommon Verif.XsdSicd Verif.XsdSidd Verif.XsdPairs.
Import ListNotations.
Local Open Scope string_scope.

(** All complex types of schemas/sicd and schemas/sidd. *)
Definition all_types : list XClass := common_types ++ sicd_types ++ sidd_types.
(** The five root elements and their types. *)
Definition xsd_roots : list (QName * string) :=
  [(("urn:SICD:1.2.1", "SICD"), "sicd121.SICD/"); (("urn:SICD:1.3.0", "SICD"), "sicd130.SICD/");
   (("urn:SIDD:1.0.0", "SIDD"), "sidd100.SIDD/"); (("urn:SIDD:2.0.0", "SIDD"), "sidd200.SIDD/"); (("urn:SIDD:3.0.0", "SIDD"), "sidd300.SIDD/")].
(** A valid SICD or SIDD document. *)
Definition valid_document {F D T} (X : XsdTexts F D T) (empty_lists : bool) (x : Xml) : Prop :=
  exists n, In (tag x, n) xsd_roots /\ valid X empty_lists all_types x (XComplex n).

(** Texts that denote a value are read as this value, and the text written for a value denotes it. *)
Definition agrees {F D T} (X : XsdTexts F D T) (L : Lexical F D T) : Prop :=
  (forall s z, int_text X s z -> read_int L s = Some z) /\ (forall z, int_text X (show_int L z) z)
  /\ (forall s f, double_text X s f -> read_float L s = Some f) /\ (forall f, double_text X (show_float L f) f)
  /\ (forall s d, date_text X s d -> read_date L s = Some d) /\ (forall d, date_text X (show_date L d) d)
  /\ (forall s t, datetime_text X s t -> read_datetime L s = Some t) /\ (forall t, datetime_text X (show_datetime L t) t).

(** *** Classes that fit types *)
Section Fit.
Variable S : Schema.
Variable pairs : list (string * string).

Fixpoint same_list (a b : list string) : bool :=
  match a, b with [], [] => true | x :: a, y :: b => (String.eqb x y && same_list a b)%bool | _, _ => false end.
Definition same_texts (a b : list string) : bool :=
  if same_list a b then true else (forallb (fun v => existsb (String.eqb v) b) a && forallb (fun v => existsb (String.eqb v) a) b)%bool.
(** The values are not empty and have their white space collapsed. *)
Definition tidy (vs : list string) : bool := forallb (fun v => negb (String.eqb v "") && String.eqb (collapse v) v)%bool vs.
Definition fits_simple (s : Simple) (t : Ty) : bool :=
  match s, t with
  | SString _ _ _, TPrim PStr | SInt _ _, TPrim PInt | SDouble _ _, TPrim PFloat | SBoolean _, TPrim PBool
  | SDate, TPrim PDate | SDateTime, TPrim PDateTime => true
  | SEnum _ vs, TEnum e => (tidy vs && same_texts vs (values S e))%bool
  | SUnion (SEnum _ vs) (SString _ _ _), TEnumOrStr e | SUnion (SString _ _ _) (SEnum _ vs), TEnumOrStr e =>
    (tidy vs && same_texts vs (values S e))%bool
  | SUnion (SString _ _ _) (SString _ _ _), TPrim PStr => true
  | _, _ => false
  end.
Definition fits_fixed (s : Simple) (d : Default) : bool :=
  match d with
  | NoDefault | EmptyString => true
  | FixedInt z => match s with SInt (Some l) (Some h) => ((l =? z)%Z && (h =? z)%Z)%bool | _ => false end
  | FixedBool b => match s with SBoolean (Some b') => Bool.eqb b b' | _ => false end
  end.
(** The text of an attribute or an element as the value of a field. *)
Definition fits_text (s : Simple) (f : Field) : bool :=
  (fits_fixed s (default f) &&
   match mult f with
   | One => fits_simple s (ty f)
   | Many => false
   | Tokens => match s with SList s' _ => fits_simple s' (ty f) | _ => false end
   end)%bool.
Definition fits_type (t : XTy) (u : Ty) : bool :=
  match t, u with
  | XSimple s, TClass _ => false
  | XSimple s, u => fits_simple s u
  | XComplex n, TClass c => existsb (fun p => String.eqb (fst p) c && String.eqb (snd p) n)%bool pairs
  | XComplex _, _ => false
  end.

(** The elements of a particle, in order. *)
Fixpoint leaves (p : Particle) : list (QName * XTy) :=
  match p with
  | PElement q t _ _ => [(q, t)]
  | PSequence ps | PChoice ps => flat_map leaves ps
  | POptional p => leaves p
  end.
Definition plus_most (a b : option nat) : option nat := match a, b with Some x, Some y => Some (x + y)%nat | _, _ => None end.
Definition max_most (a b : option nat) : option nat := match a, b with Some x, Some y => Some (Nat.max x y) | _, _ => None end.
(** How many elements named [q] there can be. *)
Fixpoint least_of (q : QName) (p : Particle) : nat :=
  match p with
  | PElement q' _ least _ => if qname_eqb q' q then least else 0
  | PSequence ps => fold_right (fun p n => least_of q p + n)%nat 0%nat ps
  | PChoice ps => match ps with [] => 0 | p :: r => fold_right (fun p n => Nat.min (least_of q p) n) (least_of q p) r end
  | POptional p => 0
  end.
Fixpoint most_of (q : QName) (p : Particle) : option nat :=
  match p with
  | PElement q' _ _ most => if qname_eqb q' q then most else Some 0%nat
  | PSequence ps => fold_right (fun p n => plus_most (most_of q p) n) (Some 0%nat) ps
  | PChoice ps => fold_right (fun p n => max_most (most_of q p) n) (Some 0%nat) ps
  | POptional p => most_of q p
  end.
Definition at_most_one (m : option nat) : bool := match m with Some n => Nat.leb n 1 | None => false end.
Fixpoint fits_elements (fs : list Field) (ls : list (QName * XTy)) : bool :=
  match fs, ls with
  | [], [] => true
  | f :: fr, l :: lr => (qname_eqb (qname f) (fst l) && fits_type (snd l) (ty f) && fits_elements fr lr)%bool
  | _, _ => false
  end.
(** Whether a text of this type can be empty. *)
Definition may_be_empty (s : Simple) : bool :=
  match s with SString _ _ _ | SUnion _ _ => true | _ => false end.
Definition fits_content (f : option Field) (s : option Simple) : bool :=
  match f, s with
  | None, None => true
  | Some f, Some s => (fits_text s f && (negb (required f) || negb (may_be_empty s) || match default f with EmptyString => true | _ => false end))%bool
  | _, _ => false
  end.
Definition fits_attribute (a : XAttribute) (f : Field) : bool :=
  if qname_eqb (xa_name a) (qname f) then
    (fits_text (xa_type a) f && (negb (required f) || xa_required a) && match default f with EmptyString => xa_required a | _ => true end)%bool
  else false.
(** The same elements in the same order, each of a type that fits and neither repeated nor missing
    against the class; the same attributes; the same kind of text. *)
Definition fits (k : Class) (x : XClass) : bool :=
  (fits_elements (filter is_element (c_fields k)) (leaves (x_particle x))
   && forallb (fun f => (negb (is_one f) || at_most_one (most_of (qname f) (x_particle x)))
                        && (negb (required f) || Nat.leb 1 (least_of (qname f) (x_particle x))))%bool (filter is_element (c_fields k))
   && fits_content (hd_error (filter is_content (c_fields k))) (x_text x)
   && forallb (fun f => existsb (fun a => fits_attribute a f) (x_attributes x)) (filter is_attribute (c_fields k))
   && forallb (fun a => existsb (fits_attribute a) (filter is_attribute (c_fields k))) (x_attributes x))%bool.
Definition all_fit (types : list XClass) : bool :=
  forallb (fun p => match find_class S (fst p), find_xclass types (snd p) with Some k, Some x => fits k x | _, _ => false end) pairs.
End Fit.

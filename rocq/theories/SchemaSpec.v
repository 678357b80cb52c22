(** Vocabulary for documents: what a schema must satisfy, and which objects are instances of its classes. *)
Require Import ZArith String Ascii List Bool.
Require Import Verif.Base Verif.SchemaModel Verif.SchemaEnums Verif.SchemaCommon Verif.SchemaSicd Verif.SchemaSidd.
Import ListNotations.
Local Open Scope string_scope.

(** All dataclasses and enumerations of src/aws/osml/formats. *)
Definition formats : Schema := mkSchema (common_classes ++ sicd_classes ++ sidd_classes) all_enums.

(** *** Schemas *)

Definition text_type (t : Ty) : Prop := match t with TClass _ => False | _ => True end.
(** Fields that xsdata can tell apart and fill. *)
Definition field_ok (f : Field) : Prop :=
  match kind f with
  | Element => mult f <> Tokens /\ default f = NoDefault
  | _ => mult f <> Many /\ text_type (ty f) /\ (mult f = Tokens -> default f = NoDefault)
  end
  /\ match default f with FixedInt _ => ty f = TPrim PInt | FixedBool _ => ty f = TPrim PBool | EmptyString => ty f = TPrim PStr | NoDefault => True end.
Definition class_ok (k : Class) : Prop :=
  Forall field_ok (c_fields k)
  /\ NoDup (map qname (filter is_element (c_fields k)))
  /\ NoDup (map qname (filter is_attribute (c_fields k)))
  /\ (List.length (filter is_content (c_fields k)) <= 1)%nat
  /\ NoDup (map attr (c_fields k)).
(** A word is not empty and has no white space. *)
Definition is_word (s : string) : Prop := s <> "" /\ forall i c, String.get i s = Some c -> is_space c = false.
(** The values of an enumeration are words separated by single spaces. *)
Definition enum_ok (e : string * list string) : Prop := forall v, In v (snd e) -> v <> "" /\ collapse v = v.
Definition schema_ok (S : Schema) : Prop :=
  Forall class_ok (classes S) /\ Forall enum_ok (enums S) /\ NoDup (map c_name (classes S)).

(** *** Objects *)
Section Objects.
Context {F D T : Type}.
Notation Value := (Value F D T).
Notation Obj := (Obj F D T).
Variable L : Lexical F D T.

(** Numbers and dates that are written can be read and are words; nothing is not the text of any. *)
Definition lexical_ok : Prop :=
  (forall z, read_int L (show_int L z) = Some z) /\ read_int L "" = None
  /\ (forall f, read_float L (show_float L f) = Some f) /\ read_float L "" = None
  /\ (forall d, read_date L (show_date L d) = Some d) /\ read_date L "" = None
  /\ (forall t, read_datetime L (show_datetime L t) = Some t) /\ read_datetime L "" = None
  /\ (forall z, is_word (show_int L z)) /\ (forall f, is_word (show_float L f))
  /\ (forall d, is_word (show_date L d)) /\ (forall t, is_word (show_datetime L t)).

Variable S : Schema.

(** [v] is a value of type [t].  A text in a field of type Union[str, E] must not be one of E's values. *)
Definition value_ok (t : Ty) (v : Value) : Prop :=
  match t, v with
  | TPrim PStr, VStr _ | TPrim PInt, VInt _ | TPrim PFloat, VFloat _ | TPrim PBool, VBool _
  | TPrim PDate, VDate _ | TPrim PDateTime, VDateTime _ => True
  | TEnum e, VEnum e' m => e' = e /\ In m (values S e)
  | TEnumOrStr e, VEnum e' m => e' = e /\ In m (values S e)
  | TEnumOrStr e, VStr s => ~ In (collapse s) (values S e)
  | _, _ => False
  end.
(** [v] is what the text of [v] reads as, which is all that can be said of what is read from any text. *)
Definition stable (t : Ty) (v : Value) : Prop := read L S t (show L v) = v.
(** What a field may hold besides values of its type: None only when it has no other default, the
    default only when it is fixed, and no text that reads as absent. *)
Definition slot_ok (f : Field) (s : list Obj) : Prop :=
  match default f with
  | NoDefault =>
    match mult f with
    | One => (List.length s <= 1)%nat
    | Many => True
    | Tokens => Forall (fun o => is_word (leaf_text L o)) s
    end
    /\ (kind f = Content -> s <> [] -> slot_text L s <> "")
  | EmptyString => List.length s = 1%nat
  | FixedInt z => s = [Leaf (VInt z)]
  | FixedBool b => s = [Leaf (VBool b)]
  end.
(** [o] is a value or an instance of type [t], and so are its parts; [ok] says which values count. *)
Fixpoint shaped (ok : Ty -> Value -> Prop) (t : Ty) (o : Obj) : Prop :=
  match o with
  | Leaf v => text_type t /\ ok t v
  | Inst c slots =>
    t = TClass c /\
    exists k, find_class S c = Some k /\
    (fix all (ss : list (list Obj)) (fs : list Field) : Prop :=
       match ss, fs with
       | [], [] => True
       | s :: sr, f :: fr =>
         slot_ok f s /\ (fix each (os : list Obj) : Prop := match os with [] => True | o :: r => shaped ok (ty f) o /\ each r end) s /\ all sr fr
       | _, _ => False
       end) slots (c_fields k)
  end.
Definition typed : Ty -> Obj -> Prop := shaped value_ok.
(** [o] with each value replaced by what its text reads as. *)
Fixpoint reread (t : Ty) (o : Obj) : Obj :=
  match o with
  | Leaf v => Leaf (read L S t (show L v))
  | Inst c slots =>
    match find_class S c with
    | None => o
    | Some k => Inst c ((fix all (ss : list (list Obj)) (fs : list Field) : list (list Obj) :=
                           match ss, fs with s :: sr, f :: fr => map (reread (ty f)) s :: all sr fr | _, _ => [] end) slots (c_fields k))
    end
  end.
(** The elements, attributes and texts that the schema requires are present. *)
Fixpoint complete (o : Obj) : Prop :=
  match o with
  | Leaf _ => True
  | Inst c slots =>
    exists k, find_class S c = Some k /\
    (fix all (ss : list (list Obj)) (fs : list Field) : Prop :=
       match ss, fs with
       | s :: sr, f :: fr =>
         (required f = true -> s <> []) /\ (fix each (os : list Obj) : Prop := match os with [] => True | o :: r => complete o /\ each r end) s /\ all sr fr
       | _, _ => True
       end) slots (c_fields k)
  end.
End Objects.

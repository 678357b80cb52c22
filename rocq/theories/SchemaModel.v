(** The data binding of SICD and SIDD documents.
    Source: the dataclasses in src/aws/osml/formats (generated by xsdata from the XML schemas; their
    tables are SchemaEnums.v, SchemaCommon.v, SchemaSicd.v and SchemaSidd.v), which
    gdal/sicd_sensor_model_builder.py:107-109, gdal/sidd_sensor_model_builder.py:55-57,
    image_processing/sicd_updater.py:27-29 and 70-72, and image_processing/sidd_updater.py:24-27 and
    137-145 hand to xsdata's XmlParser and XmlSerializer with the default configuration.
    Modelled of xsdata: how element and attribute names select fields, how texts become values and
    back, what happens to absent, repeated and unknown parts.  Simplifications: a document is the tree
    an XML parser makes of it, names carry their namespaces, so prefixes, comments and escapes are not
    modelled; xsi:type and xsi:nil are not modelled; a warning is not an event; the length, range and
    pattern restrictions in the metadata of the fields are left out because xsdata does not check them. *)
Require Import ZArith String Ascii List Bool.
Require Import Verif.Base.
Import ListNotations.
Local Open Scope string_scope.

(** *** The dataclasses *)

(** Namespace and local name. *)
Definition QName : Type := (string * string)%type.
Definition qname_eqb (a b : QName) : bool := (String.eqb (snd a) (snd b) && String.eqb (fst a) (fst b))%bool.

Inductive Prim := PStr | PInt | PFloat | PBool | PDate | PDateTime.
(** Optional[Union[str, E]] is [TEnumOrStr]. *)
Inductive Ty := TPrim (p : Prim) | TEnum (e : string) | TEnumOrStr (e : string) | TClass (c : string).
(** The "type" of the metadata; a field without one holds the text of the element. *)
Inductive Kind := Element | Attribute | Content.
(** Optional[...], List[...] and List[...] with "tokens". *)
Inductive Mult := One | Many | Tokens.
(** default=None or default_factory=list, default="", and the defaults of fields with init=False. *)
Inductive Default := NoDefault | EmptyString | FixedInt (z : Z) | FixedBool (b : bool).

Record Field := mkField {
  attr : string; kind : Kind; qname : QName; ty : Ty; mult : Mult; required : bool; default : Default }.
(** [c_name] is the module and the qualified name, [c_qname] the name under which xsdata registers it. *)
Record Class := mkClass { c_name : string; c_qname : QName; c_fields : list Field }.
Record Schema := mkSchema { classes : list Class; enums : list (string * list string) }.

Definition find_class (S : Schema) (c : string) : option Class :=
  find (fun k => String.eqb (c_name k) c) (classes S).
Definition values (S : Schema) (e : string) : list string :=
  match find (fun p => String.eqb (fst p) e) (enums S) with Some p => snd p | None => [] end.

Definition is_element (f : Field) : bool := match kind f with Element => true | _ => false end.
Definition is_attribute (f : Field) : bool := match kind f with Attribute => true | _ => false end.
Definition is_content (f : Field) : bool := match kind f with Content => true | _ => false end.
Definition is_one (f : Field) : bool := match mult f with One => true | _ => false end.
Definition find_element (k : Class) (q : QName) : option Field :=
  find (fun f => is_element f && qname_eqb (qname f) q)%bool (c_fields k).

(** *** Texts *)

Definition is_space (c : ascii) : bool :=
  match c with " "%char | "009"%char | "010"%char | "013"%char => true | _ => false end.
(** The first word of a text, empty when the text starts with white space, and the other words. *)
Fixpoint split_words (s : string) : string * list string :=
  match s with
  | "" => ("", [])
  | String c r =>
    let '(w, ws) := split_words r in
    if is_space c then ("", if String.eqb w "" then ws else w :: ws) else (String c w, ws)
  end.
(** str.split(). *)
Definition words (s : string) : list string :=
  let '(w, ws) := split_words s in if String.eqb w "" then ws else w :: ws.
Definition collapse (s : string) : string := String.concat " " (words s).

(** *** Objects and documents *)

Inductive Xml := Node (name : QName) (attributes : list (QName * string)) (text : string) (children : list Xml).
Definition tag (x : Xml) : QName := let '(Node q _ _ _) := x in q.

Section Binding.
(** Python's floats and xsdata's dates. *)
Context {F D T : Type}.

Inductive Value :=
| VStr (s : string) | VInt (z : Z) | VFloat (f : F) | VBool (b : bool) | VDate (d : D) | VDateTime (t : T)
| VEnum (e : string) (member : string).

(** An instance of a dataclass keeps a list for each field, empty for None and for the empty list. *)
Inductive Obj := Leaf (v : Value) | Inst (c : string) (slots : list (list Obj)).

(** xsdata's converters for numbers and dates. *)
Record Lexical := mkLexical {
  show_int : Z -> string; read_int : string -> option Z;
  show_float : F -> string; read_float : string -> option F;
  show_date : D -> string; read_date : string -> option D;
  show_datetime : T -> string; read_datetime : string -> option T }.

Variable L : Lexical.
Variable S : Schema.

Definition show (v : Value) : string :=
  match v with
  | VStr s => s
  | VInt z => show_int L z
  | VFloat f => show_float L f
  | VBool b => if b then "true" else "false"
  | VDate d => show_date L d
  | VDateTime t => show_datetime L t
  | VEnum _ m => m
  end.

Definition read_bool (s : string) : option bool :=
  if (String.eqb s "true" || String.eqb s "1")%bool then Some true
  else if (String.eqb s "false" || String.eqb s "0")%bool then Some false else None.
Definition read_prim (p : Prim) (s : string) : option Value :=
  match p with
  | PStr => Some (VStr s)
  | PInt => option_map VInt (read_int L s)
  | PFloat => option_map VFloat (read_float L s)
  | PBool => option_map VBool (read_bool (collapse s))
  | PDate => option_map VDate (read_date L s)
  | PDateTime => option_map VDateTime (read_datetime L s)
  end.
(** The member of an enumeration that a text names. *)
Definition member (e s : string) : option string := find (fun m => String.eqb m (collapse s)) (values S e).
(** A text that cannot be converted stays a text (with a warning). *)
Definition read (t : Ty) (s : string) : Value :=
  match t with
  | TPrim p => match read_prim p s with Some v => v | None => VStr s end
  | TEnum e | TEnumOrStr e => match member e s with Some m => VEnum e m | None => VStr s end
  | TClass _ => VStr s
  end.

(** *** Rendering *)

Definition leaf_text (o : Obj) : string := match o with Leaf v => show v | Inst _ _ => "" end.
Definition slot_text (slot : list Obj) : string := String.concat " " (map leaf_text slot).
(** Attributes that are None or empty lists are not written. *)
Fixpoint render_attributes (fs : list Field) (slots : list (list Obj)) : list (QName * string) :=
  match fs, slots with
  | f :: fr, s :: sr =>
    match kind f, s with
    | Attribute, _ :: _ => (qname f, slot_text s) :: render_attributes fr sr
    | _, _ => render_attributes fr sr
    end
  | _, _ => []
  end.
Fixpoint render_content (fs : list Field) (slots : list (list Obj)) : string :=
  match fs, slots with
  | f :: fr, s :: sr => if is_content f then slot_text s else render_content fr sr
  | _, _ => ""
  end.
(** The children follow the order of the fields. *)
Fixpoint render (q : QName) (o : Obj) : Xml :=
  match o with
  | Leaf v => Node q [] (show v) []
  | Inst c slots =>
    match find_class S c with
    | None => Node q [] "" []
    | Some k =>
      Node q (render_attributes (c_fields k) slots) (render_content (c_fields k) slots)
        ((fix children (ss : list (list Obj)) (fs : list Field) : list Xml :=
            match ss, fs with
            | s :: sr, f :: fr => ((if is_element f then map (render (qname f)) s else []) ++ children sr fr)%list
            | _, _ => []
            end) slots (c_fields k))
    end
  end.
(** XmlSerializer.render. *)
Definition render_document (o : Obj) : option Xml :=
  match o with
  | Leaf _ => None
  | Inst c _ => option_map (fun k => render (c_qname k) o) (find_class S c)
  end.

(** *** Parsing *)

Definition default_slot (d : Default) : list Obj :=
  match d with NoDefault => [] | EmptyString => [Leaf (VStr "")] | FixedInt z => [Leaf (VInt z)] | FixedBool b => [Leaf (VBool b)] end.
Definition read_slot (f : Field) (s : string) : list Obj :=
  match mult f with
  | Tokens => map (fun w => Leaf (read (ty f) w)) (words s)
  | _ => [Leaf (read (ty f) s)]
  end.
(** A field with init=False keeps its default; a different text is an error. *)
Definition settle (f : Field) (slot : list Obj) : res (list Obj) :=
  match default f, slot with
  | FixedInt z, [Leaf (VInt z')] => if (z =? z')%Z then Ok slot else Err OtherError
  | FixedInt _, _ => Err OtherError
  | FixedBool b, [Leaf (VBool b')] => if Bool.eqb b b' then Ok slot else Err OtherError
  | FixedBool _, _ => Err OtherError
  | _, _ => Ok slot
  end.
Definition find_text (q : QName) (l : list (QName * string)) : option string :=
  option_map snd (find (fun p => qname_eqb (fst p) q) l).
(** What a field of an element with these attributes, text and parsed children gets.  Unknown
    attributes are ignored, and so is the text of an element whose class has no field for it. *)
Definition fill (attributes : list (QName * string)) (text : string) (parsed : list (QName * Obj)) (f : Field) : res (list Obj) :=
  match kind f with
  | Element => Ok (map snd (filter (fun p => qname_eqb (fst p) (qname f)) parsed))
  | Attribute => match find_text (qname f) attributes with
                 | Some s => settle f (read_slot f s)
                 | None => Ok (default_slot (default f))
                 end
  | Content => if String.eqb text "" then Ok (default_slot (default f)) else settle f (read_slot f text)
  end.
Fixpoint collect {A B} (g : A -> res B) (l : list A) : res (list B) :=
  match l with
  | [] => Ok []
  | a :: r => bind (g a) (fun b => bind (collect g r) (fun bs => Ok (b :: bs)))
  end.

(** An element as a value of type [t].  Unknown children, repetitions of a child that is not a list
    and children of simple values raise ParserError or XmlContextError; an empty simple value is the
    text "" whatever its type. *)
Fixpoint parse (t : Ty) (x : Xml) {struct x} : res Obj :=
  let '(Node _ attributes text children) := x in
  match t with
  | TClass c =>
    match find_class S c with
    | None => Err OtherError
    | Some k =>
      bind ((fix go (xs : list Xml) (seen : list QName) : res (list (QName * Obj)) :=
               match xs with
               | [] => Ok []
               | y :: r =>
                 match find_element k (tag y) with
                 | None => Err OtherError
                 | Some f =>
                   if (is_one f && existsb (qname_eqb (qname f)) seen)%bool then Err OtherError else
                   bind (parse (ty f) y) (fun o =>
                   bind (go r (qname f :: seen)) (fun l => Ok ((qname f, o) :: l)))
                 end
               end) children [])
           (fun parsed => bind (collect (fill attributes text parsed) (c_fields k)) (fun slots => Ok (Inst c slots)))
    end
  | _ =>
    match children with
    | [] => Ok (Leaf (if String.eqb text "" then VStr "" else read t text))
    | _ :: _ => Err OtherError
    end
  end.
(** XmlParser.from_string: the name of the root selects the class. *)
Definition find_root (q : QName) : option Class := find (fun k => qname_eqb (c_qname k) q) (rev (classes S)).
Definition parse_document (x : Xml) : res Obj :=
  match find_root (tag x) with Some k => parse (TClass (c_name k)) x | None => Err OtherError end.

(** *** Attribute access *)

Fixpoint field_index (a : string) (fs : list Field) : option nat :=
  match fs with
  | [] => None
  | f :: r => if String.eqb (attr f) a then Some O else option_map Datatypes.S (field_index a r)
  end.
(** o.a: the slot, or AttributeError. *)
Definition get_slot (o : Obj) (a : string) : res (list Obj) :=
  match o with
  | Leaf _ => Err AttributeError
  | Inst c slots =>
    match find_class S c with
    | None => Err AttributeError
    | Some k => match field_index a (c_fields k) with
                | None => Err AttributeError
                | Some i => Ok (nth i slots [])
                end
    end
  end.
(** o.a where the result is used as an object: None gives AttributeError with the next access. *)
Definition get (o : Obj) (a : string) : res Obj :=
  bind (get_slot o a) (fun s => match s with [x] => Ok x | _ => Err AttributeError end).
Fixpoint get_path (o : Obj) (p : list string) : res Obj :=
  match p with [] => Ok o | a :: r => bind (get o a) (fun x => get_path x r) end.
(** o.a = v. *)
Definition set_slot (o : Obj) (a : string) (s : list Obj) : res Obj :=
  match o with
  | Leaf _ => Err AttributeError
  | Inst c slots =>
    match find_class S c with
    | None => Err AttributeError
    | Some k => match field_index a (c_fields k) with
                | None => Err AttributeError
                | Some i => Ok (Inst c (firstn i slots ++ s :: skipn (Datatypes.S i) slots)%list)
                end
    end
  end.
End Binding.
Arguments Value : clear implicits.
Arguments Obj : clear implicits.
Arguments Lexical : clear implicits.

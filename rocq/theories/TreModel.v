(** Reading GDAL's XML renderings of tagged record extensions (TRE) and data extension segments
    (DES).
    Source: src/aws/osml/gdal/xmltre_utils.py and nitf_des_accessor.py.
    Simplifications: an XML document is its element tree (the parsers are not modelled); float(s)
    gives finite exact numbers; Python's strings are Coq's strings of 8-bit characters. *)
Require Import ZArith NArith Reals String Ascii List Bool.
Require Import Verif.Base Verif.Text Verif.SarMetaModel.
Import ListNotations.
Local Open Scope string_scope.

(** *** xml.etree.ElementTree (outside the project) *)
Inductive Element := El (tag : string) (attributes : list (string * string)) (children : list Element).
Definition tag_of (e : Element) : string := let 'El t _ _ := e in t.
Definition attributes_of (e : Element) : list (string * string) := let 'El _ a _ := e in a.
(** iter(e), e[i] *)
Definition children_of (e : Element) : list Element := let 'El _ _ c := e in c.

(** e.get(name) *)
Fixpoint lookup (a : list (string * string)) (name : string) : option string :=
  match a with
  | [] => None
  | (n, v) :: r => if String.eqb name n then Some v else lookup r name
  end.
Definition attr (e : Element) (name : string) : option string := lookup (attributes_of e) name.

(** The test of the path "./<tag>[@name='<name>']" on a child. *)
Definition named (t n : string) (e : Element) : bool :=
  String.eqb (tag_of e) t && match attr e "name" with Some n' => String.eqb n' n | None => false end.
(** e.find("./<tag>[@name='<name>']"): the first such child, in document order. *)
Definition find_named (e : Element) (t n : string) : option Element := List.find (named t n) (children_of e).
(** e.findall("./<tag>[@name='<name>']") *)
Definition findall_named (e : Element) (t n : string) : list Element := List.filter (named t n) (children_of e).

(** int(s) and float(s); None stands for the ValueError. *)
Record Conv := mkConv { to_int : string -> option Z; to_float : string -> option R }.

(** *** xmltre_utils.py *)

(** xmltre_utils.py:10-28 [get_tre_field_value], and the same code in nitf_des_accessor.py:131-151
    [parse_field_value].  [convert] is int, float or str, which raise nothing but ValueError. *)
Definition get_tre_field_value {A} (tre : Element) (field_name : string) (convert : string -> option A) : res A :=
  match find_named tre "field" field_name with
  | None => Err ValueError
  | Some f => match attr f "value" with
              | None => Err ValueError
              | Some s => match convert s with Some a => Ok a | None => Err ValueError end
              end
  end.
(** str as a conversion. *)
Definition to_str (s : string) : option string := Some s.

(** xmltre_utils.py:53-65: the body of the loop.  group[0] raises IndexError when there is no
    child, so the test for None on line 58 never succeeds. *)
Definition group_value (cv : Conv) (group : Element) : res (Z * R) :=
  match attr group "index" with
  | None => Err ValueError
  | Some s =>
      match to_int cv s with
      | None => Err ValueError
      | Some index =>
          match children_of group with
          | [] => Err IndexError
          | f :: _ => match attr f "value" with
                      | None => Err ValueError
                      | Some v => match to_float cv v with Some x => Ok (index, x) | None => Err ValueError end
                      end
          end
      end
  end.
Fixpoint fill_groups (cv : Conv) (groups : list Element) (result : list R) : res (list R) :=
  match groups with
  | [] => Ok result
  | g :: r => bind (group_value cv g) (fun iv =>
              bind (py_set result (fst iv) (snd iv)) (fun result' => fill_groups cv r result'))
  end.
(** xmltre_utils.py:31-67 [parse_rpc_coefficients]. *)
Definition parse_rpc_coefficients (cv : Conv) (tre : Element) (repeated_name : string) : res (list R) :=
  match find_named tre "repeated" repeated_name with
  | None => Err ValueError
  | Some repeated =>
      match attr repeated "number" with
      | None => Err ValueError
      | Some s => match to_int cv s with
                  | None => Err ValueError
                  | Some n => fill_groups cv (children_of repeated) (List.repeat 0%R (Z.to_nat n))
                  end
      end
  end.

(** *** nitf_des_accessor.py *)

Definition newline : ascii := ascii_of_N 10.
(** After "<?xml": what follows the first "?>" of the same line, if there is one. *)
Fixpoint after_prolog (s : string) : option string :=
  match s with
  | EmptyString => None
  | String c r =>
      match r with
      | String d r' => if (Ascii.eqb c "?" && Ascii.eqb d ">")%bool then Some r'
                       else if Ascii.eqb c newline then None else after_prolog r
      | EmptyString => None
      end
  end.
(** nitf_des_accessor.py:39: re.sub(r"<\?xml.*?\?>", "", s), left to right (without the strip). *)
Fixpoint strip_prologs_fuel (fuel : nat) (s : string) : string :=
  match fuel, s with
  | O, _ => s
  | _, EmptyString => EmptyString
  | S n, String c r =>
      if String.prefix "<?xml" s then
        match after_prolog (substring 5 (String.length s) s) with
        | Some rest => strip_prologs_fuel n rest
        | None => String c (strip_prologs_fuel n r)
        end
      else String c (strip_prologs_fuel n r)
  end.
Definition strip_prologs (s : string) : string := strip_prologs_fuel (String.length s) s.

(** nitf_des_accessor.py:43-54 [get_segments_by_name]. *)
Definition get_segments_by_name (parsed_des_lists : list Element) (des_name : string) : list Element :=
  flat_map (fun des_list => findall_named des_list "des" des_name) parsed_des_lists.

(** format(s, ">w"). *)
Fixpoint spaces (k : nat) : string := match k with O => "" | S k' => String " " (spaces k') end.
Definition right_justify (w : nat) (s : string) : string := spaces (w - String.length s) ++ s.

(** The text fields of the DES subheader with their widths (nitf_des_accessor.py:69-84). *)
Definition des_text_fields : list (string * nat) :=
  [ ("DECLAS", 1); ("DESCLSY", 2); ("DESCODE", 11); ("DESCTLH", 2); ("DESREL", 20); ("DESDCTP", 2);
    ("DESDCDT", 8); ("DESDCXM", 4); ("DESDG", 1); ("DESDGDT", 8); ("DESCLTX", 43); ("DESCATP", 1);
    ("DESCAUT", 40); ("DESCRSN", 1); ("DESSRDT", 8); ("DESCTLN", 15) ]%nat.
Fixpoint text_fields (e : Element) (fields : list (string * nat)) : res string :=
  match fields with
  | [] => Ok ""
  | (name, w) :: r => bind (get_tre_field_value e name to_str) (fun v =>
                      bind (text_fields e r) (fun rest => Ok (right_justify w v ++ rest)))
  end.
(** nitf_des_accessor.py:56-98 [extract_des_header]. *)
Definition extract_des_header (cv : Conv) (e : Element) : res string :=
  bind (get_tre_field_value e "DESVER" (to_int cv)) (fun version =>
  bind (text_fields e des_text_fields) (fun middle =>
  bind (get_tre_field_value e "DESSHL" (to_int cv)) (fun subheader_length =>
  if (0 <? subheader_length)%Z then
    bind (get_tre_field_value e "DESSHF" to_str) (fun v =>
    Ok (fmt0 2 version ++ middle ++ fmt0 4 subheader_length ++ right_justify (Z.to_nat subheader_length) v))
  else Ok (fmt0 2 version ++ middle ++ fmt0 4 subheader_length)))).

(** nitf_des_accessor.py:100-129 [extract_desdata_xml].  [decode] is base64.b64decode followed by
    decoding UTF-8, [tostring] is ET.tostring(_, "unicode").  An element is true when it has
    children (line 122); an empty value attribute is false (line 115). *)
Definition extract_desdata_xml (decode : string -> res string) (tostring : Element -> string) (e : Element)
  : res (option string) :=
  match find_named e "field" "DESDATA" with
  | None => Ok None
  | Some d =>
      match attr d "value" with
      | Some (String c r) => bind (decode (String c r)) (fun s => Ok (Some s))
      | _ => match List.find (fun c => String.eqb (tag_of c) "xml_content") (children_of d) with
             | Some x => match children_of x with
                         | first :: _ => Ok (Some (tostring first))
                         | [] => Ok None
                         end
             | None => Ok None
             end
      end
  end.

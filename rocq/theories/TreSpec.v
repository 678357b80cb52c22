(** Vocabulary of the TRE and DES properties (C47, C48, C49, C70). *)
Require Import ZArith Reals String Ascii List.
Require Import Verif.Base Verif.TreModel Verif.SarMetaModel.
Import ListNotations.
Local Open Scope string_scope.

(** [e] is <t name="n" ...>. *)
Definition is_named (t n : string) (e : Element) : Prop := tag_of e = t /\ attr e "name" = Some n.
(** [f] is the first such child of [e]. *)
Definition first_named (e : Element) (t n : string) (f : Element) : Prop :=
  exists before after, children_of e = (before ++ f :: after)%list /\ is_named t n f
    /\ forall x, In x before -> ~ is_named t n x.
(** The first field of that name has this value attribute. *)
Definition field_text (e : Element) (n s : string) : Prop :=
  exists f, first_named e "field" n f /\ attr f "value" = Some s.

(** A group of a repeated element: its index and the value of its first child. *)
Definition group_is (cv : Conv) (g : Element) (iv : Z * R) : Prop :=
  exists s f rest v, attr g "index" = Some s /\ to_int cv s = Some (fst iv)
    /\ children_of g = f :: rest /\ attr f "value" = Some v /\ to_float cv v = Some (snd iv).
(** The value the last of the pairs with an index meaning position [k] of [n] gives, zero if none. *)
Definition last_at (n : nat) (ivs : list (Z * R)) (k : nat) : R :=
  match List.find (fun iv => match py_index n (fst iv) with Some p => Nat.eqb p k | None => false end) (rev ivs) with
  | Some iv => snd iv
  | None => 0%R
  end.

(** [s] is [v] right-justified with spaces in a field of [w] characters. *)
Definition right_justified (w : nat) (v s : string) : Prop :=
  exists k, s = spaces k ++ v /\ String.length s = w.
(** [s] is [v] left-justified, as NITF wants text fields. *)
Definition left_justified (w : nat) (v s : string) : Prop :=
  exists k, s = v ++ spaces k /\ String.length s = w.

(** The NITF DES subheader after DE (2) and DESID (25): field, offset, width. *)
Definition des_layout : list (string * nat * nat) :=
  [ ("DECLAS", 2, 1); ("DESCLSY", 3, 2); ("DESCODE", 5, 11); ("DESCTLH", 16, 2); ("DESREL", 18, 20);
    ("DESDCTP", 38, 2); ("DESDCDT", 40, 8); ("DESDCXM", 48, 4); ("DESDG", 52, 1); ("DESDGDT", 53, 8);
    ("DESCLTX", 61, 43); ("DESCATP", 104, 1); ("DESCAUT", 105, 40); ("DESCRSN", 145, 1);
    ("DESSRDT", 146, 8); ("DESCTLN", 154, 15) ]%nat.

Definition occurs (p s : string) : Prop := exists a b, s = a ++ p ++ b.
Fixpoint has_char (c : ascii) (s : string) : Prop :=
  match s with EmptyString => False | String d r => d = c \/ has_char c r end.

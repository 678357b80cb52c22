(** Python integer formatting, shared by several models.  [fmt0 w n] is
    [format(n, "0<w>d")]: decimal digits, zero-padded to total width [w], with the
    sign (if any) in front and counted in the width. *)
Require Import ZArith NArith String Ascii List.
Import ListNotations.
Local Open Scope string_scope.

Definition digit (n : N) : ascii := ascii_of_N (48 + n).

(** Digits of [n], most significant first, in front of [acc]. *)
Fixpoint digits_aux (fuel : nat) (n : N) (acc : string) : string :=
  match fuel with
  | O => acc
  | S f => if (n <? 10)%N then String (digit n) acc
           else digits_aux f (n / 10)%N (String (digit (n mod 10)) acc)
  end.

(** [str(n)] for a natural number. *)
Definition show_N (n : N) : string := digits_aux (S (N.to_nat (N.log2 n))) n "".

Fixpoint zeros (k : nat) : string :=
  match k with O => "" | S k' => String "0" (zeros k') end.

Definition pad0 (w : nat) (s : string) : string := zeros (w - String.length s) ++ s.

Definition fmt0 (w : nat) (n : Z) : string :=
  if (n <? 0)%Z then String "-" (pad0 (w - 1) (show_N (Z.to_N (- n))))
  else pad0 w (show_N (Z.to_N n)).

(** Upper-casing of ASCII letters. *)
Definition upper_ascii (c : ascii) : ascii :=
  let n := N_of_ascii c in
  if ((97 <=? n) && (n <=? 122))%N%bool then ascii_of_N (n - 32) else c.
Fixpoint upper (s : string) : string :=
  match s with EmptyString => EmptyString | String c r => String (upper_ascii c) (upper r) end.

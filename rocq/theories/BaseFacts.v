(** Facts about the shared vocabulary. *)
Require Import ZArith Reals Lra Lia.
Require Import Verif.Base.
Local Open Scope R_scope.

Lemma Rfloor_spec r : IZR (Rfloor r) <= r < IZR (Rfloor r) + 1.
Proof.
  unfold Rfloor. rewrite minus_IZR. destruct (archimed r). lra.
Qed.

Lemma Rceil_spec r : IZR (Rceil r) - 1 < r <= IZR (Rceil r).
Proof.
  unfold Rceil. rewrite opp_IZR. destruct (Rfloor_spec (- r)). lra.
Qed.

Lemma IZR_lt_succ a b : IZR a < IZR b + 1 -> (a <= b)%Z.
Proof.
  intros H. rewrite <- plus_IZR in H. apply lt_IZR in H. lia.
Qed.

Lemma Rfloor_unique r z : IZR z <= r < IZR z + 1 -> Rfloor r = z.
Proof.
  intros [H1 H2]. destruct (Rfloor_spec r) as [H3 H4].
  apply Z.le_antisymm; apply IZR_lt_succ; lra.
Qed.

Lemma Rceil_unique r z : IZR z - 1 < r <= IZR z -> Rceil r = z.
Proof.
  intros [H1 H2]. unfold Rceil. rewrite (Rfloor_unique (- r) (- z)); [lia|].
  rewrite opp_IZR. lra.
Qed.

Lemma Rfloor_IZR z : Rfloor (IZR z) = z.
Proof. apply Rfloor_unique. lra. Qed.

Lemma Rceil_IZR z : Rceil (IZR z) = z.
Proof. apply Rceil_unique. lra. Qed.

Lemma Rfloor_mono a b : a <= b -> (Rfloor a <= Rfloor b)%Z.
Proof.
  intros H. destruct (Rfloor_spec a), (Rfloor_spec b).
  apply IZR_lt_succ. lra.
Qed.

Lemma Rceil_mono a b : a <= b -> (Rceil a <= Rceil b)%Z.
Proof.
  intros H. unfold Rceil. assert (-b <= -a) as H' by lra.
  apply Rfloor_mono in H'. lia.
Qed.

Lemma Rfloor_add_Z r z : Rfloor (r + IZR z) = (Rfloor r + z)%Z.
Proof.
  apply Rfloor_unique. rewrite plus_IZR. destruct (Rfloor_spec r). lra.
Qed.

Lemma Rceil_add_Z r z : Rceil (r + IZR z) = (Rceil r + z)%Z.
Proof.
  apply Rceil_unique. rewrite plus_IZR. destruct (Rceil_spec r). lra.
Qed.

Lemma Rfloor_ge_Z r z : IZR z <= r -> (z <= Rfloor r)%Z.
Proof. intros H. destruct (Rfloor_spec r). apply IZR_lt_succ. lra. Qed.

Lemma Rfloor_le_Z r z : r < IZR z + 1 -> (Rfloor r <= z)%Z.
Proof. intros H. destruct (Rfloor_spec r). apply IZR_lt_succ. lra. Qed.

(* Absolute error of binary64 operations. *)
From Coq Require Import Reals Qreals Lra Lia.
From Flocq Require Import Core IEEE754.BinarySingleNaN.
From Verif Require Import Py Num RInst B64 SpecB64 B64Lemmas.
Local Open Scope R_scope.

Lemma near_weaken x r e e' : near x r e -> e <= e' -> near x r e'.
Proof. intros (v & V & H) L. exists v. split; [exact V|lra]. Qed.
Lemma near_val x r : val x r -> near x r 0.
Proof. intros V. exists r. split; [exact V|]. rewrite Rminus_diag_eq by reflexivity. rewrite Rabs_R0. lra. Qed.
Lemma bpow_big k r : (k <= 1000)%Z -> r <= bpow radix2 k -> r <= bpow radix2 1000.
Proof. intros K H. eapply Rle_trans; [exact H|]. now apply bpow_le. Qed.
Lemma tri a b : Rabs a <= Rabs b + Rabs (a - b).
Proof. replace a with (b + (a - b)) at 1 by ring. apply Rabs_triang. Qed.

Lemma near_round f r w e k : val f (rnd w) -> Rabs (w - r) <= e -> Rabs r + e <= bpow radix2 k -> (-1021 <= k)%Z ->
  near f r (e + bpow radix2 (k - 54)).
Proof.
  intros V H B K. exists (rnd w). split; [exact V|]. pose proof (tri w r).
  pose proof (rnd_err w k K ltac:(lra)). replace (rnd w - r) with ((rnd w - w) + (w - r)) by ring.
  eapply Rle_trans; [apply Rabs_triang|]. lra.
Qed.
Lemma near_lit q k : (-1021 <= k <= 1000)%Z -> Rabs (Q2R q) <= bpow radix2 k -> near (flit q) (Q2R q) (bpow radix2 (k - 54)).
Proof.
  intros K H. replace (bpow radix2 (k - 54)) with (0 + bpow radix2 (k - 54)) by ring.
  apply near_round with (w := Q2R q); [apply val_lit; apply bpow_big with k; [lia|exact H]| |lra|lia].
  rewrite Rminus_diag_eq by reflexivity. rewrite Rabs_R0. lra.
Qed.
Lemma near_add x y a b d e k : near x a d -> near y b e -> (-1021 <= k <= 1000)%Z ->
  Rabs (a + b) + (d + e) <= bpow radix2 k -> near (Bplus mode_NE x y) (a + b) (d + e + bpow radix2 (k - 54)).
Proof.
  intros (v & V & Hv) (w & W & Hw) K B.
  assert (H : Rabs (v + w - (a + b)) <= d + e).
  { replace (v + w - (a + b)) with ((v - a) + (w - b)) by ring. eapply Rle_trans; [apply Rabs_triang|lra]. }
  apply near_round with (w := v + w); [apply val_add; [exact V|exact W|]|exact H|exact B|lia].
  apply bpow_big with k; [lia|]. pose proof (tri (v + w) (a + b)). lra.
Qed.
Lemma near_sub x y a b d e k : near x a d -> near y b e -> (-1021 <= k <= 1000)%Z ->
  Rabs (a - b) + (d + e) <= bpow radix2 k -> near (Bminus mode_NE x y) (a - b) (d + e + bpow radix2 (k - 54)).
Proof.
  intros (v & V & Hv) (w & W & Hw) K B.
  assert (H : Rabs (v - w - (a - b)) <= d + e).
  { replace (v - w - (a - b)) with ((v - a) + - (w - b)) by ring. eapply Rle_trans; [apply Rabs_triang|]. rewrite Rabs_Ropp. lra. }
  apply near_round with (w := v - w); [apply val_sub; [exact V|exact W|]|exact H|exact B|lia].
  apply bpow_big with k; [lia|]. pose proof (tri (v - w) (a - b)). lra.
Qed.
(* division by an exact constant *)
Lemma near_div_const x y a b d k : near x a d -> val y b -> 0 < b -> (-1021 <= k <= 1000)%Z ->
  Rabs (a / b) + d / b <= bpow radix2 k -> near (Bdiv mode_NE x y) (a / b) (d / b + bpow radix2 (k - 54)).
Proof.
  intros (v & V & Hv) W Hb K B.
  assert (H : Rabs (v / b - a / b) <= d / b).
  { replace (v / b - a / b) with ((v - a) * / b) by (field; lra). rewrite Rabs_mult, (Rabs_pos_eq (/ b)) by (left; now apply Rinv_0_lt_compat).
    apply Rmult_le_compat_r; [left; now apply Rinv_0_lt_compat|exact Hv]. }
  apply near_round with (w := v / b); [apply val_div; [exact V|exact W|lra|]|exact H|exact B|lia].
  apply bpow_big with k; [lia|]. pose proof (tri (v / b) (a / b)). lra.
Qed.

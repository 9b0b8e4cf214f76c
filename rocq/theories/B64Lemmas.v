(* Binary64 operations as rounded real operations. *)
From Coq Require Import Reals Qreals Lra Lia.
From Flocq Require Import Core IEEE754.BinarySingleNaN Relative.
From Interval Require Import Tactic.
From Verif Require Import Py Num RInst B64 SpecB64.
Local Open Scope R_scope.

Global Instance valid64 : Valid_exp (FLT_exp (-1074) 53) := FLT_exp_valid _ _.

Lemma rnd_le x y : x <= y -> rnd x <= rnd y.
Proof. apply round_le; auto with typeclass_instances. Qed.
Lemma rnd_id r : generic_format radix2 (FLT_exp (-1074) 53) r -> rnd r = r.
Proof. apply round_generic; auto with typeclass_instances. Qed.
Lemma rnd_0 : rnd 0 = 0.
Proof. apply round_0; auto with typeclass_instances. Qed.
Lemma rnd_opp r : rnd (- r) = - rnd r.
Proof. apply round_NE_opp. Qed.
Lemma fmt_bpow k : (-1074 <= k)%Z -> generic_format radix2 (FLT_exp (-1074) 53) (bpow radix2 k).
Proof. intros H. apply generic_format_bpow. unfold FLT_exp. lia. Qed.
Lemma fmt_int (m e : Z) : (Z.abs m < 2 ^ 53)%Z -> (-1074 <= e)%Z -> generic_format radix2 (FLT_exp (-1074) 53) (IZR m * bpow radix2 e).
Proof. intros Hm He. apply generic_format_FLT. exists (Float radix2 m e); [reflexivity|exact Hm|exact He]. Qed.
Lemma fmt_Z (m : Z) : (Z.abs m <= 2 ^ 53)%Z -> generic_format radix2 (FLT_exp (-1074) 53) (IZR m).
Proof.
  intros H. destruct (Z.eq_dec (Z.abs m) (2 ^ 53)) as [E|E].
  - destruct m as [|p|p]; [discriminate| |].
    + change (Z.abs (Z.pos p)) with (Z.pos p) in E. rewrite E. change (IZR (2 ^ 53)) with (bpow radix2 53). now apply fmt_bpow.
    + change (Z.abs (Z.neg p)) with (Z.pos p) in E. change (Z.neg p) with (- Z.pos p)%Z. rewrite E, opp_IZR.
      apply generic_format_opp. change (IZR (2 ^ 53)) with (bpow radix2 53). now apply fmt_bpow.
  - rewrite <- (Rmult_1_r (IZR m)). change 1 with (bpow radix2 0). apply fmt_int; lia.
Qed.
Lemma fmt_val x r : val x r -> generic_format radix2 (FLT_exp (-1074) 53) r.
Proof. intros [_ <-]. apply generic_format_B2R. Qed.
Lemma rnd_val x r : val x r -> rnd r = r.
Proof. intros H. apply rnd_id. now apply (fmt_val x). Qed.

Lemma rnd_bound r k : (-1074 <= k)%Z -> Rabs r <= bpow radix2 k -> Rabs (rnd r) <= bpow radix2 k.
Proof.
  intros Hk H. apply abs_round_le_generic; auto with typeclass_instances. now apply fmt_bpow.
Qed.
(* the rounding error of a number below 2^k is at most 2^(k-54) *)
Lemma rnd_err r k : (-1021 <= k)%Z -> Rabs r <= bpow radix2 k -> Rabs (rnd r - r) <= bpow radix2 (k - 54).
Proof.
  intros Hk H. destruct H as [H|H].
  - eapply Rle_trans; [apply error_le_half_ulp; auto with typeclass_instances|].
    replace (bpow radix2 (k - 54)) with (/ 2 * bpow radix2 (k - 53)).
    2:{ replace (k - 53)%Z with (k - 54 + 1)%Z by lia. rewrite bpow_plus. change (bpow radix2 1) with 2. lra. }
    apply Rmult_le_compat_l; [lra|]. destruct (Req_dec r 0) as [->|Hr].
    + rewrite ulp_FLT_0 by reflexivity. apply bpow_le. lia.
    + rewrite ulp_neq_0 by assumption. unfold cexp. apply bpow_le. unfold FLT_exp.
      assert (mag radix2 r <= k)%Z by now apply mag_le_bpow. lia.
  - assert (generic_format radix2 (FLT_exp (-1074) 53) r).
    { destruct (Rcase_abs r) as [N|P].
      - rewrite <- (Ropp_involutive r), <- (Rabs_left r N), H. apply generic_format_opp. apply fmt_bpow. lia.
      - rewrite <- (Rabs_pos_eq r) by lra. rewrite H. apply fmt_bpow. lia. }
    rewrite rnd_id by assumption. unfold Rminus. rewrite Rplus_opp_r, Rabs_R0. apply bpow_ge_0.
Qed.

Lemma big_ok r : Rabs r <= bpow radix2 1000 -> Rlt_bool (Rabs (rnd r)) (bpow radix2 1024) = true.
Proof.
  intros H. apply Rlt_bool_true. apply Rle_lt_trans with (bpow radix2 1000); [apply rnd_bound; [lia|exact H]|apply bpow_lt; lia].
Qed.

Lemma val_add x y a b : val x a -> val y b -> Rabs (a + b) <= bpow radix2 1000 -> val (Bplus mode_NE x y) (rnd (a + b)).
Proof.
  intros [Fx <-] [Fy <-] H. pose proof (Bplus_correct 53 1024 _ _ mode_NE x y Fx Fy) as K.
  change (round radix2 _ _ ?r) with (rnd r) in K. rewrite big_ok in K by exact H. now destruct K as (K1 & K2 & _).
Qed.
Lemma val_sub x y a b : val x a -> val y b -> Rabs (a - b) <= bpow radix2 1000 -> val (Bminus mode_NE x y) (rnd (a - b)).
Proof.
  intros [Fx <-] [Fy <-] H. pose proof (Bminus_correct 53 1024 _ _ mode_NE x y Fx Fy) as K.
  change (round radix2 _ _ ?r) with (rnd r) in K. rewrite big_ok in K by exact H. now destruct K as (K1 & K2 & _).
Qed.
Lemma val_mul x y a b : val x a -> val y b -> Rabs (a * b) <= bpow radix2 1000 -> val (Bmult mode_NE x y) (rnd (a * b)).
Proof.
  intros [Fx <-] [Fy <-] H. pose proof (Bmult_correct 53 1024 _ _ mode_NE x y) as K.
  change (round radix2 _ _ ?r) with (rnd r) in K. rewrite big_ok in K by exact H. destruct K as (K1 & K2 & _).
  rewrite Fx, Fy in K2. now split.
Qed.
Lemma val_div x y a b : val x a -> val y b -> b <> 0 -> Rabs (a / b) <= bpow radix2 1000 -> val (Bdiv mode_NE x y) (rnd (a / b)).
Proof.
  intros [Fx <-] [Fy <-] Hb H. pose proof (Bdiv_correct 53 1024 _ _ mode_NE x y Hb) as K.
  change (round radix2 _ _ ?r) with (rnd r) in K. rewrite big_ok in K by exact H. destruct K as (K1 & K2 & _).
  rewrite Fx in K2. now split.
Qed.
Lemma val_neg x a : val x a -> val (Bopp x) (- a).
Proof. intros [Fx <-]. split; [now rewrite is_finite_Bopp|apply B2R_Bopp]. Qed.
Lemma val_nz x a : val x a -> a <> 0 -> is_zero x = false.
Proof. intros [F <-]. destruct x; cbn in *; try reflexivity; try discriminate. intros H; now elim H. Qed.
Lemma val_fin x a : val x a -> is_nan x = false /\ is_inf x = false.
Proof. intros [F _]. destruct x; now try discriminate. Qed.
Lemma val_unique x a b : val x a -> val x b -> a = b.
Proof. intros [_ <-] [_ <-]. reflexivity. Qed.

Lemma F2R0 (z : Z) : F2R (Float radix2 z 0) = IZR z.
Proof. unfold F2R; cbn. apply Rmult_1_r. Qed.

Lemma val_lit (q : Q) : Rabs (Q2R q) <= bpow radix2 1000 -> val (flit q) (rnd (Q2R q)).
Proof.
  destruct q as [n d]. unfold flit, Q2R; cbn [Qnum Qden]. intros H. destruct n as [|p|p].
  - rewrite Rmult_0_l, rnd_0. now split.
  - unfold fquot. match goal with |- val (SF2B _ ?v) _ => generalize v end. intros V.
    destruct (Bdiv_correct_aux 53 1024 _ _ mode_NE false p 0 false d 0) as [_ K']. cbn zeta in K'. cbn [cond_Zopp] in K'. rewrite !F2R0 in K'.
    change (round radix2 _ _ ?r) with (rnd r) in K'. rewrite big_ok in K' by exact H. destruct K' as (K1 & K2 & _).
    split; [now rewrite is_finite_SF2B|now rewrite B2R_SF2B].
  - unfold fquot. match goal with |- val (SF2B _ ?v) _ => generalize v end. intros V.
    destruct (Bdiv_correct_aux 53 1024 _ _ mode_NE true p 0 false d 0) as [_ K']. cbn zeta in K'. cbn [cond_Zopp] in K'.
    rewrite !F2R0 in K'. change (- Z.pos p)%Z with (Z.neg p) in K'.
    change (round radix2 _ _ ?r) with (rnd r) in K'. rewrite big_ok in K' by exact H. destruct K' as (K1 & K2 & _).
    split; [now rewrite is_finite_SF2B|now rewrite B2R_SF2B].
Qed.
Lemma val_fl m e : (Z.abs m < 2 ^ 53)%Z -> (-1074 <= e <= 900)%Z -> val (fl m e) (IZR m * bpow radix2 e).
Proof.
  intros Hm He. unfold fl. pose proof (binary_normalize_correct 53 1024 _ _ mode_NE m e false) as K. cbn zeta in K.
  change (round radix2 _ _ ?r) with (rnd r) in K. change (F2R (Float radix2 m e)) with (IZR m * bpow radix2 e) in K.
  rewrite big_ok in K. 2:{ rewrite Rabs_mult, (Rabs_pos_eq (bpow _ _)) by apply bpow_ge_0.
    rewrite <- abs_IZR. apply Rle_trans with (bpow radix2 53 * bpow radix2 e).
    - apply Rmult_le_compat_r; [apply bpow_ge_0|]. change (bpow radix2 53) with (IZR (2 ^ 53)). apply IZR_le. lia.
    - rewrite <- bpow_plus. apply bpow_le. lia. }
  destruct K as (K1 & K2 & _). split; [exact K2|]. rewrite K1. apply rnd_id. apply fmt_int; lia.
Qed.
Lemma val_int (z : Z) : (Z.abs z <= 2 ^ 53)%Z -> val (flit (inject_Z z)) (IZR z).
Proof.
  intros H. assert (E : Q2R (inject_Z z) = IZR z) by (unfold Q2R; cbn; lra).
  rewrite <- (rnd_id (IZR z)) by now apply fmt_Z. rewrite <- E. apply val_lit. rewrite E, <- abs_IZR.
  apply Rle_trans with (bpow radix2 53); [|apply bpow_le; lia]. change (bpow radix2 53) with (IZR (2 ^ 53)). now apply IZR_le.
Qed.

(* comparisons *)
Lemma val_lt x y a b : val x a -> val y b -> Bltb x y = Rlt_bool a b.
Proof. intros [Fx <-] [Fy <-]. now apply Bltb_correct. Qed.
Lemma val_le x y a b : val x a -> val y b -> Bleb x y = Rle_bool a b.
Proof. intros [Fx <-] [Fy <-]. now apply Bleb_correct. Qed.

(* two floats with the same non-zero value are equal *)
Lemma val_inj x y a : val x a -> val y a -> a <> 0 -> x = y.
Proof.
  intros [Fx <-] [Fy E] Ha. apply B2R_inj; [| |now symmetry].
  - destruct x; try discriminate; try (now elim Ha). reflexivity.
  - destruct y; try discriminate; cbn in E; [now rewrite <- E in Ha; elim Ha|reflexivity].
Qed.

(* fmod is exact *)
Lemma cfmod_val x y a b : val x a -> val y b -> b <> 0 ->
  val (cfmod x y) (a - b * IZR (Ztrunc (a / b))).
Proof.
  intros [Fx Ea] [Fy Eb] Hb.
  destruct y as [sy|sy| |sy my ey Hy]; try discriminate; [now elim Hb|].
  destruct x as [sx|sx| |sx mx ex Hx]; try discriminate.
  { cbn in Ea. subst a. cbn. replace (0 / b) with 0 by (field; exact Hb). rewrite Ztrunc_IZR. split; [reflexivity|cbn; ring]. }
  cbn [cfmod]. set (e := Z.min ex ey). set (X := (Zpos mx * 2 ^ (ex - e))%Z). set (Y := (Zpos my * 2 ^ (ey - e))%Z).
  assert (He1 : (0 <= ex - e)%Z) by (unfold e; lia). assert (He2 : (0 <= ey - e)%Z) by (unfold e; lia).
  assert (HY : (0 < Y)%Z). { unfold Y. apply Z.mul_pos_pos; [lia|]. apply Z.pow_pos_nonneg; lia. }
  assert (HX : (0 < X)%Z). { unfold X. apply Z.mul_pos_pos; [lia|]. apply Z.pow_pos_nonneg; lia. }
  pose proof (Z.mod_pos_bound X Y HY) as HR.
  assert (Bnd : forall m e, SpecFloat.bounded 53 1024 m e = true -> (Zpos m < 2 ^ 53)%Z /\ (-1074 <= e <= 971)%Z).
  { intros m e' H. apply andb_prop in H as [H1 H2]. apply Zeq_bool_eq in H1. apply Zle_bool_imp_le in H2.
    unfold SpecFloat.fexp, SpecFloat.emin in H1.
    assert (Zpos (SpecFloat.digits2_pos m) <= 53)%Z by lia. split; [|lia].
    rewrite Zpos_digits2_pos in H. apply (Zpower_gt_Zdigits radix2 53 (Zpos m)). exact H. }
  destruct (Bnd _ _ Hx) as [Mx Ex]. destruct (Bnd _ _ Hy) as [My Ey].
  set (r := (X mod Y)%Z) in *.
  assert (Rr : (r < 2 ^ 53)%Z).
  { destruct (Z.le_ge_cases ex ey) as [L|L].
    - assert (E0 : (ex - e = 0)%Z) by (unfold e; lia). assert (X = Zpos mx) by (unfold X; rewrite E0; lia).
      assert (r <= X)%Z by (apply Z.mod_le; lia). lia.
    - assert (E0 : (ey - e = 0)%Z) by (unfold e; lia). assert (Y = Zpos my) by (unfold Y; rewrite E0; lia). lia. }
  assert (V : val (binary_normalize 53 1024 _ _ mode_NE (cond_Zopp sx r) e sx) (IZR (cond_Zopp sx r) * bpow radix2 e)).
  { pose proof (binary_normalize_correct 53 1024 _ _ mode_NE (cond_Zopp sx r) e sx) as K. cbn zeta in K.
    change (round radix2 _ _ ?q) with (rnd q) in K. change (F2R (Float radix2 (cond_Zopp sx r) e)) with (IZR (cond_Zopp sx r) * bpow radix2 e) in K.
    assert (G : rnd (IZR (cond_Zopp sx r) * bpow radix2 e) = IZR (cond_Zopp sx r) * bpow radix2 e).
    { apply rnd_id. apply fmt_int; [rewrite abs_cond_Zopp; lia|unfold e; lia]. }
    rewrite Rlt_bool_true in K.
    - destruct K as (K1 & K2 & _). split; [exact K2|]. rewrite K1. exact G.
    - rewrite G, Rabs_mult, <- abs_IZR, abs_cond_Zopp, (Rabs_pos_eq (bpow _ _)) by apply bpow_ge_0.
      apply Rlt_le_trans with (bpow radix2 53 * bpow radix2 971); [|rewrite <- bpow_plus; apply bpow_le; lia].
      apply Rle_lt_trans with (IZR r * bpow radix2 971).
      + rewrite Z.abs_eq by lia. apply Rmult_le_compat_l; [apply IZR_le; lia|apply bpow_le; unfold e; lia].
      + apply Rmult_lt_compat_r; [apply bpow_gt_0|]. change (bpow radix2 53) with (IZR (2 ^ 53)). apply IZR_lt. exact Rr. }
  destruct V as [V1 V2]. split; [exact V1|]. rewrite V2. clear V1 V2.
  assert (PX : forall m k (d : (0 <= k - e)%Z) s, F2R (Float radix2 (cond_Zopp s (Zpos m)) k) = IZR (cond_Zopp s (Zpos m * 2 ^ (k - e))) * bpow radix2 e).
  { intros m k d s. unfold F2R; cbn [Fnum Fexp]. replace k with (k - e + e)%Z at 1 by lia. rewrite bpow_plus, <- Rmult_assoc. f_equal.
    rewrite <- IZR_Zpower by exact d. rewrite <- mult_IZR. change (radix_val radix2) with 2%Z. f_equal. destruct s; cbn [cond_Zopp]; lia. }
  cbn [B2R] in Ea, Eb. rewrite PX in Ea by exact He1. rewrite PX in Eb by exact He2. fold X in Ea. fold Y in Eb.
  subst a b. set (g := bpow radix2 e). assert (Hg : 0 < g) by apply bpow_gt_0.
  assert (DE : (IZR (cond_Zopp sx X) * g) / (IZR (cond_Zopp sy Y) * g) = IZR (cond_Zopp sx X) / IZR (cond_Zopp sy Y)).
  { assert (IZR (cond_Zopp sy Y) <> 0) by (apply IZR_neq; destruct sy; cbn [cond_Zopp]; lia). field. split; lra. }
  rewrite DE.
  assert (PYR : 0 < IZR Y) by (apply IZR_lt; exact HY).
  assert (QT : IZR (Ztrunc (IZR X / IZR Y)) = IZR (X / Y)).
  { f_equal. rewrite Ztrunc_floor.
    - now rewrite Zfloor_div by lia.
    - apply Rmult_le_pos; [apply IZR_le; lia|]. left. now apply Rinv_0_lt_compat. }
  assert (DM : IZR X = IZR Y * IZR (X / Y) + IZR r). { rewrite <- mult_IZR, <- plus_IZR. f_equal. unfold r. apply Z.div_mod. lia. }
  destruct sx, sy; cbn [cond_Zopp]; rewrite ?opp_IZR;
    repeat match goal with
    | |- context [- ?p / - ?q] => replace (- p / - q) with (p / q) by (field; lra)
    | |- context [- ?p / ?q] => replace (- p / q) with (- (p / q)) by (field; lra)
    | |- context [?p / - ?q] => replace (p / - q) with (- (p / q)) by (field; lra)
    end; rewrite ?Ztrunc_opp, ?opp_IZR, QT; nra.
Qed.

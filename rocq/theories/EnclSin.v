(* The sine of the interval calculator of Encl.v is right. *)
From Coq Require Import Reals ZArith List Bool Uint63 Lia Lra.
From Flocq Require Import Core.
From Interval Require Import Tactic.
From Verif Require Import Trig SpaProofs Absint AbsintSound Encl.
Import ListNotations.
Local Open Scope R_scope.

Definition zs (z : Z) : R := IZR z / IZR S80.
Lemma S80_pos : 0 < IZR S80. Proof. apply (IZR_lt 0). reflexivity. Qed.
Lemma zs_add a b : zs (a + b) = zs a + zs b. Proof. unfold zs. rewrite plus_IZR. field. pose proof S80_pos; lra. Qed.
Lemma zs_sub a b : zs (a - b) = zs a - zs b. Proof. unfold zs. rewrite minus_IZR. field. pose proof S80_pos; lra. Qed.
Lemma zs_opp a : zs (- a) = - zs a. Proof. unfold zs. rewrite opp_IZR. field. pose proof S80_pos; lra. Qed.
Lemma zs_scale k a : zs (k * a) = IZR k * zs a. Proof. unfold zs. rewrite mult_IZR. field. pose proof S80_pos; lra. Qed.
Lemma zs_le a b : (a <= b)%Z -> zs a <= zs b.
Proof. intros H. apply IZR_le in H. unfold zs, Rdiv. apply Rmult_le_compat_r; [left; apply Rinv_0_lt_compat, S80_pos|exact H]. Qed.
Lemma zs_lt a b : (a < b)%Z -> zs a < zs b.
Proof. intros H. apply IZR_lt in H. unfold zs, Rdiv. apply Rmult_lt_compat_r; [apply Rinv_0_lt_compat, S80_pos|exact H]. Qed.
Lemma zs_le_inv a b : zs a <= zs b -> (a <= b)%Z.
Proof. intros H. apply le_IZR. unfold zs in H. apply Rmult_le_reg_r with (/ IZR S80); [apply Rinv_0_lt_compat, S80_pos|exact H]. Qed.
Lemma zs_0 : zs 0 = 0. Proof. unfold zs. field. pose proof S80_pos; lra. Qed.
Lemma zs_1 : zs S80 = 1. Proof. unfold zs. field. pose proof S80_pos; lra. Qed.
Lemma zs_abs a : zs (Z.abs a) = Rabs (zs a).
Proof. unfold zs. rewrite abs_IZR. unfold Rdiv. rewrite Rabs_mult, (Rabs_pos_eq (/ IZR S80)); [reflexivity|left; apply Rinv_0_lt_compat, S80_pos]. Qed.

(* ---- the series *)
Fixpoint horR (n : nat) (k : nat) (a : R) : R :=
  match n with O => 1 | S n => 1 - a * a / INR ((2 * k + 2) * (2 * k + 3)) * horR n (S k) a end.
Definition tailR (n k : nat) (a : R) : R := sum_f_R0 (fun i => (-1) ^ i * (a ^ (2 * i) * INR (fact (2 * k + 1)) / INR (fact (2 * (k + i) + 1)))) n.
Lemma INR_fact_nz n : INR (fact n) <> 0. Proof. apply INR_fact_neq_0. Qed.
Lemma hor_tail n : forall k a, horR n k a = tailR n k a.
Proof.
  induction n as [|n IH]; intros k a.
  - unfold tailR. cbn [horR sum_f_R0]. change (2 * 0)%nat with O. cbn [pow]. replace (k + 0)%nat with k by lia. field. apply INR_fact_nz.
  - cbn [horR]. rewrite IH. unfold tailR. rewrite (decomp_sum _ (S n)) by lia. cbn [Nat.pred].
    change (2 * 0)%nat with O. replace (k + 0)%nat with k by lia. cbn [pow].
    replace (1 * (1 * INR (fact (2 * k + 1)) / INR (fact (2 * k + 1)))) with 1 by (field; apply INR_fact_nz).
    unfold Rminus. f_equal. rewrite Ropp_mult_distr_l, scal_sum. apply sum_eq. intros i _.
    replace (2 * (S k + i) + 1)%nat with (2 * (k + S i) + 1)%nat by lia.
    replace (2 * S k + 1)%nat with (S (S (2 * k + 1))) by lia. rewrite !(fact_simpl (S _)), (fact_simpl (2 * k + 1)), !mult_INR.
    replace (2 * S i)%nat with (S (S (2 * i))) by lia. 
    replace (S (S (2 * k + 1))) with (2 * k + 3)%nat by lia. replace (S (2 * k + 1)) with (2 * k + 2)%nat by lia.
    change (-1 * (-1) ^ i) with ((-1) ^ S i). rewrite <- !tech_pow_Rmult. field.
    repeat split; try apply INR_fact_nz; apply not_0_INR; lia.
Qed.
Lemma sin_approx_hor a n : sin_approx a n = a * horR n 0 a.
Proof.
  rewrite hor_tail. unfold sin_approx, tailR. rewrite scal_sum. apply sum_eq. intros i _. unfold sin_term.
  cbn [Nat.add]. change (fact (2 * 0 + 1)) with 1%nat. cbn [INR]. rewrite pow_add, pow_1. field. apply INR_fact_nz.
Qed.
Lemma INR_fact_Z n : INR (fact n) = IZR (fold_right (fun i p => Z.of_nat i * p)%Z 1%Z (rev (seq 1 n))).
Proof.
  induction n as [|n IH]; [reflexivity|]. rewrite seq_S, rev_app_distr. cbn [rev app fold_right]. rewrite mult_IZR, <- IH, fact_simpl, mult_INR, <- INR_IZR_INZ. 
  replace (1 + n)%nat with (S n) by lia. reflexivity.
Qed.
Lemma sin_hor a : 0 <= a <= 1.6 -> Rabs (sin a - a * horR 12 0 a) <= / IZR (2 ^ 65).
Proof.
  intros H. rewrite <- sin_approx_hor. pose proof (pre_sin_bound a 5 ltac:(lra) ltac:(lra)) as K.
  change (2 * 5 + 1)%nat with 11%nat in K. change (2 * (5 + 1))%nat with 12%nat in K.
  assert (E : sin_approx a 12 = sin_approx a 11 + a ^ 25 / INR (fact 25)).
  { unfold sin_approx at 1. rewrite tech5. fold (sin_approx a 11). f_equal. unfold sin_term. change (2 * 12 + 1)%nat with 25%nat.
    replace ((-1) ^ 12) with 1 by (cbn [pow]; ring). ring. }
  assert (B : a ^ 25 <= 1.6 ^ 25) by (apply pow_incr; lra). assert (B0 : 0 <= a ^ 25) by (apply pow_le; lra).
  assert (F : INR (fact 25) = 15511210043330985984000000) by (rewrite INR_fact_Z; f_equal; vm_compute; reflexivity).
  rewrite F in E. assert (Q : a ^ 25 / 15511210043330985984000000 <= / IZR (2 ^ 65)).
  { assert (G : 1.6 ^ 25 / 15511210043330985984000000 <= / IZR (2 ^ 65)) by interval. 
    eapply Rle_trans; [|exact G]. unfold Rdiv. apply Rmult_le_compat_r; [left; apply Rinv_0_lt_compat; lra|exact B]. }
  apply Rabs_le. lra.
Qed.

(* ---- in machine integers *)
Notation phi x := (Uint63.to_Z x).
Lemma mulhi_spec a b : exists r, (phi a * phi b = phi (mulhi a b) * 2 ^ 63 + r /\ 0 <= r < 2 ^ 63)%Z.
Proof. exists (phi (snd (Uint63.mulc a b))). split; [apply mulc_spec|apply to_Z_bounded]. Qed.
Definition rec_ok (k : nat) (c : int) : Prop := 
  let d := Z.of_nat ((2 * k + 2) * (2 * k + 3)) in (phi c * d <= 2 ^ 65 < (phi c + 1) * d)%Z.
Fixpoint recs_ok (k : nat) (cs : list int) : Prop := match cs with [] => True | c :: cs => rec_ok k c /\ recs_ok (S k) cs end.
Lemma recips_ok : recs_ok 0 recips.
Proof. vm_compute. intuition discriminate. Qed.
Definition W : R := IZR (2 ^ 62).
Lemma W_pos : 0 < W. Proof. apply (IZR_lt 0). reflexivity. Qed.
Lemma hor_close a t2 : 0 <= a * a <= 2.56 -> (a * a - / IZR (2 ^ 60) <= IZR (phi t2) / IZR (2 ^ 61) <= a * a) -> forall cs k, recs_ok k cs ->
  (0 <= phi (hor cs t2) <= 2 ^ 62)%Z /\ Rabs (IZR (phi (hor cs t2)) / W - horR (length cs) k a) <= 6 / W.
Proof.
  intros HA HT. induction cs as [|c cs IH]; intros k HC.
  - cbn [hor length horR]. change (phi one62) with (2 ^ 62)%Z. split; [lia|]. unfold W. 
    replace (IZR (2 ^ 62) / IZR (2 ^ 62) - 1) with 0 by (field; apply IZR_neq; discriminate). rewrite Rabs_R0. 
    left. apply Rdiv_lt_0_compat; [lra|apply W_pos].
  - destruct HC as [HC HCs]. destruct (IH (S k) HCs) as [BP EP]. clear IH. cbn [hor length horR].
    set (p := hor cs t2) in *. set (P := horR (length cs) (S k) a) in *. unfold rec_ok in HC. cbv zeta in HC.
    set (d := Z.of_nat ((2 * k + 2) * (2 * k + 3))) in *. assert (Hd : (6 <= d)%Z) by (unfold d; nia).
    rewrite INR_IZR_INZ. fold d. clearbody d.
    destruct (mulhi_spec t2 c) as (r1 & E1 & R1). set (m := mulhi t2 c) in *. destruct (mulhi_spec m p) as (r2 & E2 & R2). set (q := mulhi m p) in *.
    pose proof (to_Z_bounded m) as Bm. pose proof (to_Z_bounded q) as Bq. pose proof (to_Z_bounded c) as Bc. pose proof (to_Z_bounded t2) as Bt.
    change wB with (2 ^ 63)%Z in *.
    assert (Q : (phi q <= 2 ^ 62)%Z) by (clear - E2 R2 BP Bm Bq; nia).
    assert (S : phi (Uint63.sub one62 q) = (2 ^ 62 - phi q)%Z).
    { rewrite sub_spec. change (phi one62) with (2 ^ 62)%Z. apply Z.mod_small. change wB with (2 ^ 63)%Z. lia. }
    rewrite S. split; [lia|]. rewrite minus_IZR. fold W.
    (* over the reals *)
    set (t := IZR (phi t2) / IZR (2 ^ 61)) in *. set (g := IZR (phi m) / IZR (2 ^ 63)). set (x := IZR (phi p) / W) in *.
    assert (W62 : W = 4611686018427387904) by (unfold W; f_equal). change (2 ^ 60)%Z with 1152921504606846976%Z in *.
    assert (Dr : 6 <= IZR d) by (apply IZR_le in Hd; exact Hd).
    assert (G : Rabs (g - t / IZR d) <= / W).
    { apply (f_equal IZR) in E1. rewrite mult_IZR, plus_IZR, mult_IZR in E1. destruct R1 as [R1 R1']. apply IZR_le in R1. apply IZR_lt in R1'.
      destruct HC as [C1 C2]. apply IZR_le in C1. apply IZR_lt in C2. rewrite mult_IZR in C1, C2. rewrite plus_IZR in C2.
      destruct Bt as [Bt Bt']. apply IZR_le in Bt. apply IZR_lt in Bt'. 
      assert (Eg : g = (t * (IZR (phi c) / IZR (2 ^ 65))) - IZR r1 / IZR (2 ^ 63) / IZR (2 ^ 63)).
      { unfold g, t. change (2 ^ 63)%Z with 9223372036854775808%Z in *. change (2 ^ 65)%Z with 36893488147419103232%Z in *. change (2 ^ 61)%Z with 2305843009213693952%Z in *. lra. }
      set (cr := IZR (phi c) / IZR (2 ^ 65)) in *. 
      assert (C : / IZR d - / IZR (2 ^ 65) <= cr <= / IZR d).
      { change (2 ^ 65)%Z with 36893488147419103232%Z in *. assert (ID : 0 < / IZR d) by (apply Rinv_0_lt_compat; lra). assert (IDE : IZR d * / IZR d = 1) by (field; lra).
        unfold cr. split; nra. }
      assert (T : 0 <= t < 4). { unfold t. change (2 ^ 63)%Z with 9223372036854775808%Z in *. change (2 ^ 61)%Z with 2305843009213693952%Z. lra. }
      rewrite Eg. replace (t / IZR d) with (t * / IZR d) by reflexivity. set (id := / IZR d) in *. rewrite W62.
      change (2 ^ 63)%Z with 9223372036854775808%Z in *. change (2 ^ 65)%Z with 36893488147419103232%Z in *. clearbody t cr id. clear - C T R1 R1'.
      apply Rabs_le. split; [|].
      - assert (t * cr >= t * id - t * / 36893488147419103232) by nra. lra.
      - assert (t * cr <= t * id) by nra. lra. }
    assert (F : Rabs (IZR (phi q) / W - g * x) <= / W).
    { apply (f_equal IZR) in E2. rewrite mult_IZR, plus_IZR, mult_IZR in E2. destruct R2 as [R2 R2']. apply IZR_le in R2. apply IZR_lt in R2'.
      assert (E : IZR (phi q) / W - g * x = - (IZR r2 / IZR (2 ^ 63) / W)).
      { unfold g, x. rewrite W62. change (2 ^ 63)%Z with 9223372036854775808%Z in *. lra. }
      rewrite E, Rabs_Ropp, W62. change (2 ^ 63)%Z with 9223372036854775808%Z in *. apply Rabs_le. lra. }
    assert (X : 0 <= x <= 1). { destruct BP as [B1 B2]. apply IZR_le in B1. apply IZR_le in B2. unfold x. rewrite W62. change (2 ^ 62)%Z with 4611686018427387904%Z in B2. lra. }
    replace ((W - IZR (phi q)) / W - (1 - a * a / IZR d * P)) with (- (IZR (phi q) / W - g * x) - (g - t / IZR d) * x - (t - a * a) / IZR d * x - a * a / IZR d * (x - P)) by (field; lra).
    assert (ID : 0 < / IZR d <= / 6) by (split; [apply Rinv_0_lt_compat; lra|apply Rinv_le; lra]).
    unfold Rdiv in *. set (id := / IZR d) in *. rewrite W62 in *. clearbody g x P t id. generalize dependent (IZR (phi q) * / 4611686018427387904). intros qq F.
    apply Rabs_le_inv in G, F, EP. 
    assert (A1 : -(1) */ 4611686018427387904 <= (t - a * a) * id * x - 0 <= 0 * / 4611686018427387904).
    { assert (- / 1152921504606846976 * / 6 <= (t - a * a) * id <= 0) by nra. nra. }
    assert (A2 : - / 4611686018427387904 <= (g - t * id) * x <= / 4611686018427387904) by nra.
    assert (A3 : 0 <= a * a * id <= 2.56 / 6) by nra. set (k3 := a * a * id) in *.
    assert (A4 : - (2.56) * / 4611686018427387904 <= k3 * (x - P) <= 2.56 * / 4611686018427387904) by nra.
    apply Rabs_le. lra.
Qed.
Lemma PI80_ok : zs PI80 <= PI <= zs (PI80 + 1).
Proof.
  pose proof pi_K as [A B].
  assert (L : zs PI80 <= zr pi_lo). { unfold zs, zr. change (IZR SC) with (IZR (S80 * S80)). rewrite mult_IZR. pose proof S80_pos. 
    replace (IZR PI80 / IZR S80) with (IZR (PI80 * S80) / (IZR S80 * IZR S80)) by (rewrite mult_IZR; field; lra).
    unfold Rdiv. apply Rmult_le_compat_r; [left; apply Rinv_0_lt_compat; nra|]. apply IZR_le. vm_compute. discriminate. }
  assert (H : zr (pi_lo + 1) <= zs (PI80 + 1)). { unfold zs, zr. change (IZR SC) with (IZR (S80 * S80)). rewrite mult_IZR. pose proof S80_pos. 
    replace (IZR (PI80 + 1) / IZR S80) with (IZR ((PI80 + 1) * S80) / (IZR S80 * IZR S80)) by (rewrite mult_IZR; field; lra).
    unfold Rdiv. apply Rmult_le_compat_r; [left; apply Rinv_0_lt_compat; nra|]. apply IZR_le. vm_compute. discriminate. }
  lra.
Qed.

Lemma sin_series_ok t : (0 <= t <= hpi + 1)%Z -> Rabs (sin (zs t) - zs (sin_series t)) <= zs ser_err.
Proof.
  intros H. unfold sin_series. set (a := Uint63.of_Z (Z.shiftr t 18)).
  assert (EA : phi a = (t / 2 ^ 18)%Z).
  { unfold a. rewrite of_Z_spec, Z.shiftr_div_pow2 by lia. apply Z.mod_small. split; [apply Z.div_pos; lia|]. apply Z.div_lt_upper_bound; [lia|].
    eapply Z.le_lt_trans; [apply H|]. vm_compute. reflexivity. }
  set (x := IZR (phi a) / W). assert (W62 : W = 4611686018427387904) by (unfold W; f_equal).
  assert (X0 : 0 <= zs t - x <= / W).
  { assert (K : (2 ^ 18 * phi a <= t < 2 ^ 18 * phi a + 2 ^ 18)%Z). { rewrite EA. pose proof (Z.mod_pos_bound t (2 ^ 18) ltac:(lia)). pose proof (Z.div_mod t (2 ^ 18) ltac:(lia)). lia. }
    destruct K as [K1 K2]. apply IZR_le in K1. apply IZR_lt in K2. rewrite plus_IZR, mult_IZR in K2. rewrite mult_IZR in K1.
    unfold x, zs. rewrite W62. change (IZR S80) with 1208925819614629174706176. change (2 ^ 18)%Z with 262144%Z in *. lra. }
  assert (XB : 0 <= x <= 1.6).
  { split. - unfold x. apply Rmult_le_pos; [apply (IZR_le 0); apply to_Z_bounded|left; apply Rinv_0_lt_compat, W_pos].
    - assert (zs t <= zs (hpi + 1)) by (apply zs_le; lia). assert (zs (hpi + 1) <= 1.6); [|lra]. assert (K : zs (5 * (hpi + 1)) <= zs (8 * S80)) by (apply zs_le; vm_compute; discriminate). rewrite !zs_scale, zs_1 in K. lra. }
  destruct (mulhi_spec a a) as (r1 & E1 & R1). set (t2 := mulhi a a) in *.
  destruct (hor_close x t2) with (cs := recips) (k := O) as [BP EP]; [split; nra| |exact recips_ok|].
  { apply (f_equal IZR) in E1. rewrite mult_IZR, plus_IZR, mult_IZR in E1. destruct R1 as [R1 R1']. apply IZR_le in R1. apply IZR_lt in R1'. 
    assert (E : IZR (phi t2) / IZR (2 ^ 61) = x * x - IZR r1 / IZR (2 ^ 63) / IZR (2 ^ 61)).
    { unfold x. rewrite W62. change (2 ^ 63)%Z with 9223372036854775808%Z in *. change (2 ^ 61)%Z with 2305843009213693952%Z. 
      replace (IZR (phi a) / 4611686018427387904 * (IZR (phi a) / 4611686018427387904)) with (IZR (phi a) * IZR (phi a) / 4611686018427387904 / 4611686018427387904) by field. rewrite E1. lra. }
    rewrite E. change (2 ^ 63)%Z with 9223372036854775808%Z in *. change (2 ^ 61)%Z with 2305843009213693952%Z. change (2 ^ 60)%Z with 1152921504606846976%Z. lra. }
  set (p := hor recips t2) in *. change (length recips) with 12%nat in EP. destruct (mulhi_spec a p) as (r2 & E2 & R2). set (s := mulhi a p) in *.
  apply (f_equal IZR) in E2. rewrite mult_IZR, plus_IZR, mult_IZR in E2. destruct R2 as [R2 R2']. apply IZR_le in R2. apply IZR_lt in R2'.
  rewrite Z.shiftl_mul_pow2 by lia. set (y := IZR (phi p) / W) in *.
  assert (ES : zs (phi s * 2 ^ 19) = x * y - IZR r2 / IZR (2 ^ 63) / IZR (2 ^ 61)).
  { unfold zs, x, y. rewrite W62, mult_IZR. change (2 ^ 63)%Z with 9223372036854775808%Z in *. change (2 ^ 61)%Z with 2305843009213693952%Z. change (2 ^ 19)%Z with 524288%Z. change (IZR S80) with 1208925819614629174706176.
    replace (IZR (phi a) / 4611686018427387904 * (IZR (phi p) / 4611686018427387904)) with (IZR (phi a) * IZR (phi p) / 4611686018427387904 / 4611686018427387904) by field. rewrite E2. lra. }
  rewrite ES. pose proof (sin_hor x XB) as SH. pose proof (sin_lip (zs t) x) as SL. rewrite (Rabs_pos_eq (zs t - x)) in SL by lra.
  set (P := horR 12 0 x) in *. assert (ER : zs ser_err = 7 / 2305843009213693952) by (unfold zs; change (IZR ser_err) with 3670016; change (IZR S80) with 1208925819614629174706176; lra).
  rewrite ER. rewrite W62 in *. change (2 ^ 63)%Z with 9223372036854775808%Z in *. change (2 ^ 61)%Z with 2305843009213693952%Z. change (2 ^ 65)%Z with 36893488147419103232%Z in SH.
  clearbody P y x. clear - R2 R2' X0 XB EP SH SL. apply Rabs_le_inv in EP, SH, SL. apply Rabs_le.
  assert (- (9.6 / 4611686018427387904) <= x * (y - P) <= 9.6 / 4611686018427387904) by (split; nra). lra.
Qed.

Lemma sin_at_ok x : Rabs (sin (zs x) - zs (fst (sin_at x))) <= zs (snd (sin_at x)).
Proof.
  unfold sin_at. set (k0 := (Z.shiftr x 60 / _)%Z). cbv zeta. set (k := if (x - k0 * tpi <? 0)%Z then _ else _). clearbody k. clear k0.
  set (t := (x - k * tpi)%Z). set (ng := (PI80 <=? t)%Z). set (t1 := if ng then (t - PI80)%Z else t). set (t2 := if (t1 <=? hpi)%Z then t1 else (PI80 - t1)%Z).
  destruct ((0 <=? t2)%Z && (t2 <=? hpi + 1)%Z) eqn:G; cbn [fst snd].
  2:{ rewrite zs_0, zs_1, Rminus_0_r. apply Rabs_le. apply SIN_bound. }
  apply andb_true_iff in G as [G1 G2]. apply Z.leb_le in G1, G2. pose proof (sin_series_ok t2 (conj G1 G2)) as S. clear G1 G2.
  pose proof PI80_ok as [P1 P2]. rewrite zs_add in P2.
  assert (A : Rabs (sin (zs x) - sin (zs t)) <= zs (2 * Z.abs k)).
  { replace (sin (zs x)) with (sin (zs x + 2 * IZR (- k) * PI)) by apply sin_2kPI. eapply Rle_trans; [apply sin_lip|].
    unfold t. rewrite zs_sub, zs_scale, opp_IZR. change tpi with (2 * PI80)%Z. rewrite zs_scale.
    replace (zs x + 2 * - IZR k * PI - (zs x - IZR k * (2 * zs PI80))) with (- (IZR k * (2 * (PI - zs PI80)))) by ring.
    rewrite Rabs_Ropp, Rabs_mult, Z.mul_comm, zs_scale, abs_IZR. apply Rmult_le_compat_l; [apply Rabs_pos|].
    replace (zs 2) with (zs 1 + zs 1) by (rewrite <- zs_add; reflexivity). rewrite Rabs_pos_eq; lra. }
  assert (B : Rabs (sin (zs t) - (if ng then -1 else 1) * sin (zs t1)) <= zs 1).
  { unfold t1. destruct ng.
    - replace (sin (zs t)) with (- sin (zs t - PI)) by (rewrite sin_minus, sin_PI, cos_PI; ring). rewrite zs_sub.
      replace (- sin (zs t - PI) - -1 * sin (zs t - zs PI80)) with (- (sin (zs t - PI) - sin (zs t - zs PI80))) by ring. rewrite Rabs_Ropp.
      eapply Rle_trans; [apply sin_lip|]. replace (zs t - PI - (zs t - zs PI80)) with (- (PI - zs PI80)) by ring. rewrite Rabs_Ropp, Rabs_pos_eq; lra.
    - rewrite Rmult_1_l, Rminus_diag_eq, Rabs_R0 by reflexivity. rewrite <- zs_0. apply zs_le. lia. }
  assert (C : Rabs (sin (zs t1) - sin (zs t2)) <= zs 1).
  { unfold t2. destruct (t1 <=? hpi)%Z.
    - rewrite Rminus_diag_eq, Rabs_R0 by reflexivity. rewrite <- zs_0. apply zs_le. lia.
    - replace (sin (zs t1)) with (sin (PI - zs t1)) by (rewrite sin_minus, sin_PI, cos_PI; ring). rewrite zs_sub. eapply Rle_trans; [apply sin_lip|]. replace (PI - zs t1 - (zs PI80 - zs t1)) with (PI - zs PI80) by ring. rewrite Rabs_pos_eq; lra. }
  rewrite !zs_add. replace (zs 2) with (zs 1 + zs 1) by (rewrite <- zs_add; reflexivity).
  apply Rabs_le_inv in A, B, C, S. apply Rabs_le. destruct ng; [rewrite zs_opp|]; lra.
Qed.
Lemma isin_ok l h u v x : isin l h = (u, v) -> zs l <= x <= zs h -> zs u <= sin x <= zs v.
Proof.
  unfold isin. set (m := Z.shiftr (l + h) 1). pose proof (sin_at_ok m) as S. destruct (sin_at m) as [s e]. cbn [fst snd] in S. intros [= <- <-] H.
  assert (M : (2 * m <= l + h < 2 * m + 2)%Z). { unfold m. rewrite Z.shiftr_div_pow2 by lia. change (2 ^ 1)%Z with 2%Z. pose proof (Z.mod_pos_bound (l + h) 2 ltac:(lia)). pose proof (Z.div_mod (l + h) 2 ltac:(lia)). lia. }
  assert (D : Rabs (x - zs m) <= zs (h - m)).
  { assert (zs (m - (h - m)) <= zs l) by (apply zs_le; lia). rewrite !zs_sub in *. apply Rabs_le. lra. }
  pose proof (sin_lip x (zs m)) as L. rewrite !zs_add, !zs_sub in *. apply Rabs_le_inv in S, L. assert (D' : Rabs (x - zs m) <= zs h - zs m) by exact D. lra.
Qed.
Lemma hpi_ok : zs hpi <= PI / 2 <= zs (hpi + 1).
Proof.
  pose proof PI80_ok as [A B]. assert (H1 : zs (2 * hpi) <= zs PI80) by (apply zs_le; vm_compute; discriminate).
  assert (H2 : zs (PI80 + 1) <= zs (2 * (hpi + 1))) by (apply zs_le; vm_compute; discriminate). rewrite zs_scale in H1, H2. lra.
Qed.
Lemma icos_ok l h u v x : icos l h = (u, v) -> zs l <= x <= zs h -> zs u <= cos x <= zs v.
Proof.
  intros E H. unfold icos in E. replace (cos x) with (sin (x + PI / 2)) by (rewrite sin_plus, sin_PI2, cos_PI2; ring).
  apply (isin_ok _ _ _ _ _ E). pose proof hpi_ok. rewrite zs_add in *. rewrite <- Z.add_assoc, !zs_add. lra.
Qed.
Lemma cos_at_ok t : Rabs (cos (zs t) - zs (fst (cos_at t))) <= zs (snd (cos_at t)).
Proof.
  unfold cos_at. pose proof (sin_at_ok (t + hpi)) as S. destruct (sin_at (t + hpi)) as [s e]. cbn [fst snd] in *.
  replace (cos (zs t)) with (sin (zs t + PI / 2)) by (rewrite sin_plus, sin_PI2, cos_PI2; ring). pose proof hpi_ok as [A B]. rewrite zs_add in B.
  pose proof (sin_lip (zs t + PI / 2) (zs (t + hpi))) as L. rewrite zs_add in L at 2. replace (zs t + PI / 2 - (zs t + zs hpi)) with (PI / 2 - zs hpi) in L by ring.
  rewrite (Rabs_pos_eq (PI / 2 - zs hpi)) in L by lra. rewrite zs_add. apply Rabs_le_inv in S, L. apply Rabs_le. lra.
Qed.

(* ---- inverses *)
Lemma iasin_ok l h u v x : iasin l h = Some (u, v) -> zs l <= x <= zs h -> -1 <= x <= 1 /\ zs u <= asin x <= zs v.
Proof.
  unfold iasin. set (a := (asin_guess l - slack)%Z). set (b := (asin_guess h + slack)%Z). clearbody a b. pose proof (sin_at_ok a) as SA. pose proof (sin_at_ok b) as SB.
  destruct (sin_at a) as [s e], (sin_at b) as [s' e']. cbn [fst snd] in SA, SB. destruct (_ && _) eqn:G; [|discriminate]. intros [= <- <-] H.
  rewrite !andb_true_iff, !Z.leb_le in G. destruct G as (((((((G1 & G2) & G3) & G4) & G5) & G6) & G7) & G8).
  apply zs_le in G1, G2, G3, G4, G5, G6, G7, G8. rewrite zs_opp in G3, G5, G8. rewrite zs_1 in *. rewrite zs_add in G1. rewrite zs_sub in G2. pose proof hpi_ok as [HP _].
  apply Rabs_le_inv in SA, SB. assert (X : -1 <= x <= 1) by lra. split; [exact X|]. pose proof (asin_bound x) as AB. pose proof (sin_asin x X) as SX.
  split.
  - destruct (Rle_dec (zs a) (asin x)) as [|K]; [assumption|]. assert (Q : sin (asin x) < sin (zs a)) by (apply sin_increasing_1; lra). lra.
  - destruct (Rle_dec (asin x) (zs b)) as [|K]; [assumption|]. assert (Q : sin (zs b) < sin (asin x)) by (apply sin_increasing_1; lra). lra.
Qed.
Lemma min_prod z c d C : Rabs (C - zs c) <= zs d -> 
  IZR (Z.min (z * (c - d)) (z * (c + d))) / IZR S80 <= IZR z * C <= IZR (Z.max (z * (c - d)) (z * (c + d))) / IZR S80.
Proof.
  intros H. apply Rabs_le_inv in H.
  change (zs (Z.min (z * (c - d)) (z * (c + d))) <= IZR z * C <= zs (Z.max (z * (c - d)) (z * (c + d)))).
  assert (M1 : zs (Z.min (z * (c - d)) (z * (c + d))) <= zs (z * (c - d)) /\ zs (Z.min (z * (c - d)) (z * (c + d))) <= zs (z * (c + d))) by (split; apply zs_le; lia).
  assert (M2 : zs (z * (c - d)) <= zs (Z.max (z * (c - d)) (z * (c + d))) /\ zs (z * (c + d)) <= zs (Z.max (z * (c - d)) (z * (c + d)))) by (split; apply zs_le; lia).
  rewrite !zs_scale, zs_sub, zs_add in M1, M2. destruct (Rle_dec 0 (IZR z)); nra.
Qed.
Lemma iatan_ok l h u v x : iatan l h = Some (u, v) -> zs l <= x <= zs h -> zs u <= atan x <= zs v.
Proof.
  unfold iatan. set (a := (atan_guess l - slack)%Z). set (b := (atan_guess h + slack)%Z). clearbody a b. pose proof (sin_at_ok a) as SA. pose proof (sin_at_ok b) as SB.
  pose proof (cos_at_ok a) as CA. pose proof (cos_at_ok b) as CB. destruct (sin_at a) as [s e], (sin_at b) as [s' e'], (cos_at a) as [c d], (cos_at b) as [c' d']. cbn [fst snd] in SA, SB, CA, CB. 
  destruct (_ && _) eqn:G; [|discriminate]. intros [= <- <-] H. rewrite !andb_true_iff, !Z.leb_le, !Z.ltb_lt in G. destruct G as (((((G1 & G2) & G3) & G4) & G5) & G6).
  apply zs_lt in G3, G4, G5, G6. rewrite zs_opp in G3, G6. pose proof hpi_ok as [HP _]. pose proof PI_RGT_0 as PP.
  pose proof (proj1 (min_prod l c d _ CA)) as M1. pose proof (proj2 (min_prod h c' d' _ CB)) as M2. apply zs_le in G1, G2. unfold zs in G1 at 2. unfold zs in G2 at 1.
  rewrite (Z.mul_comm _ S80), zs_scale, zs_add in G1. rewrite (Z.mul_comm _ S80), zs_scale, zs_sub in G2. apply Rabs_le_inv in SA, SB. pose proof S80_pos as SP.
  assert (Ez : forall z, IZR z = IZR S80 * zs z) by (intros; unfold zs; field; lra). rewrite (Ez l) in M1. rewrite (Ez h) in M2.
  split.
  - destruct (Rle_dec (zs a) (atan x)) as [|K]; [assumption|exfalso]. pose proof (atan_bound x) as AB.
    assert (CP : 0 < cos (zs a)) by (apply cos_gt_0; lra). assert (T : tan (atan x) < tan (zs a)) by (apply tan_increasing; lra).
    rewrite tan_atan in T. unfold tan in T. apply (Rmult_lt_compat_r (cos (zs a))) in T; [|exact CP].
    replace (sin (zs a) / cos (zs a) * cos (zs a)) with (sin (zs a)) in T by (field; lra). 
    assert (zs l * cos (zs a) <= x * cos (zs a)) by (apply Rmult_le_compat_r; lra). nra.
  - destruct (Rle_dec (atan x) (zs b)) as [|K]; [assumption|exfalso]. pose proof (atan_bound x) as AB.
    assert (CP : 0 < cos (zs b)) by (apply cos_gt_0; lra). assert (T : tan (zs b) < tan (atan x)) by (apply tan_increasing; lra).
    rewrite tan_atan in T. unfold tan in T. apply (Rmult_lt_compat_r (cos (zs b))) in T; [|exact CP].
    replace (sin (zs b) / cos (zs b) * cos (zs b)) with (sin (zs b)) in T by (field; lra).
    assert (x * cos (zs b) <= zs h * cos (zs b)) by (apply Rmult_le_compat_r; lra). nra.
Qed.

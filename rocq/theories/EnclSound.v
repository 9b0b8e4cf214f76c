(* The interval calculator of Encl.v encloses what binary64 with any accurate C library computes. *)
From Coq Require Import Reals Qreals Lra Lia ZArith Bool.
From Flocq Require Import Core IEEE754.BinarySingleNaN.
From Interval Require Import Tactic.
From Verif Require Import Py Num RInst Trig SpaProofs TopoProofs B64 SpecB64 B64Lemmas B64Angles B64Ranges Rel Absint AbsintSound Encl EnclSin.
Local Open Scope R_scope.

Definition sate (a : ev) (x : f64) : Prop :=
  match a with Fl y => x = y | Qv q => x = flit q | Iv l h => exists v, val x v /\ zs l <= v <= zs h | Any => True end.
Definition satb (a : option bool) (b : bool) : Prop := match a with Some c => c = b | None => True end.

Lemma sp_inj {A B} (a c : A) (b d : B) : Some (a, b) = Some (c, d) -> a = c /\ b = d.
Proof. intros H. now inversion H. Qed.
Lemma p_inj {A B} (a c : A) (b d : B) : (a, b) = (c, d) -> a = c /\ b = d.
Proof. intros H. now inversion H. Qed.
(* ---- scaled integers *)
Lemma shr_le a n : (0 <= n)%Z -> IZR (Z.shiftr a n) <= IZR a / IZR (2 ^ n).
Proof. intros H. rewrite Z.shiftr_div_pow2 by exact H. apply floor_le. apply Z.pow_pos_nonneg; lia. Qed.
Lemma shr_gt a n : (0 <= n)%Z -> IZR a / IZR (2 ^ n) - 1 <= IZR (Z.shiftr a n).
Proof. intros H. rewrite Z.shiftr_div_pow2 by exact H. apply floor_gt. apply Z.pow_pos_nonneg; lia. Qed.
Lemma pow2_bpow n : (0 <= n)%Z -> IZR (2 ^ n) = bpow radix2 n.
Proof. intros H. rewrite <- IZR_Zpower by exact H. reflexivity. Qed.
Lemma S80_bpow : IZR S80 = bpow radix2 80. Proof. exact (pow2_bpow 80 ltac:(lia)). Qed.

Lemma exact_ok a x y : sate a x -> exact a = Some y -> x = y.
Proof. destruct a; cbn [sate exact]; try discriminate; intros -> E; now inversion E. Qed.
Lemma ulp80_ok m : zs m * bpow radix2 (-53) + bpow radix2 (-1074) <= zs (ulp80 m).
Proof.
  unfold ulp80. rewrite zs_add. pose proof (shr_gt m 53 ltac:(lia)) as K. rewrite pow2_bpow in K by lia.
  assert (U : bpow radix2 (-1074) <= / IZR S80) by (rewrite S80_bpow, <- bpow_opp; apply bpow_le; lia).
  assert (T : zs 2 = 2 * / IZR S80) by (unfold zs; lra). 
  assert (Q : zs m * bpow radix2 (-53) - / IZR S80 <= zs (Z.shiftr m 53)); [|lra].
  unfold zs. pose proof (Rinv_0_lt_compat _ S80_pos) as P. change (bpow radix2 (-53)) with (/ bpow radix2 53). unfold Rdiv in *. nra.
Qed.
Lemma bounds_q' p d l h : (let k := Z.shiftl p 80 / Z.pos d in
    if Z.abs k <=? P53 * S80 then let u := ulp80 (Z.abs k + 1) in Some (k - u, k + 1 + u) else None)%Z = Some (l, h) ->
  exists v, val (flit (p # d)) v /\ zs l <= v <= zs h.
Proof.
  cbv zeta. set (k := (Z.shiftl p 80 / Z.pos d)%Z). destruct (Z.leb_spec (Z.abs k) (P53 * S80)) as [B|]; [|intros E; discriminate E].
  intros E. apply sp_inj in E as [<- <-].
  assert (K : zs k <= Q2R (p # d) <= zs (k + 1)).
  { pose proof (floor_le (Z.shiftl p 80) (Z.pos d) eq_refl) as K1. pose proof (floor_gt (Z.shiftl p 80) (Z.pos d) eq_refl) as K2. fold k in K1, K2.
    rewrite Z.shiftl_mul_pow2 in K1, K2 by lia. change (2 ^ 80)%Z with S80 in *. rewrite mult_IZR in K1, K2. unfold Q2R. cbn [Qnum Qden].
    pose proof (Rinv_0_lt_compat _ S80_pos) as P. rewrite zs_add. unfold zs.
    assert (E : IZR p * IZR S80 / IZR (Z.pos d) * / IZR S80 = IZR p * / IZR (Z.pos d)) by (field; split; apply IZR_neq; discriminate).
    split; [rewrite <- E; apply Rmult_le_compat_r; lra|]. rewrite <- E. unfold Rdiv at 2 3. rewrite <- Rmult_plus_distr_r. apply Rmult_le_compat_r; lra. }
  assert (A : Rabs (Q2R (p # d)) <= zs (Z.abs k + 1)).
  { assert (zs (- (Z.abs k + 1)) <= zs k) by (apply zs_le; lia). assert (zs (k + 1) <= zs (Z.abs k + 1)) by (apply zs_le; lia). rewrite zs_opp in *. apply Rabs_le. lra. }
  exists (rnd (Q2R (p # d))). split.
  - apply val_lit. eapply Rle_trans; [exact A|]. apply Rle_trans with (bpow radix2 60); [|apply bpow_le; lia].
    assert (H : zs (Z.abs k + 1) <= zs (2 ^ 60 * S80)). { apply zs_le. assert (P53 * S80 + 1 <= 2 ^ 60 * S80)%Z by (vm_compute; discriminate). lia. }
    rewrite zs_scale, zs_1 in H. change (bpow radix2 60) with (IZR (2 ^ 60)). lra.
  - pose proof (rnd_rel (Q2R (p # d))) as R. pose proof (ulp80_ok (Z.abs k + 1)) as U. 
    assert (Rabs (Q2R (p # d)) * bpow radix2 (-53) <= zs (Z.abs k + 1) * bpow radix2 (-53)) by (apply Rmult_le_compat_r; [apply bpow_ge_0|exact A]).
    apply Rabs_le_inv in R. rewrite zs_add in K. rewrite zs_sub, !zs_add in *. lra.
Qed.
Lemma bounds_q p d l h : bounds (Qv (p # d)) = Some (l, h) -> exists v, val (flit (p # d)) v /\ zs l <= v <= zs h.
Proof.
  cbn [bounds]. destruct (Z.leb_spec (Z.abs p) P53) as [B|B]; cbn [andb]; [destruct (Pos.eqb_spec d 1) as [->|D]|].
  - intros E. apply sp_inj in E as [<- <-]. exists (IZR p). split; [apply (val_int p B)|]. 
    assert (K : zs (Z.shiftl p 80) = IZR p); [|lra]. rewrite Z.shiftl_mul_pow2 by lia. change (2 ^ 80)%Z with S80. rewrite zs_scale, zs_1. ring.
  - apply bounds_q'.
  - apply bounds_q'.
Qed.
Lemma bounds_ok a x l h : sate a x -> bounds a = Some (l, h) -> exists v, val x v /\ zs l <= v <= zs h.
Proof.
  destruct a as [y|[p d]|u w|]; cbn [sate]; [|intros ->; apply bounds_q|cbn [bounds]; intros H E; apply sp_inj in E as [-> ->]; exact H|discriminate]. cbn [bounds].
  intros ->. destruct y as [s|s| |s m e He]; try discriminate.
  - intros [= <- <-]. exists 0. split; [now split|]. rewrite zs_0. lra.
  - set (z := cond_Zopp s (Zpos m)). intros H. exists (F2R (Float radix2 z e)). split; [split; reflexivity|].
    unfold F2R. cbn [Fnum Fexp]. destruct (Z.leb_spec 0 (e + 80)) as [E|E].
    + injection H as <- <-. assert (K : zs (Z.shiftl z (e + 80)) = IZR z * bpow radix2 e); [|lra].
      rewrite Z.shiftl_mul_pow2 by exact E. unfold zs. rewrite mult_IZR, pow2_bpow, bpow_plus, S80_bpow by exact E. field. apply Rgt_not_eq, bpow_gt_0.
    + injection H as <- <-. assert (E' : (0 <= - (e + 80))%Z) by lia. pose proof (shr_le z _ E') as K1. pose proof (shr_gt z _ E') as K2.
      rewrite pow2_bpow in K1, K2 by exact E'. set (k := Z.shiftr z (- (e + 80))) in *.
      assert (Q : IZR z / bpow radix2 (- (e + 80)) / IZR S80 = IZR z * bpow radix2 e).
      { rewrite S80_bpow, bpow_opp, bpow_plus. field. split; apply Rgt_not_eq, bpow_gt_0. }
      rewrite <- Q. rewrite zs_add. unfold zs. pose proof (Rinv_0_lt_compat _ S80_pos) as P. unfold Rdiv in *. split; nra.
Qed.

Lemma top_bound : zs TOP <= bpow radix2 1000.
Proof.
  unfold zs. change (IZR TOP) with (IZR (2 ^ 900)). rewrite (pow2_bpow 900) by lia. rewrite S80_bpow. unfold Rdiv.
  rewrite <- bpow_opp, <- bpow_plus. apply bpow_le. lia.
Qed.
Lemma abs_bound80 lo hi r : zs lo <= r <= zs hi -> Rabs r <= zs (Z.max (Z.abs lo) (Z.abs hi)).
Proof.
  intros H. assert (zs (- Z.max (Z.abs lo) (Z.abs hi)) <= zs lo) by (apply zs_le; lia). assert (zs hi <= zs (Z.max (Z.abs lo) (Z.abs hi))) by (apply zs_le; lia).
  rewrite zs_opp in *. apply Rabs_le. lra.
Qed.
Lemma small lo hi r : zs lo <= r <= zs hi -> (Z.max (Z.abs lo) (Z.abs hi) <=? TOP)%Z = true -> Rabs r <= bpow radix2 1000.
Proof.
  intros H T. apply Z.leb_le in T. eapply Rle_trans; [apply (abs_bound80 _ _ _ H)|]. eapply Rle_trans; [apply zs_le; exact T|apply top_bound].
Qed.
Lemma out_ok k lo hi f w : (0 <= k)%Z -> approx k f w -> zs lo <= w <= zs hi -> sate (out k lo hi) f.
Proof.
  intros Hk A B. unfold out. set (m := Z.max (Z.abs lo) (Z.abs hi)). destruct (Z.leb_spec m TOP) as [LB|]; [|exact I].
  pose proof (abs_bound80 _ _ _ B) as M. fold m in M.
  destruct A as (fv & V & H). { eapply small; [exact B|]. now apply Z.leb_le. }
  exists fv. split; [exact V|]. rewrite zs_sub, zs_add, zs_scale. pose proof (ulp80_ok m) as U. apply IZR_le in Hk.
  assert (K : Rabs w * bpow radix2 (-53) <= zs m * bpow radix2 (-53)) by (apply Rmult_le_compat_r; [apply bpow_ge_0|exact M]).
  assert (G : IZR k * (Rabs w * bpow radix2 (-53) + bpow radix2 (-1074)) <= IZR k * zs (ulp80 m)) by (apply Rmult_le_compat_l; lra).
  apply Rabs_le_inv in H. lra.
Qed.

(* ---- intervals *)
Definition z2 (a : Z) : R := IZR a / IZR S80 / IZR S80.
Lemma z2_le a b : (a <= b)%Z -> z2 a <= z2 b.
Proof. intros H. apply IZR_le in H. unfold z2, Rdiv. pose proof (Rinv_0_lt_compat _ S80_pos). do 2 (apply Rmult_le_compat_r; [lra|]). exact H. Qed.
Lemma z2_add a b : z2 (a + b) = z2 a + z2 b. Proof. unfold z2. rewrite plus_IZR. field. pose proof S80_pos; lra. Qed.
Lemma z2_sub a b : z2 (a - b) = z2 a - z2 b. Proof. unfold z2. rewrite minus_IZR. field. pose proof S80_pos; lra. Qed.
Lemma z2_mul a b : z2 (a * b) = zs a * zs b.
Proof. unfold z2, zs. rewrite mult_IZR. field. pose proof S80_pos; lra. Qed.
Lemma z2_dn a : zs (Z.shiftr a 80) <= z2 a.
Proof. unfold z2, zs. apply Rmult_le_compat_r; [left; apply Rinv_0_lt_compat, S80_pos|]. exact (shr_le a 80 ltac:(lia)). Qed.
Lemma z2_up a : z2 a <= zs (up a).
Proof.
  unfold up. rewrite zs_opp. pose proof (z2_dn (- a)) as K. assert (E : z2 (- a) = - z2 a) by (unfold z2; rewrite opp_IZR; field; pose proof S80_pos; lra).
  rewrite E in K. lra.
Qed.
Lemma mid_ok l h x : zs l <= x <= zs h -> let m := Z.shiftr (l + h) 1 in Rabs (x - zs m) <= zs (h - m).
Proof.
  intros H m. assert (M : (2 * m <= l + h)%Z). { unfold m. rewrite Z.shiftr_div_pow2 by lia. change (2 ^ 1)%Z with 2%Z. pose proof (Z.mul_div_le (l + h) 2 ltac:(lia)). lia. }
  assert (zs (m - (h - m)) <= zs l) by (apply zs_le; lia). rewrite !zs_sub in *. apply Rabs_le. lra.
Qed.
Lemma iprod_ok l h l' h' u v x y : iprod l h l' h' = (u, v) -> zs l <= x <= zs h -> zs l' <= y <= zs h' -> zs u <= x * y <= zs v.
Proof.
  unfold iprod. intros Q H H'. apply p_inj in Q as [<- <-]. pose proof (mid_ok _ _ _ H) as M. pose proof (mid_ok _ _ _ H') as M'. cbv zeta in M, M'.
  set (m := Z.shiftr (l + h) 1) in *. set (m' := Z.shiftr (l' + h') 1) in *. set (r := (h - m)%Z) in *. set (r' := (h' - m')%Z) in *.
  pose proof (mul_err _ _ _ _ _ _ _ _ M M' (Rle_refl _) (Rle_refl _)) as E. rewrite <- !zs_abs in E.
  assert (E' : Rabs (x * y - z2 (m * m')) <= z2 (r' * Z.abs m + r * (Z.abs m' + r'))).
  { rewrite z2_mul. eapply Rle_trans; [exact E|]. apply Req_le. rewrite z2_add, !z2_mul, zs_add. ring. }
  apply Rabs_le_inv in E'. split.
  - eapply Rle_trans; [apply z2_dn|]. rewrite z2_sub. lra.
  - eapply Rle_trans; [|apply z2_up]. rewrite z2_add. lra.
Qed.
Lemma quot_lo_ok lo ylo yhi r s : zs lo <= r -> zs ylo <= s <= zs yhi -> (0 < ylo)%Z -> zs (quot_lo lo ylo yhi) <= r / s.
Proof.
  intros H K L. pose proof (zs_lt _ _ L) as L'. rewrite zs_0 in L'.
  assert (Y : (0 < yhi)%Z). { apply Z.lt_le_trans with ylo; [exact L|]. apply zs_le_inv. lra. }
  assert (D : forall y, (0 < y)%Z -> zs (lo * S80 / y) <= zs lo / zs y).
  { intros y Hy. unfold zs. eapply Rle_trans; [apply Rmult_le_compat_r; [left; apply Rinv_0_lt_compat, S80_pos|apply floor_le; exact Hy]|].
    rewrite mult_IZR. apply IZR_lt in Hy. pose proof S80_pos. apply Req_le. field. split; lra. }
  assert (R : zs lo / s <= r / s) by (apply Rmult_le_compat_r; [left; apply Rinv_0_lt_compat; lra|exact H]).
  unfold quot_lo. destruct (Z.leb_spec 0 lo) as [P|P].
  - apply zs_le in P. rewrite zs_0 in P. eapply Rle_trans; [apply (D yhi Y)|]. eapply Rle_trans; [|exact R]. apply Rmult_le_compat_l; [exact P|]. apply Rinv_le; lra.
  - apply zs_lt in P. rewrite zs_0 in P. eapply Rle_trans; [apply (D ylo L)|]. eapply Rle_trans; [|exact R].
    assert (I : / s <= / zs ylo) by (apply Rinv_le; lra). unfold Rdiv. nra.
Qed.
Lemma iquot_ok l h l' h' u v x y : iquot l h l' h' = (u, v) -> (0 < l')%Z -> zs l <= x <= zs h -> zs l' <= y <= zs h' -> zs u <= x / y <= zs v.
Proof.
  unfold iquot. intros Q L H H'. apply p_inj in Q as [<- <-]. split; [apply quot_lo_ok; [lra|exact H'|exact L]|]. rewrite zs_opp.
  assert (K : zs (quot_lo (- h) l' h') <= (- x) / y) by (apply quot_lo_ok; [rewrite zs_opp; lra|exact H'|exact L]). unfold Rdiv in *. lra.
Qed.
Lemma ipow_ok l h x n : zs l <= x <= zs h -> forall u v, ipow l h n = (u, v) -> zs u <= x ^ n <= zs v.
Proof.
  intros H. induction n as [|n IH]; intros u v E.
  - apply p_inj in E as [<- <-]. rewrite zs_1. cbn. lra.
  - cbn [ipow] in E. destruct (ipow l h n) as [u' v']. cbn [pow]. apply (iprod_ok _ _ _ _ _ _ _ _ E H). now apply IH.
Qed.
Lemma iacos_ok l h u v x : iacos l h = Some (u, v) -> zs l <= x <= zs h -> -1 <= x <= 1 /\ zs u <= acos x <= zs v.
Proof.
  unfold iacos. destruct (iasin l h) as [[a b]|] eqn:E; [|intros Q; discriminate Q]. intros Q H. apply sp_inj in Q as [<- <-]. destruct (iasin_ok _ _ _ _ _ E H) as [X A].
  split; [exact X|]. rewrite acos_asin by exact X. pose proof hpi_ok. rewrite !zs_sub in *. lra.
Qed.
Lemma atan_inv_pos x : 0 < x -> atan (/ x) = PI / 2 - atan x.
Proof. exact (atan_inv x). Qed.
Lemma Ratan2_up y x : 0 < y -> Ratan2 y x = PI / 2 - atan (x / y).
Proof.
  intros H. unfold Ratan2. pose proof PI_RGT_0. destruct (Rsgn_cases x) as [[E X]|[[E X]|[E X]]]; rewrite E.
  - assert (P : 0 < x / y) by (apply Rdiv_lt_0_compat; lra). replace (y / x) with (/ (x / y)) by (field; lra). apply atan_inv_pos; exact P.
  - destruct (Rsgn_cases y) as [[E' Y]|[[E' Y]|[E' Y]]]; try lra. rewrite E', X. replace (0 / y) with 0 by (field; lra). rewrite atan_0. lra.
  - destruct (Rle_dec 0 y); [|lra]. replace (y / x) with (- / ((- x) / y)) by (field; lra). rewrite atan_opp.
    assert (P : 0 < - x / y) by (apply Rdiv_lt_0_compat; lra). rewrite atan_inv_pos by exact P.
    replace (- x / y) with (- (x / y)) by (field; lra). rewrite atan_opp. lra.
Qed.
Lemma Ratan2_dn y x : y < 0 -> Ratan2 y x = - (PI / 2) - atan (x / y).
Proof.
  intros H. unfold Ratan2. pose proof PI_RGT_0. destruct (Rsgn_cases x) as [[E X]|[[E X]|[E X]]]; rewrite E.
  - assert (P : 0 < x / (- y)) by (apply Rdiv_lt_0_compat; lra). replace (y / x) with (- / (x / (- y))) by (field; lra).
    rewrite atan_opp, atan_inv_pos by exact P. replace (x / - y) with (- (x / y)) by (field; lra). rewrite atan_opp. lra.
  - destruct (Rsgn_cases y) as [[E' Y]|[[E' Y]|[E' Y]]]; try lra. rewrite E', X. replace (0 / y) with 0 by (field; lra). rewrite atan_0. lra.
  - destruct (Rle_dec 0 y); [lra|]. replace (y / x) with (/ (x / y)) by (field; lra).
    assert (P : 0 < x / y) by (unfold Rdiv; replace (x * / y) with ((- x) * / (- y)) by (field; lra); apply Rdiv_lt_0_compat; lra). rewrite atan_inv_pos by exact P. lra.
Qed.
Lemma iatan2_ok l h l' h' u v y x : iatan2 l h l' h' = Some (u, v) -> zs l <= y <= zs h -> zs l' <= x <= zs h' -> (y <> 0 \/ 0 < x) /\ zs u <= Ratan2 y x <= zs v.
Proof.
  unfold iatan2. intros E H H'. pose proof hpi_ok as HP. rewrite zs_add in HP. destruct (Z.ltb_spec 0 l') as [L|L].
  - destruct (iquot l h l' h') as [a b] eqn:Q. pose proof (iquot_ok _ _ _ _ _ _ _ _ Q L H H') as K. apply zs_lt in L. rewrite zs_0 in L.
    split; [right; lra|]. rewrite Ratan2_pos by lra. exact (iatan_ok _ _ _ _ _ E K).
  - clear L. destruct (Z.ltb_spec 0 l) as [L|L].
    + destruct (iquot l' h' l h) as [a b] eqn:Q. pose proof (iquot_ok _ _ _ _ _ _ _ _ Q L H' H) as K. apply zs_lt in L. rewrite zs_0 in L.
      split; [left; lra|]. rewrite Ratan2_up by lra. destruct (iatan a b) as [[c d]|] eqn:A; [|discriminate E]. apply sp_inj in E as [<- <-].
      pose proof (iatan_ok _ _ _ _ _ A K). rewrite !zs_sub, zs_add. lra.
    + clear L. destruct (Z.ltb_spec h 0) as [L|L]; [|discriminate].
      destruct (iquot (- h') (- l') (- h) (- l)) as [a b] eqn:Q.
      assert (K : zs a <= (- x) / (- y) <= zs b) by (apply (iquot_ok _ _ _ _ _ _ _ _ Q); rewrite ?zs_opp; try lra; lia). apply zs_lt in L. rewrite zs_0 in L.
      split; [left; lra|]. rewrite Ratan2_dn by lra. destruct (iatan a b) as [[c d]|] eqn:A; [|discriminate E]. apply sp_inj in E as [<- <-].
      replace (x / y) with ((- x) / (- y)) by (field; lra).
      pose proof (iatan_ok _ _ _ _ _ A K). rewrite !zs_sub, zs_opp. lra.
Qed.

Section L.
Variable L : libm.
Hypothesis HL : accurate L.
Local Notation N := (B64 L).

Lemma on2_any a b f x y z : sate a x -> sate b y -> 
  (forall l h l' h' v w, zs l <= v <= zs h -> zs l' <= w <= zs h' -> val x v -> val y w -> sate (f l h l' h') z) -> sate (on2 a b Any f) z.
Proof.
  intros A B F. unfold on2. destruct (bounds a) as [[l h]|] eqn:E; [|exact I]. destruct (bounds b) as [[l' h']|] eqn:E'; [|exact I].
  destruct (bounds_ok _ _ _ _ A E) as (v & V & H). destruct (bounds_ok _ _ _ _ B E') as (w & W & H'). exact (F _ _ _ _ _ _ H H' V W).
Qed.
Lemma on2_ok a b (f : Z -> Z -> Z -> Z -> res ev) x y c : sate a x -> sate b y -> on2 a b (Err Unmodelled) f = Ok c ->
  exists l h l' h' v w, f l h l' h' = Ok c /\ zs l <= v <= zs h /\ zs l' <= w <= zs h' /\ val x v /\ val y w.
Proof.
  intros A B. unfold on2. destruct (bounds a) as [[l h]|] eqn:E; [|discriminate]. destruct (bounds b) as [[l' h']|] eqn:E'; [|discriminate].
  destruct (bounds_ok _ _ _ _ A E) as (v & V & H). destruct (bounds_ok _ _ _ _ B E') as (w & W & H'). intros F. now exists l, h, l', h', v, w.
Qed.
Lemma on1_ok a (f : Z -> Z -> res ev) x c : sate a x -> on1 a (Err Unmodelled) f = Ok c -> exists l h v, f l h = Ok c /\ zs l <= v <= zs h /\ val x v.
Proof.
  intros A. unfold on1. destruct (bounds a) as [[l h]|] eqn:E; [|discriminate]. destruct (bounds_ok _ _ _ _ A E) as (v & V & H). intros F. now exists l, h, v.
Qed.
Lemma add_ok a b x y : sate a x -> sate b y -> sate (e_add a b) (Bplus mode_NE x y).
Proof.
  intros A B. assert (G : sate (on2 a b Any (fun l h l' h' => out 1 (l + l') (h + h'))) (Bplus mode_NE x y)).
  { apply (on2_any _ _ _ _ _ _ A B). intros l h l' h' v w H H' V W. apply out_ok with (v + w); [lia|apply approx_rnd; now apply val_add|rewrite !zs_add; lra]. }
  unfold e_add. destruct (exact a) as [p|] eqn:EA; [|exact G]. destruct (exact b) as [q|] eqn:EB; [|exact G].
  now rewrite (exact_ok _ _ _ A EA), (exact_ok _ _ _ B EB).
Qed.
Lemma sub_ok a b x y : sate a x -> sate b y -> sate (e_sub a b) (Bminus mode_NE x y).
Proof.
  intros A B. assert (G : sate (on2 a b Any (fun l h l' h' => out 1 (l - h') (h - l'))) (Bminus mode_NE x y)).
  { apply (on2_any _ _ _ _ _ _ A B). intros l h l' h' v w H H' V W. apply out_ok with (v - w); [lia|apply approx_rnd; now apply val_sub|rewrite !zs_sub; lra]. }
  unfold e_sub. destruct (exact a) as [p|] eqn:EA; [|exact G]. destruct (exact b) as [q|] eqn:EB; [|exact G].
  now rewrite (exact_ok _ _ _ A EA), (exact_ok _ _ _ B EB).
Qed.
Lemma mul_ok a b x y : sate a x -> sate b y -> sate (e_mul a b) (Bmult mode_NE x y).
Proof.
  intros A B. assert (G : sate (on2 a b Any (fun l h l' h' => let '(u, v) := iprod l h l' h' in out 1 u v)) (Bmult mode_NE x y)).
  { apply (on2_any _ _ _ _ _ _ A B). intros l h l' h' v w H H' V W. destruct (iprod l h l' h') as [p q] eqn:E.
    apply out_ok with (v * w); [lia|apply approx_rnd; now apply val_mul|exact (iprod_ok _ _ _ _ _ _ _ _ E H H')]. }
  unfold e_mul. destruct (exact a) as [p|] eqn:EA; [|exact G]. destruct (exact b) as [q|] eqn:EB; [|exact G].
  now rewrite (exact_ok _ _ _ A EA), (exact_ok _ _ _ B EB).
Qed.
Lemma neg_ok a x : sate a x -> sate (e_neg a) (Bopp x).
Proof.
  destruct a as [y|q|l h|]; cbn; [now intros ->|now intros ->| |auto]. intros (v & V & H). exists (- v). split; [now apply val_neg|]. rewrite !zs_opp. lra.
Qed.
Lemma div_ok a b x y : sate a x -> sate b y -> relres sate (e_div a b) (div (n := N) x y).
Proof.
  intros A B. 
  assert (G : relres sate (on2 a b (Err Unmodelled) (fun l h l' h' =>
      if (0 <? l')%Z then let '(u, v) := iquot l h l' h' in Ok (out 1 u v)
      else if (h' <? 0)%Z then let '(u, v) := iquot (- h) (- l) (- h') (- l') in Ok (out 1 u v)
      else Err Unmodelled)) (div (n := N) x y)).
  { intros c E. destruct (on2_ok _ _ _ _ _ _ A B E) as (l & h & l' & h' & v & w & F & H & H' & V & W). clear E. cbn [div B64].
    destruct (Z.ltb_spec 0 l') as [Q|Q].
    - destruct (iquot l h l' h') as [p q] eqn:E. apply Ok_inj in F. subst c. pose proof (iquot_ok _ _ _ _ _ _ _ _ E Q H H') as K. apply zs_lt in Q. rewrite zs_0 in Q.
      rewrite (val_nz _ _ W) by lra. eexists; split; [reflexivity|]. apply out_ok with (v / w); [lia|apply approx_rnd; apply val_div; auto; lra|exact K].
    - clear Q. destruct (Z.ltb_spec h' 0) as [Q|Q]; [|discriminate]. destruct (iquot _ _ _ _) as [p q] eqn:E. apply Ok_inj in F. subst c.
      assert (K : zs p <= (- v) / (- w) <= zs q) by (apply (iquot_ok _ _ _ _ _ _ _ _ E); rewrite ?zs_opp; try lra; lia). apply zs_lt in Q. rewrite zs_0 in Q.
      rewrite (val_nz _ _ W) by lra. eexists; split; [reflexivity|]. apply out_ok with (v / w); [lia|apply approx_rnd; apply val_div; auto; lra|].
      replace (v / w) with (- v / - w) by (field; lra). exact K. }
  unfold e_div. destruct (exact a) as [p|] eqn:EA; [|exact G]. destruct (exact b) as [q|] eqn:EB; [|exact G].
  rewrite (exact_ok _ _ _ A EA), (exact_ok _ _ _ B EB). cbn [div B64]. destruct (is_zero q); [apply relres_Err|].
  intros c F. apply Ok_inj in F. subst c. eexists; split; reflexivity.
Qed.
Lemma fmod_ok a b x y : sate a x -> sate b y -> relres sate (e_fmod a b) (fmod (n := N) x y).
Proof.
  intros A B. cbn [fmod B64]. unfold e_fmod. destruct (exact b) as [q|] eqn:EB; [|destruct (exact a); apply relres_Err].
  rewrite (exact_ok _ _ _ B EB). clear EB B. destruct (exact a) as [p|] eqn:EA.
  - rewrite (exact_ok _ _ _ A EA). intros c E. destruct (py_fmod p q) as [r|]; [|discriminate]. apply Ok_inj in E. subst c. eexists; split; reflexivity.
  - intros c E. destruct (on1_ok _ _ _ _ A E) as (l & h & v & F & H & V). clear E A. cbv zeta in F.
    destruct (Beqb q (flit 360)) eqn:Q; cbn [andb] in F; [|discriminate F].
    assert (EQ : q = flit 360).
    { assert (V3 : val (flit 360) 360) by (apply (val_int 360); lia). apply val_inj with 360; [|exact V3|lra]. 
      destruct (is_finite q) eqn:FQ; [|destruct q as [s|[]| |s m e He]; try discriminate FQ; vm_compute in Q; discriminate Q].
      rewrite Beqb_correct in Q by (exact FQ || exact (proj1 V3)). rewrite (proj2 V3) in Q. split; [exact FQ|]. unfold Raux.Req_bool in Q. destruct (Rcompare_spec (B2R q) 360); congruence || discriminate. }
    rewrite EQ. clear Q EQ q. destruct (Z.eqb_spec (l / T360) (h / T360)) as [K|]; [|discriminate F].
    apply Ok_inj in F. subst c. destruct (fmod360 x v V) as (r & w & E & W & _ & _ & R). exists r. split; [exact E|].
    set (k := (l / T360)%Z) in *. assert (TP : (0 < T360)%Z) by reflexivity.
    assert (B1 : (k * T360 <= l)%Z) by (pose proof (Z.mul_div_le l T360 TP); unfold k; lia).
    assert (B2 : (h < k * T360 + T360)%Z). { rewrite K. pose proof (Z.mod_pos_bound h T360 TP). pose proof (Z.div_mod h T360 ltac:(lia)). lia. }
    assert (ET : zs T360 = 360) by (change T360 with (360 * S80)%Z; rewrite zs_scale, zs_1; ring).
    apply zs_le in B1. apply zs_lt in B2. rewrite zs_add, zs_scale, ET in B2. rewrite zs_scale, ET in B1.
    assert (EM : Rfmod v 360 = v - IZR k * 360).
    { replace v with ((v - IZR k * 360) + 360 * IZR k) at 1 by ring. rewrite Trig.Rfmod_shift by lra. apply Rfmod_id. lra. }
    apply out_ok with (v - IZR k * 360); [lia| |rewrite !zs_sub, zs_scale, ET; lra]. apply approx_rnd. intros _. rewrite <- EM, <- R. exact W.
Qed.
Lemma powi_ok a x n : sate a x -> relres sate (e_powi a n) (powi (n := N) x n).
Proof.
  intros A c E. unfold e_powi in E. destruct ((1 <=? n)%nat && (n <=? 20)%nat) eqn:G; [|discriminate]. apply andb_true_iff in G as [G1 G2].
  apply Nat.leb_le in G1, G2. destruct (on1_ok _ _ _ _ A E) as (l & h & v & F & H & V). clear E. destruct (ipow l h n) as [p q] eqn:P.
  destruct (_ <=? TOP)%Z eqn:T; [|discriminate]. apply Ok_inj in F. subst c. pose proof (ipow_ok _ _ _ _ H _ _ P) as K.
  destruct (powi_close L HL n x v ltac:(lia) V) as (r & R & C); [exact (small _ _ _ K T)|]. exists r. split; [exact R|].
  apply out_ok with (v ^ n); [lia|now apply approx_close'|exact K].
Qed.
Lemma sin_ok a x : sate a x -> relres sate (e_sin a) (nsin (n := N) x).
Proof.
  intros A c E. destruct (on1_ok _ _ _ _ A E) as (l & h & v & F & H & V). destruct (isin l h) as [p q] eqn:P. apply Ok_inj in F. subst c.
  pose proof (ac_sin L HL x v V) as C. exists (l_sin L x). split; [apply (math1_close _ _ _ _ C)|]. apply out_ok with (sin v); [lia|now apply approx_close'|exact (isin_ok _ _ _ _ _ P H)].
Qed.
Lemma cos_ok a x : sate a x -> relres sate (e_cos a) (ncos (n := N) x).
Proof.
  intros A c E. destruct (on1_ok _ _ _ _ A E) as (l & h & v & F & H & V). destruct (icos l h) as [p q] eqn:P. apply Ok_inj in F. subst c.
  pose proof (ac_cos L HL x v V) as C. exists (l_cos L x). split; [apply (math1_close _ _ _ _ C)|]. apply out_ok with (cos v); [lia|now apply approx_close'|exact (icos_ok _ _ _ _ _ P H)].
Qed.
Lemma tan_ok a x : sate a x -> relres sate (e_tan a) (ntan (n := N) x).
Proof.
  intros A c E. destruct (on1_ok _ _ _ _ A E) as (l & h & v & F & H & V). destruct (isin l h) as [p q] eqn:P. destruct (icos l h) as [p' q'] eqn:P'.
  destruct (Z.ltb_spec 0 p') as [Z|]; [|discriminate]. destruct (iquot p q p' q') as [s t] eqn:Q. destruct (_ <=? TOP)%Z eqn:T; [|discriminate]. apply Ok_inj in F. subst c.
  pose proof (iquot_ok _ _ _ _ _ _ _ _ Q Z (isin_ok _ _ _ _ _ P H) (icos_ok _ _ _ _ _ P' H)) as K. change (sin v / cos v) with (tan v) in K.
  pose proof (ac_tan L HL x v V (small _ _ _ K T)) as C. exists (l_tan L x). split; [apply (math1_close _ _ _ _ C)|]. apply out_ok with (tan v); [lia|now apply approx_close'|exact K].
Qed.
Lemma inv_ok f (g : R -> R) (lg : f64 -> f64) a x : (forall l h u v x, f l h = Some (u, v) -> zs l <= x <= zs h -> zs u <= g x <= zs v) ->
  (forall l h u v w x, f l h = Some (u, v) -> zs l <= w <= zs h -> val x w -> close (lg x) (g w)) ->
  sate a x -> relres sate (e_inv f a) (math_1 ValueError lg x).
Proof.
  intros F1 F2 A c E. destruct (on1_ok _ _ _ _ A E) as (l & h & v & F & H & V). destruct (f l h) as [[p q]|] eqn:P; [|discriminate]. apply Ok_inj in F. subst c.
  pose proof (F2 _ _ _ _ _ _ P H V) as C. exists (lg x). split; [apply (math1_close _ _ _ _ C)|]. apply out_ok with (g v); [lia|now apply approx_close'|exact (F1 _ _ _ _ _ P H)].
Qed.
Lemma asin_ok a x : sate a x -> relres sate (e_inv iasin a) (nasin (n := N) x).
Proof.
  apply (inv_ok iasin asin).
  - intros l h u v y E H. exact (proj2 (iasin_ok _ _ _ _ _ E H)).
  - intros l h u v w y E H V. apply (ac_asin L HL); [exact V|]. apply Rabs_le. exact (proj1 (iasin_ok _ _ _ _ _ E H)).
Qed.
Lemma acos_ok a x : sate a x -> relres sate (e_inv iacos a) (nacos (n := N) x).
Proof.
  apply (inv_ok iacos acos).
  - intros l h u v y E H. exact (proj2 (iacos_ok _ _ _ _ _ E H)).
  - intros l h u v w y E H V. apply (ac_acos L HL); [exact V|]. apply Rabs_le. exact (proj1 (iacos_ok _ _ _ _ _ E H)).
Qed.
Lemma atan_ok a x : sate a x -> relres sate (e_inv iatan a) (natan (n := N) x).
Proof.
  apply (inv_ok iatan atan).
  - intros l h u v y E H. exact (iatan_ok _ _ _ _ _ E H).
  - intros l h u v w y E H V. now apply (ac_atan L HL).
Qed.
Lemma atan2_ok a b y x : sate a y -> sate b x -> relres sate (e_atan2 a b) (natan2 (n := N) y x).
Proof.
  intros A B c E. destruct (on2_ok _ _ _ _ _ _ A B E) as (l & h & l' & h' & v & w & F & H & H' & V & W). clear E.
  destruct (iatan2 l h l' h') as [[p q]|] eqn:P; [|discriminate]. apply Ok_inj in F. subst c. destruct (iatan2_ok _ _ _ _ _ _ _ _ P H H') as [Z K].
  pose proof (ac_atan2 L HL y x v w V W) as C.
  assert (EA : atan2_ieee y x = Ratan2 v w).
  { destruct Z as [Z|Z]; [|now apply atan2_ieee_pos]. unfold atan2_ieee. rewrite (proj2 V), (proj2 W). destruct (Rcompare_spec v 0); try reflexivity. contradiction. }
  rewrite EA in C. exists (l_atan2 L y x). split; [apply (math2_close _ _ _ _ C)|]. apply out_ok with (Ratan2 v w); [lia|now apply approx_close'|exact K].
Qed.
Lemma lt_ok a b x y : sate a x -> sate b y -> satb (e_lt a b) (Bltb x y).
Proof.
  intros A B. assert (G : satb (on2 a b None (fun l h l' h' => if (h <? l')%Z then Some true else if (h' <=? l)%Z then Some false else None)) (Bltb x y)).
  { unfold on2. destruct (bounds a) as [[l h]|] eqn:E; [|exact I]. destruct (bounds b) as [[l' h']|] eqn:E'; [|exact I].
    destruct (bounds_ok _ _ _ _ A E) as (v & V & H). destruct (bounds_ok _ _ _ _ B E') as (w & W & H'). rewrite (val_lt _ _ _ _ V W).
    destruct (Z.ltb_spec h l') as [Q|Q]; [apply zs_lt in Q; symmetry; apply Rlt_bool_true; lra|]. clear Q.
    destruct (Z.leb_spec h' l) as [Q|Q]; [apply zs_le in Q; symmetry; apply Rlt_bool_false; lra|exact I]. }
  unfold e_lt. destruct (exact a) as [p|] eqn:EA; [|exact G]. destruct (exact b) as [q|] eqn:EB; [|exact G].
  now rewrite (exact_ok _ _ _ A EA), (exact_ok _ _ _ B EB).
Qed.
Lemma le_ok a b x y : sate a x -> sate b y -> satb (e_le a b) (Bleb x y).
Proof.
  intros A B. assert (G : satb (on2 a b None (fun l h l' h' => if (h <=? l')%Z then Some true else if (h' <? l)%Z then Some false else None)) (Bleb x y)).
  { unfold on2. destruct (bounds a) as [[l h]|] eqn:E; [|exact I]. destruct (bounds b) as [[l' h']|] eqn:E'; [|exact I].
    destruct (bounds_ok _ _ _ _ A E) as (v & V & H). destruct (bounds_ok _ _ _ _ B E') as (w & W & H'). rewrite (val_le _ _ _ _ V W).
    destruct (Z.leb_spec h l') as [Q|Q]; [apply zs_le in Q; symmetry; apply Rle_bool_true; lra|]. clear Q.
    destruct (Z.ltb_spec h' l) as [Q|Q]; [apply zs_lt in Q; symmetry; apply Rle_bool_false; lra|exact I]. }
  unfold e_le. destruct (exact a) as [p|] eqn:EA; [|exact G]. destruct (exact b) as [q|] eqn:EB; [|exact G].
  now rewrite (exact_ok _ _ _ A EA), (exact_ok _ _ _ B EB).
Qed.

Definition encl : NumRel EN N.
Proof.
  refine {| rT := (sate : T EN -> T N -> Prop); rB := (satb : B EN -> B N -> Prop); r_scalar := True; r_recip := False |}.
  - intros q. reflexivity.
  - reflexivity.
  - exact (fun a a' b b' => add_ok a b a' b').
  - exact (fun a a' b b' => sub_ok a b a' b').
  - exact (fun a a' b b' => mul_ok a b a' b').
  - exact neg_ok.
  - exact (fun a a' b b' => div_ok a b a' b').
  - intros b b' [].
  - intros a. cbn [nsin EN]. unfold e_sin, on1. destruct (bounds a) as [[l h]|]; [|discriminate]. destruct (isin l h). discriminate.
  - exact (fun a a' b b' => fmod_ok a b a' b').
  - exact powi_ok.
  - intros. apply relres_Err.
  - exact sin_ok.
  - exact cos_ok.
  - exact tan_ok.
  - exact asin_ok.
  - exact acos_ok.
  - exact atan_ok.
  - exact (fun a a' b b' => atan2_ok a b a' b').
  - intros. apply relres_Err.
  - intros a a' A. apply mul_ok; [exact A|reflexivity].
  - intros a a' A. apply mul_ok; [exact A|reflexivity].
  - reflexivity.
  - reflexivity.
  - exact (fun a a' b b' => lt_ok a b a' b').
  - exact (fun a a' b b' => le_ok a b a' b').
  - intros [b|] b' H; [|exact I]. change (b = b') in H. subst b'. destruct b; reflexivity.
  - intros [b|] b' _ H c; [intros [= <-]|discriminate]. exists b'. now split.
  - intros [[]|] c' x x' y y'; cbn; intros H X Y; try exact I; now subst c'.
  - intros a a' _ H. cbn [round_int timedelta_hours EN B64]. destruct (exact a) as [x|] eqn:EA; [|apply relres_Err]. rewrite (exact_ok _ _ _ H EA). intros c E. exists c. now split.
  - intros a a' _ H. cbn [round_int timedelta_hours EN B64]. destruct (exact a) as [x|] eqn:EA; [|apply relres_Err]. rewrite (exact_ok _ _ _ H EA). intros c E. exists c. now split.
Defined.
End L.

(* The functions of rest.py that use a real power, in binary64. *)
From Coq Require Import Reals Qreals Lra Lia List.
From Flocq Require Import Core IEEE754.BinarySingleNaN.
From Interval Require Import Tactic.
From Verif Require Import Py Num Rest RInst RTac SpecGeom SpecEng SpecRest Trig RestProofs RestMore B64 SpecB64 B64Lemmas
  B64Angles B64Ranges B64Horiz B64Fast B64FastAz B64Rad Rel Absint AbsintSound B64Lift B64Topo B64Pos B64Elev B64Rest SpecClose.
Import ListNotations.
Local Open Scope R_scope.

Lemma b52_le : bpow radix2 (-52) <= 2.3e-16. Proof. change (bpow radix2 (-52)) with (/ 4503599627370496). lra. Qed.
Lemma b53_le : bpow radix2 (-53) <= 1.2e-16. Proof. change (bpow radix2 (-53)) with (/ 9007199254740992). lra. Qed.
Lemma b74_le : bpow radix2 (-1074) <= 1e-18.
Proof. apply Rle_trans with (bpow radix2 (-60)); [apply bpow_le; lia|change (bpow radix2 (-60)) with (/ 1152921504606846976); lra]. Qed.
Lemma e64_val : B2R e64 = 6121026514868073 / 2 ^ 51.
Proof. vm_compute B2R. unfold F2R; cbn. lra. Qed.
Lemma lit15 : val (flit 1.5) 1.5.
Proof. split; [vm_compute; reflexivity|]. vm_compute B2R. unfold F2R; cbn. lra. Qed.
Lemma lit05 : val (flit 0.5) 0.5.
Proof. split; [vm_compute; reflexivity|]. vm_compute B2R. unfold F2R; cbn. lra. Qed.
Lemma pow_sample : 1.414 < 0.5 * Rpower 0.5 (- (1.5)) < 1.415 /\ 0.9 < 1 - exp (- 0.6931 - 1.8326 * sind 90) < 0.921 /\ 2 < rest2_F2 1 0.5 < 3.
Proof.
  split; [unfold Rpower; split; interval|]. split; [rewrite sind_90; split; interval|].
  unfold rest2_F2. rewrite sqrt_1. cbv [rat poly fold_right]. lra.
Qed.
Lemma big_le r : r <= 1000 -> r <= bpow radix2 1000.
Proof. intros H. apply Rle_trans with (bpow radix2 10); [change (bpow radix2 10) with 1024; lra|apply bpow_le; lia]. Qed.


Definition F_fs : lfun := fun N l => match l with
  | [a] => c <- ncos (radians (sub (lit 90) a)) ;; Ok [sub (lit (-0.6931)) (mul (lit 1.8326) c)]
  | _ => Err Unmodelled end.
Lemma F_fs_rel : lrel F_fs. Proof. lrel_tac F_fs. Qed.
Definition F_F2 : lfun := fun N l => match l with
  | [ma; m2; tau_a; _; m15] =>
    h0 <- div (add (add (lit 3.4352) (mul (lit 0.65267) ma)) (mul (lit 0.00034328) m2)) (add (lit 1) (mul (lit 0.034388) m15)) ;;
    h1 <- div (add (sub (lit 1.231) (mul (lit 1.63853) ma)) (mul (lit 0.20667) m2)) (add (lit 1) (mul (lit 0.1451) m15)) ;;
    h2 <- div (add (sub (lit 0.8889) (mul (lit 0.55063) ma)) (mul (lit 0.50152) m2)) (add (lit 1) (mul (lit 0.14865) m15)) ;;
    r <- div (add h0 (mul h1 tau_a)) (add (lit 1) (mul h2 tau_a)) ;; Ok [r]
  | _ => Err Unmodelled end.
Lemma F_F2_rel : lrel F_F2. Proof. lrel_tac F_F2. Qed.
Definition p_in : abs_val := Ab (mkab 0 (254 * SC) (254 * SC) (SC / 10 ^ 13) NoPer).
Lemma small_e : 0.99e-13 <= zr (SC / 10 ^ 13).
Proof.
  assert (H : (99 * SC <= 1000000000000000 * (SC / 10 ^ 13))%Z) by (vm_compute; discriminate). apply IZR_le in H. rewrite !mult_IZR in H.
  unfold zr. pose proof SC_pos as P. apply Rmult_le_reg_r with (IZR SC); [exact P|]. unfold Rdiv at 2. rewrite Rmult_assoc, Rinv_l, Rmult_1_r by lra. lra.
Qed.
Definition M4 := [0; 24; 48; 144; 640]%Z.
Lemma fs_ok : small F_fs 19 [seg 0 (90 * SC)] = true. Proof. vm_compute. reflexivity. Qed.
Lemma F2_ok : forallb (fun p => (0 <=? fst p)%Z && small F_F2 78966917 (on p ++ on (0, SC)%Z ++ [p_in])) (pairs (scaled M4)) = true.
Proof. vm_compute. reflexivity. Qed.

Ltac fin T F := unfold F in T; binv T; apply Ok_inj in T; injection T as <-;
  repeat match goal with
  | E : ?a = Ok _ |- context [bind ?a _] => rewrite E; cbn [bind]
  | E : ?a = Ok ?v |- ?a = Ok ?v => exact E
  | |- Ok ?v = Ok ?v => reflexivity
  end.

Section L.
Variable L : libm.
Hypothesis HL : accurate L.
Notation N := (B64 L).

(* the power itself, at most b *)
Lemma pow64 x y v w b : val x v -> val y w -> 0 < v -> Rpower v w <= b -> b <= 1000 ->
  exists q p, powf (n := N) x y = Ok q /\ val q p /\ Rabs (p - Rpower v w) <= b * 2.3e-16 + 1e-18.
Proof.
  intros V W P B1 B2. pose proof (exp_pos (w * ln v)) as PP. change (exp (w * ln v)) with (Rpower v w) in PP. destruct (Req_dec w 0) as [E|E].
  - exists one, 1. split; [|split; [apply (val_int 1); clear; lia|]].
    + cbn [powf B64]. unfold py_pow. assert (Z : is_zero y = true) by now apply (zero_val y w W). now rewrite Z.
    + rewrite E. unfold Rpower. rewrite Rmult_0_l, exp_0, Rminus_diag_eq, Rabs_R0 by reflexivity. lra.
  - destruct (powf_close L HL x y v w V W P E) as (q & Q & (p & VP & D)); [apply big_le; lra|]. exists q, p. split; [exact Q|]. split; [exact VP|].
    pose proof b52_le as B52. pose proof b74_le as B74. pose proof (bpow_gt_0 radix2 (-52)). rewrite (Rabs_pos_eq (Rpower v w)) in D by lra. apply Rle_trans with (1 := D). nra.
Qed.

(* Angstrom's law *)
Lemma depth64 x b y w z a : val x b -> 0 <= b <= 1 -> val y w -> 0.2 <= w <= 2 -> val z a -> 0 <= a <= 2.5 ->
  within 2e-14 (get_aerosol_optical_depth (N := N) x y z) (b * Rpower w (- a)).
Proof.
  intros V H V' H' V2 H2. unfold get_aerosol_optical_depth.
  assert (RB : Rpower w (- a) <= 56) by (unfold Rpower; interval with (i_prec 60)). 
  destruct (pow64 y (neg (n := N) z) w (- a) 56 V' (val_neg _ _ V2) ltac:(lra) RB ltac:(lra)) as (q & p & Q & VP & D). rewrite Q. cbn [bind].
  pose proof (exp_pos (- a * ln w)) as PP. change (exp (- a * ln w)) with (Rpower w (- a)) in PP. set (r := Rpower w (- a)) in *. clearbody r.
  apply Rabs_le_inv in D. assert (AB : Rabs (b * p) <= 57) by (apply Rabs_le; split; nra).
  exists (mul (n := N) x q), (rnd (b * p)). split; [reflexivity|]. split; [apply (val_mul x q b p V VP); apply big_le; lra|].
  pose proof (rnd_rel (b * p)) as RR. pose proof b53_le. pose proof b74_le. pose proof (bpow_gt_0 radix2 (-53)).
  assert (R1 : Rabs (rnd (b * p) - b * p) <= 7e-15) by nra. apply Rabs_le_inv in R1.
  assert (R2 : -1.29e-14 <= b * p - b * r <= 1.29e-14) by (split; nra). apply Rabs_le. lra.
Qed.

Lemma fs64 x a : val x a -> 0 <= a <= 90 -> within 2e-15 (get_aerosol_forward_scatterance_factor (N := N) x) (1 - exp (- 0.6931 - 1.8326 * sind a)).
Proof.
  intros V H. destruct (run_small L HL F_fs [x] [Fin a] _ 19 F_fs_rel fs_ok) as (t & v & v' & T1 & VT & T2 & D).
  { constructor; [|constructor]. apply (seg_sat 0 (90 * SC) x a V). rewrite zr_0, zr_int. lra. }
  assert (E : v' = - 0.6931 - 1.8326 * sind a).
  { unfold F_fs in T2. revert T2. rx. rewrite cos_compl. intros T2. apply Ok_inj, (f_equal (hd (Fin 0))) in T2. cbn [hd] in T2. apply Fin_inj in T2. rewrite <- T2. lra. }
  pose proof (sind_nonneg a ltac:(lra)) as S1. pose proof (sind_bound a) as S2. rewrite <- E. clear T2.
  assert (B : -2.5258 <= v' <= -0.693) by (rewrite E; lra). clear E S1 S2. apply Rabs_le_inv in D.
  assert (VE : val e64 (6121026514868073 / 2 ^ 51)) by (split; [reflexivity|exact e64_val]).
  set (e := 6121026514868073 / 2 ^ 51) in *.
  assert (EL : Rabs (ln e - 1) <= 1e-16). { unfold e. interval with (i_prec 100). }
  assert (EP : 0 < e) by (unfold e; lra).
  apply Rabs_le_inv in EL. assert (EX : Rabs (v * ln e - v') <= 2.2e-15) by (apply Rabs_le; split; nra).
  assert (PE : Rpower e v = exp v' * exp (v * ln e - v')) by (unfold Rpower; rewrite <- exp_plus; f_equal; ring).
  pose proof (exp_small _ ltac:(apply Rle_trans with (1 := EX); lra)) as ES.
  assert (XV : 0 < exp v' <= 0.5001) by (split; [apply exp_pos|interval]).
  assert (PD : Rabs (Rpower e v - exp v') <= 1.13e-15).
  { rewrite PE. replace (exp v' * exp (v * ln e - v') - exp v') with (exp v' * (exp (v * ln e - v') - 1)) by ring. rewrite Rabs_mult, (Rabs_pos_eq (exp v')) by lra.
    pose proof (Rabs_pos (exp (v * ln e - v') - 1)). nra. }
  apply Rabs_le_inv in PD.
  destruct (pow64 e64 t e v 0.51 VE VT EP ltac:(lra) ltac:(lra)) as (q & p & Q & VP & DP). apply Rabs_le_inv in DP.
  assert (E1 : get_aerosol_forward_scatterance_factor (N := N) x = Ok (sub (n := N) (lit (n := N) 1) q)).
  { unfold F_fs in T1. apply bind_eq_Ok in T1 as (c & C & T1). apply Ok_inj, (f_equal (hd t)) in T1. cbn [hd] in T1.
    unfold get_aerosol_forward_scatterance_factor. cbv zeta. rewrite C. cbn [bind]. rewrite T1. change (ne (n := N)) with e64. rewrite Q. reflexivity. }
  rewrite E1. exists (sub (n := N) (lit (n := N) 1) q), (rnd (1 - p)). split; [reflexivity|].
  assert (AB : Rabs (1 - p) <= 1.01) by (apply Rabs_le; lra).
  split; [apply (val_sub (flit 1) q 1 p); [apply (val_int 1); clear; lia|exact VP|apply big_le; lra]|].
  pose proof (rnd_rel (1 - p)) as RR. pose proof b53_le. pose proof b74_le. pose proof (bpow_gt_0 radix2 (-53)).
  assert (R1 : Rabs (rnd (1 - p) - (1 - p)) <= 1.3e-16) by (pose proof (Rabs_pos (1 - p)); nra). apply Rabs_le_inv in R1. apply Rabs_le. lra.
Qed.

Lemma F2_64 x m y t : val x m -> 0 < m <= 40 -> val y t -> 0 <= t <= 1 -> within 7.9e-9 (get_aerosol_scattering_correction_factor (N := N) low x y) (rest2_F2 m t).
Proof.
  intros V H V' H'.
  destruct (sq64 L HL x m V ltac:(lra)) as (q2 & Q2). destruct (sq64 L HL y t V' ltac:(lra)) as (r2 & R2).
  destruct (cover16 m 640 M4 eq_refl eq_refl ltac:(cbn; lia) ltac:(lra)) as (p & I & J).
  pose proof F2_ok as C. rewrite forallb_forall in C. specialize (C p I). apply andb_true_iff in C as (P & C).
  pose proof lit15 as V15.
  assert (PW : Rpower m 1.5 = m * sqrt m) by (replace 1.5 with (1 + / 2) by lra; rewrite Rpower_plus, Rpower_1, Rpower_sqrt by lra; reflexivity).
  assert (PB : 0 <= m * sqrt m <= 253) by (split; [apply Rmult_le_pos; [lra|apply sqrt_pos]|interval]).
  destruct (pow64 x (flit 1.5) m 1.5 253 V V15 ltac:(lra) ltac:(lra) ltac:(lra)) as (u & w & U & VU & DU). rewrite PW in DU.
  destruct (run_small L HL F_F2 ([x; q2] ++ [y; r2] ++ [u]) ([Fin m; Fin (m ^ 2)] ++ [Fin t; Fin (t ^ 2)] ++ [Fin (m * sqrt m)]) _ _ F_F2_rel C) as (q & v & v' & T1 & VV & T2 & D).
  { apply all3_app; [exact (on_sat L HL p x m q2 P V J Q2)|]. apply all3_app; [apply (on_sat L HL (0, SC)%Z y t r2 eq_refl V'); [cbn [fst snd]; rewrite zr_0; replace SC with (1 * SC)%Z by reflexivity; rewrite zr_int; lra|exact R2]|].
    constructor; [|constructor]. exists w, (m * sqrt m), 0%Z. cbn [p_in a_lo a_hi a_mag a_err a_per turn]. split; [exact VU|]. split; [reflexivity|]. 
    rewrite zr_0, zr_int. split; [lra|]. apply Rabs_le_inv in DU. split; [apply Rabs_le; lra|]. replace (w - m * sqrt m - 0 * 0) with (w - m * sqrt m) by ring.
    pose proof small_e as Z. apply Rabs_le. lra. }
  exists q, v. split; [|split; [exact VV|]].
  - unfold get_aerosol_scattering_correction_factor. change (is_high low) with false. cbv iota. change (lit (n := N) 1.5) with (flit 1.5). cbn [app] in T1. fin T1 F_F2.
  - assert (E : v' = rest2_F2 m t); [|rewrite <- E; lra]. apply Fin_inj, (Ok_inj (Fin v') (Fin _)). rewrite <- F2_val by lra. symmetry.
    unfold get_aerosol_scattering_correction_factor. change (is_high low) with false. cbv iota. rewrite powi_R, bind_Ok, (lit_R 1.5), pow15, bind_Ok by lra. cbn [app] in T2. fin T2 F_F2.
Qed.
Lemma rest_pow64 :
  (forall x b y w z a, val x b -> 0 <= b <= 1 -> val y w -> 0.2 <= w <= 2 -> val z a -> 0 <= a <= 2.5 ->
    within 2e-14 (get_aerosol_optical_depth (N := N) x y z) (b * Rpower w (- a))) /\
  (forall x a, val x a -> 0 <= a <= 90 ->
    within 2e-15 (get_aerosol_forward_scatterance_factor (N := N) x) (1 - exp (- 0.6931 - 1.8326 * sind a))) /\
  (forall x m y t, val x m -> 0 < m <= 40 -> val y t -> 0 <= t <= 1 ->
    within 7.9e-9 (get_aerosol_scattering_correction_factor (N := N) low x y) (rest2_F2 m t)).
Proof. split; [|split]; intros; [now apply depth64|now apply fs64|now apply F2_64]. Qed.
End L.

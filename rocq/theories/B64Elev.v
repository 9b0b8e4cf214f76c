(* The pressure and temperature formulas of elevation.py in binary64 against exact arithmetic. *)
From Coq Require Import Reals Qreals Lra Lia List ZifyBool.
From Flocq Require Import Core IEEE754.BinarySingleNaN.
From Interval Require Import Tactic.
From Verif Require Import Py Num Constants Elevation RInst RTac IrradianceProofs
  B64 SpecB64 B64Lemmas B64Angles B64Ranges Rel Absint AbsintSound B64Lift B64Topo B64Pos B64Horiz B64Fast B64FastAz B64Rad.
Import ListNotations.
Local Open Scope R_scope.

Lemma list3_inv {A} (a b c a' b' c' : A) : [a; b; c] = [a'; b'; c'] -> a = a' /\ b = b' /\ c = c'. Proof. intros [= -> -> ->]. auto. Qed.

Definition F_pq : lfun := fun N l => match l with
  | [h] => q <- div (lit 288.15) (add (lit 288.15) (mul (lit (-0.0065)) (sub h (lit 0.0)))) ;;
      ex <- div (mul (lit 9.80665) (lit 0.0289644)) (mul (lit 8.31432) (lit (-0.0065))) ;;
      Ok [q; ex; add (lit 288.15) (mul h (lit (-0.0065)))]
  | _ => Err Unmodelled
  end.
Lemma F_pq_rel : lrel F_pq. Proof. lrel_tac F_pq. Qed.
Definition I_pq : list abs_val := [exact_in (20000 * SC)].
Definition O_pq : list abs_val := Eval vm_compute in outputs (F_pq AI I_pq).
Lemma pq_ok : F_pq AI I_pq = Ok O_pq. Proof. vm_compute. reflexivity. Qed.
Lemma pq_fits : match O_pq with
  | [a; b; c] => fits a NoPer 0 2 19 10000000000000000 && fits b NoPer (-6) 6 42 10000000000000000 && fits c NoPer 158 419 11 100000000000000
  | _ => false end = true.
Proof. vm_compute. reflexivity. Qed.

Lemma exp_small d : Rabs d <= 0.01 -> Rabs (exp d - 1) <= 1.02 * Rabs d.
Proof.
  intros H. pose proof (exp_ineq1_le d) as E1. pose proof (exp_ineq1_le (- d)) as E2. rewrite exp_Ropp in E2. pose proof (exp_pos d) as P.
  apply Rabs_le_inv in H. assert (U : exp d * (1 - d) <= 1).
  { apply Rmult_le_reg_r with (/ exp d); [now apply Rinv_0_lt_compat|]. replace (exp d * (1 - d) * / exp d) with (1 - d) by (field; lra). lra. }
  assert (X : exp d <= 1.0102) by (apply Rmult_le_reg_r with (1 - d); [lra|nra]).
  unfold Rabs at 2. destruct (Rcase_abs d); apply Rabs_le; split; nra.
Qed.
Lemma ln_le_sub x : 0 < x -> ln x <= x - 1.
Proof. intros P. pose proof (exp_ineq1_le (ln x)) as E. rewrite exp_ln in E by exact P. lra. Qed.
Lemma ln_diff a b e : 0.6 <= b -> Rabs (a - b) <= e -> e <= 0.001 -> Rabs (ln a - ln b) <= e / 0.59.
Proof.
  intros B E K. apply Rabs_le_inv in E. assert (PA : 0 < a) by lra. assert (PB : 0 < b) by lra.
  assert (M : ln a - ln b = ln (a / b)) by (unfold Rdiv; rewrite ln_mult, ln_Rinv; [ring|lra|lra|now apply Rinv_0_lt_compat]).
  assert (M' : ln b - ln a = ln (b / a)) by (unfold Rdiv; rewrite ln_mult, ln_Rinv; [ring|lra|lra|now apply Rinv_0_lt_compat]).
  pose proof (ln_le_sub (a / b) ltac:(now apply Rdiv_lt_0_compat)) as U1. pose proof (ln_le_sub (b / a) ltac:(now apply Rdiv_lt_0_compat)) as U2.
  assert (Q : forall x y, 0.59 <= y -> x - y <= e -> x / y - 1 <= e / 0.59).
  { intros x y Y XY. apply Rmult_le_reg_r with y; [lra|]. replace ((x / y - 1) * y) with (x - y) by (field; lra).
    apply Rle_trans with (e / 0.59 * 0.59); [lra|]. apply Rmult_le_compat_l; [lra|exact Y]. }
  pose proof (Q a b ltac:(lra) ltac:(lra)). pose proof (Q b a ltac:(lra) ltac:(lra)). apply Rabs_le. lra.
Qed.

Lemma ten_le : 10 <= bpow radix2 1000.
Proof. apply Rle_trans with (bpow radix2 4); [change (bpow radix2 4) with 16; lra|now apply bpow_le]. Qed.

Section L.
Context (L : libm) (HL : accurate L).
Local Notation N := (B64 L).

Lemma powf_close x y v w : val x v -> val y w -> 0 < v -> w <> 0 -> Rpower v w <= bpow radix2 1000 ->
  exists q, powf (n := N) x y = Ok q /\ close q (Rpower v w).
Proof.
  intros V W P NW Hb. cbn [powf B64]. destruct (val_fin _ _ V) as [X1 X2]. destruct (val_fin _ _ W) as [Y1 Y2]. unfold py_pow.
  pose proof (zero_val y w W) as ZY. pose proof (zero_val x v V) as ZX.
  destruct (is_zero y). { exfalso. apply NW. now apply ZY. }
  destruct (is_zero x). { exfalso. assert (v = 0) by now apply ZX. lra. }
  rewrite X1, Y1, Y2, X2. rewrite (f_neg_val _ _ V). destruct (Rlt_bool_spec v 0) as [S|S]; [lra|]. cbn [andb]. cbv zeta.
  assert (VA : val (Fabs x) v). { destruct V as [F <-]. split; [unfold Fabs; now rewrite is_finite_Babs|]. unfold Fabs. rewrite B2R_Babs. apply Rabs_pos_eq. lra. }
  assert (C : close (if Beqb (Fabs x) one then one else l_pow L (Fabs x) y) (Rpower v w)).
  { assert (V1 : val one 1) by (apply (val_int 1); clear; lia).
    assert (E : Beqb (Fabs x) one = Req_bool v 1).
    { destruct VA as [F <-]. destruct V1 as [F1 E1]. rewrite Beqb_correct by assumption. rewrite E1. unfold Raux.Req_bool, Req_bool.
      destruct (Rcompare_spec (B2R (Fabs x)) 1), (Req_EM_T (B2R (Fabs x)) 1); try reflexivity; lra. }
    rewrite E. unfold Req_bool. destruct (Req_EM_T v 1) as [E1|E1]; [|now apply (ac_pow L HL)].
    rewrite E1. unfold Rpower. rewrite ln_1, Rmult_0_r, exp_0. exists 1. split; [exact V1|]. rewrite Rminus_diag_eq by reflexivity. rewrite Rabs_R0, Rabs_R1.
    pose proof (bpow_gt_0 radix2 (-1074)). pose proof (bpow_gt_0 radix2 (-52)). lra. }
  match goal with |- context [is_inf ?z] => change (close z (Rpower v w)) in C; destruct (close_fin z _ C) as [_ E]; rewrite E end.
  eexists. split; [reflexivity|exact C].
Qed.

Lemma elevation64 (x : T N) h : val x h -> -20000 <= h <= 20000 ->
  exists q p p' w, get_pressure_with_elevation_w (N := N) x standard_pressure standard_temperature
      earth_temperature_lapse_rate (lit 0.0) air_gas_constant earth_gravity earth_atmosphere_molar_mass = Ok (q, w) /\ (w = true <-> 11000 < h) /\
    val q p /\ pressure_default (N := MathR) (Fin h) = Ok (Fin p') /\ 0 < p' /\ Rabs (p - p') <= 2.1e-14 * p' /\
    exists t, val (temperature_default (N := N) x) t /\ Rabs (t - (288.15 - 0.0065 * h)) <= 1.1e-13.
Proof.
  intros V H. assert (HB : Rabs h <= 20000) by (apply Rabs_le; lra).
  destruct (transport L HL F_pq F_pq_rel I_pq [x] [Fin h] _ ltac:(repeat constructor; now apply exact_sat) pq_ok) as (l1 & l2 & T1 & T2 & A).
  pose proof pq_fits as FI. unfold O_pq in A, FI. inv3 A. rewrite !andb_true_iff in FI. destruct FI as ((F1 & F2) & F3).
  destruct (fits_nop _ _ _ _ _ _ _ F1 eq_refl S) as (q & q' & VQ & WQ & BQ & _ & EQ).
  destruct (fits_nop _ _ _ _ _ _ _ F2 eq_refl S0) as (e & e' & VE & WE & BE & _ & EE).
  destruct (fits_nop _ _ _ _ _ _ _ F3 eq_refl S1) as (t & t' & VT & WT & BT & _ & ET).
  pose proof (pressure_default_val h ltac:(lra)) as PD.
  clear F1 F2 F3 S S0 S1.
  assert (MV : q' = 288.15 / (288.15 + -0.0065 * h) /\ e' = 9.80665 * 0.0289644 / (8.31432 * -0.0065) /\ t' = 288.15 - 0.0065 * h).
  { revert T2. unfold F_pq. assert (Z0 : Q2R 0.0 = 0) by (unfold Q2R; simpl; lra).
    cbn [lit MathR]. rewrite Z0. clear Z0.
    assert (D1 : 288.15 + -0.0065 * (h - 0) <> 0) by lra. assert (D2 : 8.31432 * -0.0065 <> 0) by lra.
    rx. intros T2. apply Ok_inj, list3_inv in T2. rewrite WQ, WE, WT in T2. destruct T2 as (A & B & C). apply Fin_inj in A, B, C.
    rewrite <- A, <- B, <- C. rewrite Rminus_0_r. split; [reflexivity|]. split; [reflexivity|]. lra. }
  destruct MV as (MQ & ME & MT).
  assert (EX : -5.26 <= e' <= -5.25) by (rewrite ME; split; interval).
  assert (QR : 0.68 <= q' <= 1.83) by (rewrite MQ; split; interval).
  assert (SA : standard_atmosphere h = 101325 * Rpower q' e').
  { unfold standard_atmosphere. f_equal. rewrite MQ, ME.
    replace (9.80665 * 0.0289644 / (8.31432 * -0.0065)) with (- (9.80665 * 0.0289644 / (8.31432 * 0.0065))) by lra.
    rewrite <- Rpower_inv by (apply Rdiv_lt_0_compat; lra). f_equal. replace (288.15 + -0.0065 * h) with (288.15 - 0.0065 * h) by lra. field. lra. }
  set (P0 := Rpower q' e') in *. assert (P0r : 0.04 <= P0 <= 8) by (unfold P0, Rpower; split; interval).
  apply Rabs_le_inv in EQ, EE.
  assert (LQ : -0.4 <= ln q' <= 0.61) by (split; interval).
  assert (X : Rabs (e * ln q - e' * ln q') <= 1.97e-14).
  { pose proof (ln_diff q q' (19 / 10000000000000000) ltac:(lra) ltac:(apply Rabs_le; lra) ltac:(lra)) as LD. apply Rabs_le_inv in LD.
    replace (e * ln q - e' * ln q') with (e * (ln q - ln q') + (e - e') * ln q') by ring. apply Rabs_le. split; nra. }
  assert (PW : Rabs (Rpower q e - P0) <= 2.01e-14 * P0).
  { replace (Rpower q e - P0) with (P0 * (exp (e * ln q - e' * ln q') - 1)).
    2:{ unfold P0, Rpower. rewrite Rmult_minus_distr_l, <- exp_plus, Rmult_1_r. do 2 f_equal. ring. }
    rewrite Rabs_mult, (Rabs_pos_eq P0) by lra. rewrite (Rmult_comm _ P0). apply Rmult_le_compat_l; [lra|].
    eapply Rle_trans; [apply exp_small; lra|]. lra. }
  assert (PB : Rpower q e <= 10) by (apply Rabs_le_inv in PW; lra).
  destruct (powf_close x0 x1 q e VQ VE ltac:(lra) ltac:(lra)) as (f & RF & CF).
  { exact (Rle_trans _ _ _ PB ten_le). }
  destruct CF as (v & VF & EF). change (bpow radix2 (-52)) with (/ 4503599627370496) in EF. pose proof eps_small as EP.
  assert (PP : 0 < Rpower q e) by apply exp_pos. rewrite (Rabs_pos_eq (Rpower q e)) in EF by lra. apply Rabs_le_inv in PW.
  assert (EF' : Rabs (v - P0) <= 2.05e-14 * P0).
  { replace (v - P0) with ((v - Rpower q e) + (Rpower q e - P0)) by ring. eapply Rle_trans; [apply Rabs_triang|].
    assert (Rabs (Rpower q e - P0) <= 2.01e-14 * P0) by (apply Rabs_le; lra). lra. }
  assert (RL : rl (Bmult mode_NE (flit 101325.00) f) (101325 * P0) 2.1e-14).
  { apply (rl_mul _ _ _ _ 0 2.05e-14); [apply rl_exact; apply (val_int 101325); lia| |apply normal_of; rewrite Rabs_pos_eq; lra|lra|lra|lra].
    exists v. split; [exact VF|]. rewrite (Rabs_pos_eq P0) by lra. exact EF'. }
  destruct RL as (p & VP & EPp). rewrite (Rabs_pos_eq (101325 * P0)) in EPp by lra.
  exists (Bmult mode_NE (flit 101325.00) f), p, (standard_atmosphere h), (Bltb (flit 11000.0) x).
  assert (PF : get_pressure_with_elevation_w (N := N) x standard_pressure standard_temperature
      earth_temperature_lapse_rate (lit 0.0) air_gas_constant earth_gravity earth_atmosphere_molar_mass = Ok (Bmult mode_NE (flit 101325.00) f, Bltb (flit 11000.0) x)).
  { unfold get_pressure_with_elevation_w. cbn [truth lt B64]. cbn [bind]. revert T1. unfold F_pq, standard_temperature, earth_temperature_lapse_rate, earth_gravity, earth_atmosphere_molar_mass, air_gas_constant.
    match goal with |- context [bind ?d _] => destruct d as [a|]; [|discriminate] end. cbn [bind].
    match goal with |- context [bind ?d _] => destruct d as [b|]; [|discriminate] end. cbn [bind].
    intros T1. apply Ok_inj, list3_inv in T1. destruct T1 as (-> & -> & _). rewrite RF. reflexivity. }
  split; [exact PF|]. split.
  { assert (V11 : val (flit 11000.0) 11000) by (apply (val_int 11000); lia). rewrite (val_lt _ _ _ _ V11 V). destruct (Rlt_bool_spec 11000 h); split; intros; try reflexivity; try discriminate; lra. }
  split; [exact VP|]. split. { unfold pressure_default, get_pressure_with_elevation. rewrite PD. reflexivity. }
  rewrite SA. split; [lra|]. split; [exact EPp|].
  exists t. split.
  - revert T1. unfold F_pq. match goal with |- context [bind ?d _] => destruct d as [a|]; [|discriminate] end. cbn [bind].
    match goal with |- context [bind ?d _] => destruct d as [b|]; [|discriminate] end. cbn [bind].
    intros T1. apply Ok_inj, list3_inv in T1. destruct T1 as (_ & _ & T1). rewrite <- T1 in VT. exact VT.
  - rewrite MT in ET. lra.
Qed.
End L.

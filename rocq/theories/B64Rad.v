(* get_radiation_direct in binary64 against exact arithmetic; how much it changes with the altitude. *)
From Coq Require Import Reals Qreals Lra Lia List.
From Flocq Require Import Core Relative IEEE754.BinarySingleNaN.
From Coquelicot Require Import Coquelicot.
From Interval Require Import Tactic.
From Verif Require Import Py Num Cal TzCheck Clock Constants Radiation RInst RTac SpecTime SpecDt SpecGeom SpecEng Trig CalProofs GenProofs FastProofs RadiationProofs
  B64 SpecB64 B64Lemmas B64Witness B64Ranges Rel Absint AbsintSound B64Lift B64Topo B64Pos B64Horiz B64Refr AngleLip SpaProofs B64Fast B64FastAz.
Import ListNotations.
Local Open Scope R_scope.

(* ---------------------------------------------------------------- exponentials *)
Lemma exp_ge1 z : 1 + z <= exp z.
Proof. destruct (Req_dec z 0) as [->|H]; [rewrite exp_0; lra|]. left. now apply exp_ineq1. Qed.
Lemma xexp y : y * exp (- y) <= 0.368.
Proof.
  pose proof (exp_ge1 (y - 1)) as H. replace (1 + (y - 1)) with y in H by ring.
  apply Rle_trans with (exp (y - 1) * exp (- y)); [apply Rmult_le_compat_r; [left; apply exp_pos|exact H]|].
  rewrite <- exp_plus. replace (y - 1 + - y) with (-1) by ring. interval.
Qed.
Lemma exp_gap p q y : y <= p -> y <= q -> Rabs (exp (- p) - exp (- q)) <= Rabs (p - q) * exp (- y).
Proof.
  assert (W : forall p q, y <= p -> p <= q -> Rabs (exp (- p) - exp (- q)) <= Rabs (p - q) * exp (- y)).
  { clear. intros p q H1 H2. assert (E : exp (- q) = exp (- p) * exp (- (q - p))) by (rewrite <- exp_plus; f_equal; ring).
    pose proof (exp_ge1 (- (q - p))). pose proof (exp_pos (- p)). assert (exp (- (q - p)) <= 1) by (apply exp_neg_small; lra).
    rewrite E. replace (exp (- p) - exp (- p) * exp (- (q - p))) with (exp (- p) * (1 - exp (- (q - p)))) by ring.
    rewrite Rabs_pos_eq by (apply Rmult_le_pos; lra). rewrite Rabs_minus_sym, (Rabs_pos_eq (q - p)) by lra. rewrite Rmult_comm.
    apply Rmult_le_compat; try lra. destruct H1 as [H1| <-]; [left; apply exp_increasing; lra|lra]. }
  intros H1 H2. destruct (Rle_lt_dec p q) as [L|L]; [now apply W|]. rewrite Rabs_minus_sym, (Rabs_minus_sym p). apply W; lra.
Qed.
(* a relative error of d in the exponent *)
Lemma exp_rel X Y d : 0 <= X -> Rabs (Y - X) <= d * X -> 0 <= d <= 0.01 -> Rabs (exp (- Y) - exp (- X)) <= 0.38 * d.
Proof.
  intros HX H D. set (y := X * (1 - d)). assert (y <= X) by (unfold y; nra). assert (y <= Y) by (apply Rabs_le_inv in H; unfold y; nra).
  eapply Rle_trans; [apply (exp_gap Y X y); assumption|]. pose proof (xexp y) as K. pose proof (exp_pos (- y)).
  apply Rle_trans with (d * X * exp (- y)); [apply Rmult_le_compat_r; lra|].
  assert (X <= 1.02 * y) by (unfold y; nra). apply Rle_trans with (d * (1.02 * y) * exp (- y)).
  - apply Rmult_le_compat_r; [lra|]. apply Rmult_le_compat_l; lra.
  - replace (d * (1.02 * y) * exp (- y)) with (1.02 * d * (y * exp (- y))) by lra. nra.
Qed.

(* ---------------------------------------------------------------- change with the altitude *)
Lemma x2exp X : 0 <= X -> X * X * exp (- X) <= 0.5417.
Proof.
  intros H. pose proof (xexp (X / 2)) as K. assert (E : exp (- X) = exp (- (X / 2)) * exp (- (X / 2))) by (rewrite <- exp_plus; f_equal; field).
  rewrite E. replace (X * X * (exp (- (X / 2)) * exp (- (X / 2)))) with (4 * (X / 2 * exp (- (X / 2))) * (X / 2 * exp (- (X / 2)))) by field.
  assert (0 <= X / 2 * exp (- (X / 2))) by (apply Rmult_le_pos; [lra|left; apply exp_pos]). nra.
Qed.
Lemma attenuation_lip t p q : 0 < t -> 0 < p -> 0 < q -> Rabs (exp (- (t / p)) - exp (- (t / q))) <= 0.5417 / t * Rabs (p - q).
Proof.
  intros T. assert (W : forall p q, 0 < p -> p < q -> Rabs (exp (- (t / p)) - exp (- (t / q))) <= 0.5417 / t * Rabs (p - q)).
  { clear p q. intros p q P Q. destruct (MVT_cor2 (fun s => exp (- (t / s))) (fun s => t / (s * s) * exp (- (t / s))) p q Q) as (c & E & C).
    - intros c C. apply is_derive_Reals. auto_derive; [lra|unfold Rdiv; field; lra].
    - rewrite Rabs_minus_sym, (Rabs_minus_sym p q). rewrite E. rewrite Rabs_mult. apply Rmult_le_compat_r; [apply Rabs_pos|].
      assert (X0 : 0 <= t / c) by (apply Rle_mult_inv_pos; lra). pose proof (x2exp (t / c) X0) as K. pose proof (exp_pos (- (t / c))).
      rewrite Rabs_pos_eq by (apply Rmult_le_pos; [apply Rle_mult_inv_pos; nra|lra]).
      replace (t / (c * c) * exp (- (t / c))) with (t / c * (t / c) * exp (- (t / c)) / t) by (field; lra).
      apply Rmult_le_compat_r; [left; now apply Rinv_0_lt_compat|exact K]. }
  intros P Q. destruct (Rtotal_order p q) as [H|[->|H]]; [now apply W| |rewrite Rabs_minus_sym, (Rabs_minus_sym p); now apply W].
  rewrite !Rminus_diag_eq, Rabs_R0 by reflexivity. lra.
Qed.
Lemma beam_lip n a b : 0 < a <= 90 -> 0 < b <= 90 -> Rabs (masters_beam n a - masters_beam n b) <= 84.1 * Rabs (a - b).
Proof.
  intros A B. unfold masters_beam. pose proof (flux_range n) as F. pose proof (depth_range n) as D.
  assert (0 < sind a) by (apply sind_pos; lra). assert (0 < sind b) by (apply sind_pos; lra).
  rewrite <- Rmult_minus_distr_l, Rabs_mult, Rabs_pos_eq by lra.
  pose proof (attenuation_lip (masters_depth n) (sind a) (sind b) ltac:(lra) ltac:(lra) ltac:(lra)) as K.
  assert (S : Rabs (sind a - sind b) <= Rabs (a - b) * (PI / 180)).
  { rewrite !sind_rad. eapply Rle_trans; [apply sin_lip|]. unfold rad. rewrite <- Rmult_minus_distr_r, Rabs_mult, (Rabs_pos_eq (PI / 180)) by interval. lra. }
  assert (T : 0.5417 / masters_depth n <= 3.898) by (apply Rle_div_l; nra).
  assert (P : PI / 180 <= 0.0174533) by interval. pose proof (Rabs_pos (a - b)). pose proof (Rabs_pos (sind a - sind b)).
  assert (S2 : Rabs (sind a - sind b) <= 0.0174533 * Rabs (a - b)) by nra.
  assert (K2 : Rabs (exp (- (masters_depth n / sind a)) - exp (- (masters_depth n / sind b))) <= 3.898 * (0.0174533 * Rabs (a - b))).
  { apply Rle_trans with (1 := K). apply Rmult_le_compat; try assumption. apply Rle_mult_inv_pos; lra. }
  apply Rle_trans with (1235 * (3.898 * (0.0174533 * Rabs (a - b)))); [|lra]. apply Rmult_le_compat; try lra. apply Rabs_pos.
Qed.
Lemma radiation_lip dt u a b : instant dt u -> in_range u = true -> 0 < a <= 90 -> 0 < b <= 90 -> exists ra rb,
  get_radiation_direct (N := MathR) (C := clock_math MathR) dt (Fin a) = Ok (Fin ra) /\
  get_radiation_direct (N := MathR) (C := clock_math MathR) dt (Fin b) = Ok (Fin rb) /\ Rabs (ra - rb) <= 84.1 * Rabs (a - b).
Proof.
  intros Hi Hr A B. destruct (civil_clock_exists u) as (day & h & m & Hc). exists (masters_beam (IZR day) a), (masters_beam (IZR day) b).
  split; [now apply (day_val dt u day h m)|]. split; [now apply (day_val dt u day h m)|now apply beam_lip].
Qed.

(* ---------------------------------------------------------------- relative errors *)
Definition rl (x : f64) (r d : R) : Prop := exists v, val x v /\ Rabs (v - r) <= d * Rabs r.
Definition normal (r : R) : Prop := bpow radix2 (-960) <= Rabs r <= bpow radix2 960.
Lemma rl_exact x r : val x r -> rl x r 0.
Proof. intros V. exists r. split; [exact V|]. rewrite Rminus_diag_eq, Rabs_R0 by reflexivity. lra. Qed.
Lemma rl_weak x r d e : d <= e -> rl x r d -> rl x r e.
Proof. intros H (v & V & E). exists v. split; [exact V|]. pose proof (Rabs_pos r). nra. Qed.
Lemma rnd_n w : bpow radix2 (-1022) <= Rabs w -> Rabs (rnd w - w) <= 1.1103e-16 * Rabs w.
Proof.
  intros H. pose proof (relative_error_N_FLT radix2 (-1074) 53 ltac:(lia) (fun x => negb (Z.even x)) w H) as E.
  change (round radix2 (FLT_exp (-1074) 53) (Znearest _) w) with (rnd w) in E. apply Rle_trans with (1 := E).
  apply Rmult_le_compat_r; [apply Rabs_pos|]. change (bpow radix2 (-53 + 1)) with (/ 4503599627370496). interval.
Qed.
Lemma two_ge_bpow k : bpow radix2 k * 2 = bpow radix2 (k + 1). Proof. rewrite bpow_plus. change (bpow radix2 1) with 2. ring. Qed.
Lemma rnd_rl x w r d f : (Rabs w <= bpow radix2 1000 -> val x (rnd w)) -> normal r -> Rabs (w - r) <= d * Rabs r -> 0 <= d <= 0.1 -> d + 1.1103e-16 * (1 + d) <= f -> rl x r f.
Proof.
  intros V (N1 & N2) H D F. assert (B1 : Rabs w <= (1 + d) * Rabs r) by (replace w with (r + (w - r)) by ring; eapply Rle_trans; [apply Rabs_triang|lra]).
  assert (B2 : (1 - d) * Rabs r <= Rabs w) by (pose proof (Rabs_triang_inv r (r - w)) as T; replace (r - (r - w)) with w in T by ring; rewrite (Rabs_minus_sym r w) in T; lra).
  pose proof (bpow_gt_0 radix2 (-960)). assert (P : 0 < Rabs r) by lra.
  exists (rnd w). split.
  - apply V. apply Rle_trans with (bpow radix2 (960 + 1)); [|apply bpow_le; lia]. rewrite <- two_ge_bpow. nra.
  - replace (rnd w - r) with ((rnd w - w) + (w - r)) by ring. eapply Rle_trans; [apply Rabs_triang|].
    assert (Q : bpow radix2 (-1022) <= Rabs w).
    { apply Rle_trans with (bpow radix2 (-961)); [apply bpow_le; lia|]. change (-960)%Z with (-961 + 1)%Z in N1. rewrite <- two_ge_bpow in N1. pose proof (bpow_gt_0 radix2 (-961)). nra. }
    pose proof (rnd_n w Q). nra.
Qed.
Lemma rl_mul x y a b d e f : rl x a d -> rl y b e -> normal (a * b) -> 0 <= d <= 0.01 -> 0 <= e <= 0.01 ->
  (d + e + d * e) + 1.1103e-16 * (1 + (d + e + d * e)) <= f -> rl (Bmult mode_NE x y) (a * b) f.
Proof.
  intros (v & V & Hv) (w & W & Hw) N D E F.
  apply (rnd_rl _ (v * w) (a * b) (d + e + d * e)); [now apply val_mul|exact N| |nra|exact F].
  replace (v * w - a * b) with ((v - a) * b + a * (w - b) + (v - a) * (w - b)) by ring.
  eapply Rle_trans; [apply Rabs_triang|]. pose proof (Rabs_triang ((v - a) * b) (a * (w - b))) as T. rewrite !Rabs_mult in *.
  pose proof (Rabs_pos a). pose proof (Rabs_pos b). pose proof (Rabs_pos (v - a)). pose proof (Rabs_pos (w - b)).
  pose proof (Rmult_le_compat _ _ _ _ (Rabs_pos (v - a)) (Rabs_pos (w - b)) Hv Hw).
  pose proof (Rmult_le_compat_r (Rabs b) _ _ ltac:(lra) Hv). pose proof (Rmult_le_compat_l (Rabs a) _ _ ltac:(lra) Hw). nra.
Qed.
Lemma rl_div x y a b d e f : rl x a d -> rl y b e -> normal (a / b) -> b <> 0 -> 0 <= d <= 0.01 -> 0 <= e <= 0.01 ->
  (d + e) * 1.02 + 1.1103e-16 * (1 + (d + e) * 1.02) <= f -> rl (Bdiv mode_NE x y) (a / b) f.
Proof.
  intros (v & V & Hv) (w & W & Hw) N NB D E F. assert (P : 0 < Rabs b) by now apply Rabs_pos_lt.
  assert (WB : 0.99 * Rabs b <= Rabs w) by (pose proof (Rabs_triang_inv b (b - w)) as T; replace (b - (b - w)) with w in T by ring; rewrite (Rabs_minus_sym b w) in T; nra).
  assert (NW : w <> 0) by (intros ->; rewrite Rabs_R0 in WB; lra).
  apply (rnd_rl _ (v / w) (a / b) ((d + e) * 1.02)); [intros Q; now apply val_div|exact N| |lra|exact F].
  replace (v / w - a / b) with (((v - a) * b - a * (w - b)) / (w * b)) by (field; split; assumption).
  unfold Rdiv. rewrite !Rabs_mult, !Rabs_inv, Rabs_mult.
  assert (K : Rabs ((v - a) * b - a * (w - b)) <= (d + e) * (Rabs a * Rabs b)).
  { unfold Rminus at 1. eapply Rle_trans; [apply Rabs_triang|]. rewrite Rabs_Ropp, !Rabs_mult. pose proof (Rabs_pos a).
    pose proof (Rmult_le_compat_r (Rabs b) _ _ ltac:(lra) Hv). pose proof (Rmult_le_compat_l (Rabs a) _ _ ltac:(lra) Hw). nra. }
  assert (PW : 0 < Rabs w) by lra. assert (/ (Rabs w * Rabs b) <= 1.02 * / (Rabs b * Rabs b)).
  { apply Rmult_le_reg_r with (Rabs w * Rabs b * (Rabs b * Rabs b)); [repeat apply Rmult_lt_0_compat; lra|]. field_simplify; [|lra|lra]. nra. }
  apply Rle_trans with ((d + e) * (Rabs a * Rabs b) * (1.02 * / (Rabs b * Rabs b))).
  - apply Rmult_le_compat; [apply Rabs_pos|left; apply Rinv_0_lt_compat; now apply Rmult_lt_0_compat|exact K|exact H].
  - right. field. lra.
Qed.

Lemma normal_of r : 1e-280 <= Rabs r <= 1e280 -> normal r.
Proof.
  intros [A B]. split.
  - apply Rle_trans with (2 := A). change (-960)%Z with (- (960))%Z. rewrite bpow_opp. change (bpow radix2 960) with (IZR (2 ^ 960)).
    replace 1e-280 with (/ IZR (10 ^ 280)) by (unfold Rdiv; rewrite Rmult_1_l; reflexivity). apply Rinv_le; [apply IZR_lt; vm_compute; reflexivity|apply IZR_le; vm_compute; discriminate].
  - apply Rle_trans with (1 := B). change (bpow radix2 960) with (IZR (2 ^ 960)). replace 1e280 with (IZR (10 ^ 280)) by (rewrite Rmult_1_l; reflexivity). apply IZR_le. vm_compute. discriminate.
Qed.

#[export] Hint Resolve get_apparent_extraterrestrial_flux_rel get_optical_depth_rel : lrel.
Definition F_rd : lfun := fun N l => match l with
  | [day] => f <- get_apparent_extraterrestrial_flux day ;; o <- get_optical_depth day ;; Ok [f; o]
  | _ => Err Unmodelled
  end.
Lemma F_rd_rel : lrel F_rd. Proof. lrel_tac F_rd. Qed.
Definition I_rd : list abs_val := [exact_in (366 * SC)].
Definition O_rd : list abs_val := Eval vm_compute in outputs (F_rd AI I_rd).
Lemma rd_ok : F_rd AI I_rd = Ok O_rd. Proof. vm_compute. reflexivity. Qed.
Definition O_fl : abs_val := Eval vm_compute in nth 0 O_rd Top.
Definition O_od : abs_val := Eval vm_compute in nth 1 O_rd Top.
Lemma O_rd_eq : O_rd = [O_fl; O_od]. Proof. vm_compute. reflexivity. Qed.
Lemma O_fl_fits : fits O_fl NoPer 0 1300 57 100000000000000 = true. Proof. vm_compute. reflexivity. Qed.
Lemma O_od_fits : fits O_od NoPer 0 1 2 10000000000000000 = true. Proof. vm_compute. reflexivity. Qed.

Lemma jordan t : Rabs t <= PI / 2 -> 0.63 * Rabs t <= Rabs (sin t).
Proof.
  assert (G : forall t, 0 <= t <= PI / 2 -> 0.63 * t <= sin t).
  { clear. intros t H. pose proof (sin_half (2 * t) ltac:(lra)) as S. replace (2 * t / 2) with t in S by field.
    apply Rle_trans with (2 := S). assert (P : 0.63 <= 2 / PI) by interval. replace (2 * t / PI) with (2 / PI * t) by (field; apply PI_neq0). apply Rmult_le_compat_r; lra. }
  intros H. assert (P := Rabs_pos t). replace (Rabs (sin t)) with (sin (Rabs t)); [apply G; lra|].
  pose proof (G (Rabs t) ltac:(lra)). rewrite <- (Rabs_pos_eq (sin (Rabs t))) by lra.
  unfold Rabs at 2. destruct (Rcase_abs t); [rewrite sin_neg; apply Rabs_Ropp|reflexivity].
Qed.

Section L.
Variable L : libm.
Hypothesis HL : accurate L.
Notation N := (B64 L).

Lemma day_parts64 day : (1 <= day <= 366)%Z -> exists qf qo f o,
  get_apparent_extraterrestrial_flux (N := N) (flit (inject_Z day)) = Ok qf /\ val qf f /\ Rabs (f - masters_flux (IZR day)) <= 5.7e-13 /\
  get_optical_depth (N := N) (flit (inject_Z day)) = Ok qo /\ val qo o /\ Rabs (o - masters_depth (IZR day)) <= 2e-16.
Proof.
  intros D.
  destruct (transport L HL F_rd F_rd_rel I_rd [flit (inject_Z day)] [Fin (IZR day)] _
    ltac:(repeat constructor; apply exact_sat; [apply val_int; lia|rewrite Rabs_pos_eq; [apply IZR_le; lia|apply (IZR_le 0); lia]]) rd_ok) as (l1 & l2 & T1 & T2 & A).
  rewrite O_rd_eq in A. inv3 A. unfold F_rd in T1, T2. rewrite flux_val, bind_Ok, depth_val, bind_Ok in T2. apply Ok_inj in T2. apply list2_inv in T2 as [<- <-].
  binv T1. apply Ok_inj in T1. apply list2_inv in T1 as [<- <-].
  destruct (fits_nop _ _ _ _ _ _ _ O_fl_fits eq_refl S) as (f & ? & VF & [= <-] & _ & _ & EF).
  destruct (fits_nop _ _ _ _ _ _ _ O_od_fits eq_refl S0) as (o & ? & VO & [= <-] & _ & _ & EO).
  exists v, v0, f, o. repeat split; try assumption; try apply VF; try apply VO; lra.
Qed.

Lemma air_mass64 x a : val x a -> 1e-270 <= Rabs a <= 90 -> exists q, get_air_mass_ratio (N := N) x = Ok q /\ rl q (1 / sind a) 1e-15.
Proof.
  intros V B. destruct d2r_c as [VC EC]. assert (RC : rl deg_to_rad (PI / 180) 1.2e-16).
  { exists (B2R deg_to_rad). split; [exact VC|]. apply Rle_trans with (1 := EC). rewrite Rabs_pos_eq by interval. unfold zr, d2r_e, SC. interval with (i_prec 200). }
  assert (RB : 1e-272 <= Rabs (rad a) <= PI / 2).
  { unfold rad. rewrite Rabs_mult, (Rabs_pos_eq (PI / 180)) by interval. assert (0.017 <= PI / 180) by interval. split; [|pose proof PI_RGT_0; nra].
    apply Rle_trans with (1e-270 * 0.017); [lra|]. apply Rmult_le_compat; lra. }
  destruct (rl_mul x deg_to_rad a (PI / 180) 0 1.2e-16 2.32e-16 (rl_exact x a V) RC) as (v & VR & ER); [|lra|lra|lra|].
  { apply normal_of. fold (rad a). assert (PI / 2 <= 2) by interval. lra. }
  fold (rad a) in ER. change (Bmult mode_NE x deg_to_rad) with (radians (n := N) x) in VR. set (xr := radians (n := N) x) in *.
  pose proof (jordan (rad a) ltac:(lra)) as J. rewrite <- sind_rad in J. pose proof (sin_lip v (rad a)) as SL. rewrite <- sind_rad in SL.
  assert (S1 : Rabs (sin v - sind a) <= 3.7e-16 * Rabs (sind a)) by lra.
  assert (SB : 6e-273 <= Rabs (sind a)) by lra.
  pose proof (ac_sin L HL xr v VR) as C. pose proof (math1_close ValueError _ _ _ C) as MS.
  destruct C as (s & VS & ES).
  assert (RS : rl (l_sin L xr) (sind a) 6e-16).
  { exists s. split; [exact VS|]. replace (s - sind a) with ((s - sin v) + (sin v - sind a)) by ring. eapply Rle_trans; [apply Rabs_triang|].
    assert (SV : Rabs (sin v) <= Rabs (sind a) * (1 + 3.7e-16)) by (replace (sin v) with (sind a + (sin v - sind a)) by ring; eapply Rle_trans; [apply Rabs_triang|lra]).
    change (bpow radix2 (-52)) with (/ 4503599627370496) in ES.
    assert (T : bpow radix2 (-1074) <= 1e-20 * Rabs (sind a)).
    { change (-1074)%Z with (-960 + -114)%Z. rewrite bpow_plus. assert (N2 : normal (sind a)).
      { apply normal_of. pose proof (sind_bound a). assert (Rabs (sind a) <= 1) by (apply Rabs_le; lra). lra. }
      destruct N2 as [N2 _]. assert (bpow radix2 (-114) <= 1e-20) by (change (bpow radix2 (-114)) with (/ IZR (2 ^ 114)); interval).
      rewrite Rmult_comm. apply Rmult_le_compat; try apply bpow_ge_0; assumption. }
    lra. }
  assert (SN : sind a <> 0) by (intros Q; rewrite Q, Rabs_R0 in SB; lra).
  assert (ZS : is_zero (l_sin L xr) = false).
  { destruct RS as (s' & VS' & ES'). apply (val_nz _ s' VS'). intros ->. replace (0 - sind a) with (- sind a) in ES' by ring. rewrite Rabs_Ropp in ES'. lra. }
  exists (Bdiv mode_NE (flit 1) (l_sin L xr)). split.
  - unfold get_air_mass_ratio. fold xr. cbn [nsin B64]. rewrite MS. cbn [bind]. cbn [div B64]. rewrite ZS. reflexivity.
  - apply (rl_div (flit 1) (l_sin L xr) 1 (sind a) 0 6e-16); [apply rl_exact, (val_int 1); lia|exact RS| |exact SN|lra|lra|lra].
    apply normal_of. assert (Q1 : Rabs (1 / sind a) = / Rabs (sind a)) by (unfold Rdiv; rewrite Rmult_1_l; apply Rabs_inv). rewrite Q1. pose proof (sind_bound a). assert (Rabs (sind a) <= 1) by (apply Rabs_le; lra). split.
    + apply Rle_trans with (/ 1); [lra|]. apply Rinv_le; lra.
    + apply Rle_trans with (/ 6e-273); [apply Rinv_le; lra|]. lra.
Qed.

(* the exponent *)
Lemma exponent64 x a day qo o : val x a -> 1e-270 <= Rabs a <= 90 -> val qo o -> Rabs (o - masters_depth (IZR day)) <= 2e-16 -> exists q,
  get_air_mass_ratio (N := N) x = Ok q /\
  rl (mul (n := N) (mul (n := N) (neg (n := N) (lit (n := N) 1)) qo) q) (- (masters_depth (IZR day) / sind a)) 2.8e-15.
Proof.
  intros V B VO EO. destruct (air_mass64 x a V B) as (q & RQ & Q). exists q. split; [exact RQ|]. pose proof (depth_range (IZR day)) as D. set (t := masters_depth (IZR day)) in *.
  assert (RO : rl qo t 1.44e-15). { exists o. split; [exact VO|]. rewrite (Rabs_pos_eq t) by lra. lra. }
  assert (R1 : rl (mul (n := N) (neg (n := N) (lit (n := N) 1)) qo) (-1 * t) 1.6e-15).
  { apply (rl_mul (neg (n := N) (lit (n := N) 1)) qo (-1) t 0 1.44e-15); [apply rl_exact, (val_neg (flit 1) 1), (val_int 1); lia|exact RO| |lra|lra|lra].
    apply normal_of. replace (-1 * t) with (- t) by ring. rewrite Rabs_Ropp, Rabs_pos_eq; lra. }
  assert (SB : 6e-273 <= Rabs (sind a) <= 1).
  { pose proof (sind_bound a). split; [|apply Rabs_le; lra]. rewrite sind_rad. apply Rle_trans with (0.63 * Rabs (rad a)).
    - unfold rad. rewrite Rabs_mult, (Rabs_pos_eq (PI / 180)) by interval. assert (0.017 <= PI / 180) by interval. apply Rle_trans with (0.63 * (1e-270 * 0.017)); [lra|]. apply Rmult_le_compat_l; [lra|]. apply Rmult_le_compat; lra.
    - apply jordan. rewrite rad_abs, <- rad_90. apply rad_le. lra. }
  assert (SN : sind a <> 0) by (intros Z; rewrite Z, Rabs_R0 in SB; lra).
  replace (- (t / sind a)) with (-1 * t * (1 / sind a)) by (field; exact SN).
  apply (rl_mul _ q (-1 * t) (1 / sind a) 1.6e-15 1e-15); [exact R1|exact Q| |lra|lra|lra].
  apply normal_of. replace (-1 * t * (1 / sind a)) with (- t * / sind a) by (field; exact SN). rewrite Rabs_mult, Rabs_Ropp, Rabs_inv, Rabs_pos_eq by lra.
  split.
  - apply Rle_trans with (0.139 * / 1); [lra|]. apply Rmult_le_compat; try lra. apply Rinv_le; lra.
  - apply Rle_trans with (1 * / 6e-273); [|lra]. apply Rmult_le_compat; try lra; [|apply Rinv_le; lra]. left. apply Rinv_0_lt_compat; lra.
Qed.

Lemma radiation64 dt u x a : instant dt u -> in_range u = true -> val x a -> 1e-270 <= a <= 90 ->
  exists q r r', get_radiation_direct (N := N) (C := clock_math N) dt x = Ok q /\ val q r /\
    get_radiation_direct (N := MathR) (C := clock_math MathR) dt (Fin a) = Ok (Fin r') /\ Rabs (r - r') <= 3e-12.
Proof.
  intros Hi Hr V B. destruct (civil_clock_exists u) as (day & h & m & Hc). destruct (yday_bounds u day h m Hc) as (Y & _ & _).
  destruct (clock64 L dt u day h m Hi Hr Hc) as (AW & C1 & _ & _).
  destruct (day_parts64 day Y) as (qf & qo & f & o & RF & VF & EF & RO & VO & EO).
  assert (BA : 1e-270 <= Rabs a <= 90) by (rewrite Rabs_pos_eq; lra).
  destruct (exponent64 x a day qo o V BA VO EO) as (q & RQ & (y & VY & EY)). set (qx := mul (n := N) (mul (n := N) (neg (n := N) (lit (n := N) 1)) qo) q) in *.
  pose proof (flux_range (IZR day)) as FR. pose proof (depth_range (IZR day)) as DR. assert (SP : 0 < sind a) by (apply sind_pos; lra).
  set (X := masters_depth (IZR day) / sind a) in *. assert (XP : 0 < X) by (apply Rdiv_lt_0_compat; lra). rewrite Rabs_Ropp, (Rabs_pos_eq X) in EY by lra.
  assert (EX : Rabs (- y - X) <= 2.8e-15 * X) by (rewrite <- Rabs_Ropp; replace (- (- y - X)) with (y - - X) by ring; exact EY).
  pose proof (exp_rel X (- y) 2.8e-15 ltac:(lra) EX ltac:(lra)) as E1. rewrite Ropp_involutive in E1.
  assert (YP : exp y <= 1) by (replace y with (- - y) by ring; apply exp_neg_small; apply Rabs_le_inv in EX; lra).
  assert (Y1 : exp y <= bpow radix2 1000) by (apply Rle_trans with (1 := YP); apply (bpow_le radix2 0 1000); lia).
  pose proof (ac_exp L HL qx y VY Y1) as C. pose proof (math1_close OverflowError _ _ _ C) as ME. destruct C as (e & VE & EE).
  change (bpow radix2 (-52)) with (/ 4503599627370496) in EE. pose proof eps_small as EP. pose proof (exp_pos y) as EYP. rewrite (Rabs_pos_eq (exp y)) in EE by lra.
  assert (E2 : Rabs (e - exp (- X)) <= 1.3e-15).
  { replace (e - exp (- X)) with ((e - exp y) + (exp y - exp (- X))) by ring. eapply Rle_trans; [apply Rabs_triang|]. lra. }
  assert (XB : 0 < exp (- X) <= 1) by (split; [apply exp_pos|apply exp_neg_small; lra]).
  assert (EB : Rabs e <= 1.001) by (replace e with (exp (- X) + (e - exp (- X))) by ring; eapply Rle_trans; [apply Rabs_triang|]; rewrite Rabs_pos_eq by lra; lra).
  assert (FB : Rabs f <= 1236) by (replace f with (masters_flux (IZR day) + (f - masters_flux (IZR day))) by ring; eapply Rle_trans; [apply Rabs_triang|]; rewrite Rabs_pos_eq by lra; lra).
  pose proof (prod_bound f e 1236 1.001 FB EB) as PB. assert (PB' : Rabs (f * e) <= 1238) by lra. assert (PB2 : Rabs (f * e) <= 1e30) by lra.
  pose proof (val_mul qf _ f e VF VE (big_num _ PB2)) as VP. pose proof (B64Refr.rnd_up _ _ PB') as EP2.
  set (z := rnd (f * e)) in *. set (qz := Bmult mode_NE qf (l_exp L qx)) in *.
  assert (VZ : val (mul (n := N) qz one) z).
  { replace z with (rnd (z * 1)) by (rewrite Rmult_1_r; exact (rnd_val qz z VP)). apply val_mul; [exact VP|apply (val_int 1); lia|]. rewrite Rmult_1_r.
    apply big_num. replace z with (f * e + (z - f * e)) by ring. eapply Rle_trans; [apply Rabs_triang|]. lra. }
  exists (mul (n := N) qz one), z, (masters_beam (IZR day) a). split; [|split; [exact VZ|split]].
  - unfold get_radiation_direct. rewrite C1. cbn [bind]. rewrite RF. cbn [bind]. rewrite RO. cbn [bind]. rewrite RQ. cbn [bind]. fold qx. cbn [nexp B64]. rewrite ME. cbn [bind].
    change (lt (n := N) (lit (n := N) 0) x) with (Bltb (flit (inject_Z 0)) x). rewrite (val_lt _ x 0 a (val_int 0 ltac:(lia)) V). rewrite Rlt_bool_true by lra. reflexivity.
  - apply (day_val dt u day h m Hi Hr Hc). lra.
  - unfold masters_beam. fold X. set (F := masters_flux (IZR day)) in *. set (ex := exp (- X)) in *.
    replace (z - F * ex) with ((z - f * e) + ((f - F) * e + F * (e - ex))) by ring. eapply Rle_trans; [apply Rabs_triang|].
    assert (Rabs ((f - F) * e + F * (e - ex)) <= 5.7e-13 * 1.001 + 1235 * 1.3e-15); [|lra].
    eapply Rle_trans; [apply Rabs_triang|]. apply Rplus_le_compat; apply prod_bound; try assumption. rewrite Rabs_pos_eq; lra.
Qed.

(* below the horizon: zero *)
Lemma radiation_night64 dt u x a : instant dt u -> in_range u = true -> val x a -> -90 <= a <= -0.0175 ->
  exists q, get_radiation_direct (N := N) (C := clock_math N) dt x = Ok q /\ val q 0 /\
    get_radiation_direct (N := MathR) (C := clock_math MathR) dt (Fin a) = Ok (Fin 0).
Proof.
  intros Hi Hr V B. destruct (civil_clock_exists u) as (day & h & m & Hc). destruct (yday_bounds u day h m Hc) as (Y & _ & _).
  destruct (clock64 L dt u day h m Hi Hr Hc) as (AW & C1 & _ & _).
  destruct (day_parts64 day Y) as (qf & qo & f & o & RF & VF & EF & RO & VO & EO).
  assert (BA : 1e-270 <= Rabs a <= 90) by (rewrite Rabs_left1; lra).
  destruct (exponent64 x a day qo o V BA VO EO) as (q & RQ & (y & VY & EY)). set (qx := mul (n := N) (mul (n := N) (neg (n := N) (lit (n := N) 1)) qo) q) in *.
  pose proof (flux_range (IZR day)) as FR. pose proof (depth_range (IZR day)) as DR.
  assert (SP : sind a <= -3.054e-4).
  { assert (sind a <= sind (-0.0175)). { rewrite !sind_rad. apply sin_incr_1; try (rewrite <- rad_90, <- rad_opp || rewrite <- rad_90); try apply rad_le; lra. }
    assert (sind (-0.0175) <= -3.054e-4) by (unfold sind; interval). lra. }
  set (X := masters_depth (IZR day) / sind a) in *.
  assert (XP : Rabs (- X) <= 684.4).
  { unfold X, Rdiv. rewrite Rabs_Ropp, Rabs_mult, Rabs_inv, (Rabs_pos_eq (masters_depth _)), (Rabs_left1 (sind a)) by lra.
    apply Rle_trans with (0.209 * / 3.054e-4); [|lra]. apply Rmult_le_compat; try lra; [left; apply Rinv_0_lt_compat; lra|apply Rinv_le; lra]. }
  assert (YB : y <= 684.5) by (apply Rabs_le_inv in EY; apply Rabs_le_inv in XP as XP'; lra).
  assert (Y0 : exp y <= bpow radix2 988).
  { apply Rle_trans with (exp 684.5); [destruct YB as [YB| ->]; [left; now apply exp_increasing|lra]|]. change (bpow radix2 988) with (IZR (2 ^ 988)). interval with (i_prec 60). }
  assert (Y1 : exp y <= bpow radix2 1000) by (apply Rle_trans with (1 := Y0); apply bpow_le; lia).
  pose proof (ac_exp L HL qx y VY Y1) as C. pose proof (math1_close OverflowError _ _ _ C) as ME. destruct C as (e & VE & EE).
  change (bpow radix2 (-52)) with (/ 4503599627370496) in EE. pose proof eps_small as EP. pose proof (exp_pos y) as EYP. rewrite (Rabs_pos_eq (exp y)) in EE by lra.
  pose proof (bpow_gt_0 radix2 988). assert (1 <= bpow radix2 988) by (apply (bpow_le radix2 0 988); lia).
  assert (EB : Rabs e <= bpow radix2 988 * 1.001) by (replace e with (exp y + (e - exp y)) by ring; eapply Rle_trans; [apply Rabs_triang|]; rewrite Rabs_pos_eq by lra; lra).
  assert (FB : Rabs f <= 1236) by (replace f with (masters_flux (IZR day) + (f - masters_flux (IZR day))) by ring; eapply Rle_trans; [apply Rabs_triang|]; rewrite Rabs_pos_eq by lra; lra).
  pose proof (prod_bound f e _ _ FB EB) as PB.
  assert (PB' : Rabs (f * e) <= bpow radix2 1000).
  { apply Rle_trans with (1 := PB). change 1000%Z with (988 + 12)%Z. rewrite bpow_plus. change (bpow radix2 12) with 4096. nra. }
  pose proof (val_mul qf _ f e VF VE PB') as VP. set (z := rnd (f * e)) in *. set (qz := Bmult mode_NE qf (l_exp L qx)) in *.
  assert (VZ : val (mul (n := N) qz (B754_zero false)) 0).
  { rewrite <- rnd_0. replace (rnd 0) with (rnd (z * 0)) by (now rewrite Rmult_0_r). apply val_mul; [exact VP|split; reflexivity|]. rewrite Rmult_0_r, Rabs_R0. apply bpow_ge_0. }
  exists (mul (n := N) qz (B754_zero false)). split; [|split; [exact VZ|]].
  - unfold get_radiation_direct. rewrite C1. cbn [bind]. rewrite RF. cbn [bind]. rewrite RO. cbn [bind]. rewrite RQ. cbn [bind]. fold qx. cbn [nexp B64]. rewrite ME. cbn [bind].
    change (lt (n := N) (lit (n := N) 0) x) with (Bltb (flit (inject_Z 0)) x). rewrite (val_lt _ x 0 a (val_int 0 ltac:(lia)) V). rewrite Rlt_bool_false by lra. reflexivity.
  - apply (night_zero dt u day h m Hi Hr Hc). lra.
Qed.

Lemma radiation_near64 dt u x a a' e : instant dt u -> in_range u = true -> val x a -> 1e-270 <= a <= 90 -> 0 < a' <= 90 -> Rabs (a - a') <= e ->
  exists q r r', get_radiation_direct (N := N) (C := clock_math N) dt x = Ok q /\ val q r /\
    get_radiation_direct (N := MathR) (C := clock_math MathR) dt (Fin a') = Ok (Fin r') /\ Rabs (r - r') <= 84.1 * e + 3e-12.
Proof.
  intros Hi Hr V A A' E. destruct (radiation64 dt u x a Hi Hr V A) as (q & r & r1 & H1 & H2 & H3 & H4).
  destruct (radiation_lip dt u a a' Hi Hr ltac:(lra) A') as (r2 & r3 & H5 & H6 & H7). rewrite H3 in H5. apply Ok_inj, Fin_inj in H5. subst r2.
  exists q, r, r3. split; [exact H1|]. split; [exact H2|]. split; [exact H6|].
  replace (r - r3) with ((r - r1) + (r1 - r3)) by ring. eapply Rle_trans; [apply Rabs_triang|]. lra.
Qed.
End L.

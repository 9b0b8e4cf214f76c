(* Refraction and altitude in binary64 against exact arithmetic. *)
From Coq Require Import Reals Qreals Lra Lia List.
From Flocq Require Import Core IEEE754.BinarySingleNaN.
From Interval Require Import Tactic.
From Verif Require Import Py Num Cal TzCheck SolarTime Solar Tables Constants RInst RTac SpecTime SpecDt SpecGeom Trig SpaProofs GeoProofs RefractionProofs B64 SpecB64 B64Lemmas
  B64Ranges Rel Absint AbsintSound B64Lift B64Topo B64Pos AngleLip B64Horiz.
Import ListNotations.
Local Open Scope R_scope.

(* ---- reals *)
Lemma cot_lip a b s : 0 < s -> s <= Rabs (sin a) -> s <= Rabs (sin b) -> Rabs (cos a / sin a - cos b / sin b) <= Rabs (a - b) / (s * s).
Proof.
  intros S A B. assert (NA : sin a <> 0) by (intros E; rewrite E, Rabs_R0 in A; lra). assert (NB : sin b <> 0) by (intros E; rewrite E, Rabs_R0 in B; lra).
  replace (cos a / sin a - cos b / sin b) with (sin (b - a) / (sin a * sin b)) by (rewrite sin_minus; field; tauto).
  unfold Rdiv. rewrite Rabs_mult, Rabs_inv, Rabs_mult. apply Rmult_le_compat; [apply Rabs_pos| | |].
  - left. apply Rinv_0_lt_compat. apply Rmult_lt_0_compat; lra.
  - rewrite <- (Rminus_0_r (sin (b - a))), <- sin_0. eapply Rle_trans; [apply sin_lip|]. rewrite Rminus_0_r, Rabs_minus_sym. lra.
  - apply Rinv_le_contravar; [apply Rmult_lt_0_compat; lra|]. apply Rmult_le_compat; lra.
Qed.
Lemma refr_k P T : 0 <= P <= 110000 -> 180 <= T <= 340 -> 0 <= P / 101000 * (283 / T) * (1.02 / 60) <= 0.02911.
Proof.
  intros HP HT. assert (I : 0 < 283 / T <= 283 / 180). { split; [apply Rdiv_lt_0_compat; lra|]. unfold Rdiv. apply Rmult_le_compat_l; [lra|]. apply Rinv_le; lra. }
  assert (J : 0 <= P / 101000 <= 1.08911) by lra. set (i := 283 / T) in *. set (j := P / 101000) in *. clearbody i j. nra.
Qed.
Lemma sin_mid a : 1.3 <= a <= 178.7 -> 0.0226 <= sind a.
Proof.
  intros H. assert (M : forall b, 1.3 <= b <= 90 -> sind 1.3 <= sind b) by (intros b B; destruct (Req_dec b 1.3) as [->|]; [lra|left; apply sind_incr; lra]).
  apply Rle_trans with (1 := sin_small). destruct (Rle_lt_dec a 90); [apply M; lra|]. rewrite <- (sind_supp a). apply M. lra.
Qed.
Lemma arg_pos t : -5 <= t <= 90.001 -> 1.3 < refraction_argument t < 90.2.
Proof.
  intros H. split; [apply refraction_argument_low; lra|].
  unfold refraction_argument. set (x := t + 5.11). assert (0.11 <= x <= 95.12) by (unfold x; lra). assert (x + 10.3 / x < 95.3); [|unfold x in *; lra].
  apply Rmult_lt_reg_r with x; [lra|]. replace ((x + 10.3 / x) * x) with (x * x + 10.3) by (field; lra). nra.
Qed.
Lemma arg_neg t : -90.001 <= t <= -5.2 -> -120 < refraction_argument t < -11.
Proof.
  intros H. unfold refraction_argument. set (x := - (t + 5.11)). assert (B : 0.09 <= x <= 84.9) by (unfold x; lra).
  replace (10.3 / (t + 5.11)) with (- (10.3 / x)) by (unfold x; field; lra).
  assert (6.4 < x + 10.3 / x < 114.8); [|unfold x in *; lra].
  split; (apply Rmult_lt_reg_r with x; [lra|]); replace ((x + 10.3 / x) * x) with (x * x + 10.3) by (field; lra); [|nra].
  pose proof (Rle_0_sqr (x - 3.2)) as S. unfold Rsqr in S. lra.
Qed.
Lemma sin_arg_low t : -5 <= t <= 90.001 -> 0.0226 <= sind (refraction_argument t).
Proof. intros H. pose proof (arg_pos t H). apply sin_mid. lra. Qed.
Lemma refr_lip P T t t' : 0 <= P <= 110000 -> 180 <= T <= 340 -> -0.8334 <= t <= 90.001 -> -0.8334 <= t' <= 90.001 ->
  Rabs (refraction_formula P T t - refraction_formula P T t') <= Rabs (t - t').
Proof.
  intros HP HT H H'. pose proof (refr_k P T HP HT) as K. pose proof (sin_arg_low t ltac:(lra)) as S. pose proof (sin_arg_low t' ltac:(lra)) as S'.
  unfold refraction_formula. set (k := P / 101000 * (283 / T) * (1.02 / 60)) in *. clearbody k. rewrite <- Rmult_minus_distr_l, Rabs_mult, (Rabs_pos_eq k) by lra.
  rewrite !sind_rad, !cosd_rad in *. set (a := refraction_argument t) in *. set (a' := refraction_argument t') in *.
  assert (D : Rabs (a - a') <= Rabs (t - t')).
  { unfold a, a', refraction_argument. replace (t + 10.3 / (t + 5.11) - (t' + 10.3 / (t' + 5.11))) with ((t - t') * (1 - 10.3 / ((t + 5.11) * (t' + 5.11)))) by (field; lra).
    rewrite Rabs_mult. rewrite <- (Rmult_1_r (Rabs (t - t'))) at 2. apply Rmult_le_compat_l; [apply Rabs_pos|].
    assert (18 <= (t + 5.11) * (t' + 5.11)) by nra. set (m := (t + 5.11) * (t' + 5.11)) in *.
    assert (0 < 10.3 / m <= 10.3 / 18). { split; [apply Rdiv_lt_0_compat; lra|]. unfold Rdiv. apply Rmult_le_compat_l; [lra|]. apply Rinv_le; lra. }
    apply Rabs_le. lra. }
  pose proof (cot_lip (rad a) (rad a') 0.0226 ltac:(lra) ltac:(rewrite Rabs_pos_eq; lra) ltac:(rewrite Rabs_pos_eq; lra)) as C.
  replace (rad a - rad a') with (rad (a - a')) in C by (unfold rad; ring). rewrite rad_abs in C.
  set (z := Rabs (cos (rad a) / sin (rad a) - cos (rad a') / sin (rad a'))) in *. assert (Z0 : 0 <= z) by apply Rabs_pos. clearbody z.
  assert (R : rad (Rabs (a - a')) <= Rabs (t - t') * 0.0174534).
  { unfold rad. assert (PI / 180 <= 0.0174534) by interval. pose proof (Rabs_pos (a - a')). pose proof PI_RGT_0. nra. }
  assert (z <= Rabs (t - t') * 0.0174534 / (0.0226 * 0.0226)). { eapply Rle_trans; [exact C|]. apply Rmult_le_compat_r; [lra|exact R]. }
  pose proof (Rabs_pos (t - t')). set (w := Rabs (t - t')) in *. clearbody w. apply Rle_trans with (0.02911 * (w * 0.0174534 / (0.0226 * 0.0226))); [|lra].
  apply Rmult_le_compat; lra.
Qed.

(* ---- floats on either side of pi/2 *)
Definition hp0 : R := 7074237752028440 / 2 ^ 52.
Definition hp1 : R := 7074237752028441 / 2 ^ 52.
Lemma hp_format : generic_format radix2 (FLT_exp (-1074) 53) hp0.
Proof.
  unfold hp0. rewrite <- half_pi64. apply generic_format_B2R.
Qed.
Lemma float_gap x v : val x v -> hp0 < v -> hp1 <= v.
Proof.
  intros [F <-] H. pose proof (generic_format_B2R 53 1024 x) as G.
  pose proof (succ_le_lt radix2 (FLT_exp (-1074) 53) hp0 (B2R x) hp_format G H) as S. apply Rle_trans with (2 := S).
  rewrite succ_eq_pos by (unfold hp0; lra). apply Req_le. rewrite ulp_neq_0 by (unfold hp0; lra). unfold cexp.
  rewrite (mag_unique_pos radix2 hp0 1). 2:{ cbn [bpow Z.pow_pos]. unfold hp0. cbn. lra. }
  change (FLT_exp (-1074) 53 1) with (-52)%Z. unfold hp0, hp1. cbn. lra.
Qed.
Lemma hp1_cos : cos hp1 <= -1e-16 /\ PI / 2 < hp1.
Proof. unfold hp1. split; interval with (i_prec 120). Qed.
Lemma cos_away x v : val x v -> Rabs v <= 2.2 -> 5e-17 <= Rabs (cos v).
Proof.
  intros V H. assert (G : forall y w, val y w -> 0 <= w <= 2.2 -> 5e-17 <= Rabs (cos w)).
  { intros y w W B. destruct (Rle_lt_dec w hp0) as [C|C].
    - apply Rle_trans with (cos w); [|apply Rle_abs]. apply cos_rad_pos. rewrite Rabs_pos_eq; [exact C|lra].
    - apply (float_gap y w W) in C. destruct hp1_cos as [E1 E2]. assert (cos w <= cos hp1) by (assert (2.2 < PI) by interval; apply cos_decr_1; lra).
      rewrite Rabs_left; lra. }
  apply Rabs_le_inv in H. destruct (Rle_lt_dec 0 v); [apply (G x v V); lra|]. rewrite <- cos_neg. apply (G (Bopp x) (- v)); [now apply val_neg|lra].
Qed.
Lemma tan_away x v : val x v -> Rabs v <= 2.2 -> cos v <> 0 /\ Rabs (tan v) <= 2e16.
Proof.
  intros V H. pose proof (cos_away x v V H) as C. assert (N : cos v <> 0) by (intros E; rewrite E, Rabs_R0 in C; lra). split; [exact N|].
  unfold tan, Rdiv. rewrite Rabs_mult, Rabs_inv. pose proof (SIN_bound v). assert (Rabs (sin v) <= 1) by (apply Rabs_le; lra). pose proof (Rabs_pos (sin v)).
  assert (0 < / Rabs (cos v) <= 2e16). { split; [apply Rinv_0_lt_compat; lra|]. replace 2e16 with (/ 5e-17) by lra. apply Rinv_le; lra. }
  nra.
Qed.
Lemma tan_ge_sin v : cos v <> 0 -> Rabs (sin v) <= Rabs (tan v).
Proof.
  intros H. unfold tan, Rdiv. rewrite Rabs_mult, Rabs_inv. pose proof (Rabs_pos (sin v)). pose proof (Rabs_pos_lt _ H). pose proof (COS_bound v).
  assert (Rabs (cos v) <= 1) by (apply Rabs_le; lra). rewrite <- (Rmult_1_r (Rabs (sin v))) at 1. apply Rmult_le_compat_l; [assumption|].
  rewrite <- Rinv_1. apply Rinv_le; lra.
Qed.

(* ---- the argument of the tangent *)
Definition F_arg : lfun := fun N l => match l with
  | [t] => q <- div (lit 10.3) (add t (lit 5.11)) ;; Ok [radians (add t q)]
  | _ => Err Unmodelled
  end.
Lemma F_arg_rel : lrel F_arg. Proof. lrel_tac F_arg. Qed.
Definition exact_rng (lo hi d : Z) : abs_val := Ab (mkab (lo * SC / d) (hi * SC / d) (91 * SC) 0 NoPer).
Definition arg_of x := match F_arg AI [x] with Ok [s] => s | _ => Top end.
Definition R1 := Eval vm_compute in exact_rng (-9001) (-519) 100.
Definition R2 := Eval vm_compute in exact_rng (-501) (-80) 100.
Definition R3 := Eval vm_compute in exact_rng (-90) 9001 100.
Definition T1 : abs_val := Eval vm_compute in arg_of R1.
Definition T2 : abs_val := Eval vm_compute in arg_of R2.
Definition T3 : abs_val := Eval vm_compute in arg_of R3.
Lemma T1_ok : F_arg AI [R1] = Ok [T1]. Proof. vm_compute. reflexivity. Qed.
Lemma T2_ok : F_arg AI [R2] = Ok [T2]. Proof. vm_compute. reflexivity. Qed.
Lemma T3_ok : F_arg AI [R3] = Ok [T3]. Proof. vm_compute. reflexivity. Qed.
Lemma T1_fits : fits T1 NoPer (-4) 4 3 10000000000000 = true. Proof. vm_compute. reflexivity. Qed.
Lemma T2_fits : fits T2 NoPer (-4) 4 3 10000000000000 = true. Proof. vm_compute. reflexivity. Qed.
Lemma T3_fits : fits T3 NoPer (-4) 4 6 10000000000000000 = true. Proof. vm_compute. reflexivity. Qed.
Lemma F_arg_R t : t <> -5.11 -> F_arg MathR [Fin t] = Ok [Fin (rad (refraction_argument t))].
Proof.
  intros H. unfold F_arg, refraction_argument. rewrite !lit_R, add_R.
  replace (Q2R 5.11) with 5.11 by (unfold Q2R; simpl; lra). replace (Q2R 10.3) with 10.3 by (unfold Q2R; simpl; lra).
  rewrite div_R by lra. cbn [bind]. now rewrite add_R, radians_R.
Qed.
Lemma u53 : bpow radix2 (-53) <= 1.1103e-16. Proof. change (bpow radix2 (-53)) with (/ 9007199254740992). lra. Qed.
Lemma rnd_up w m : Rabs w <= m -> Rabs (rnd w - w) <= m * 1.1103e-16 + 1e-20.
Proof.
  intros H. eapply Rle_trans; [apply rnd_rel|]. pose proof eps_small. pose proof u53. pose proof (bpow_gt_0 radix2 (-53)). pose proof (Rabs_pos w).
  assert (Rabs w * bpow radix2 (-53) <= m * 1.1103e-16) by (apply Rmult_le_compat; lra). lra.
Qed.
Lemma rnd_pos w : 0.1 <= Rabs w -> Rabs (rnd w - w) <= Rabs w * 1.12e-16.
Proof. intros H. eapply Rle_trans; [apply (rnd_up w (Rabs w)); lra|]. lra. Qed.
Lemma big_num r : Rabs r <= 1e30 -> Rabs r <= bpow radix2 1000.
Proof. intros H. eapply Rle_trans; [exact H|]. apply Rle_trans with (bpow radix2 100); [|now apply bpow_le]. change (bpow radix2 100) with 1267650600228229401496703205376. lra. Qed.

Section L.
Variable L : libm.
Hypothesis HL : accurate L.
Notation N := (B64 L).
Definition numer (P : f64) : f64 := mul (n := N) (mul (n := N) P (lit (n := N) 2.830)) (lit (n := N) 1.02).
Definition scale (T : f64) : f64 := mul (n := N) (mul (n := N) (lit (n := N) 1010.0) T) (lit (n := N) 60.0).

Lemma lit_near q r : Q2R q = r -> 0.1 <= r <= 1e20 -> exists c, val (lit (n := N) q) c /\ Rabs (c - r) <= r * 1.12e-16.
Proof.
  intros <- H. exists (rnd (Q2R q)). split; [apply val_lit; apply big_num; rewrite Rabs_pos_eq; lra|].
  rewrite <- (Rabs_pos_eq (Q2R q)) at 3 by lra. apply rnd_pos. rewrite Rabs_pos_eq; lra.
Qed.
Lemma numer_near xP P : val xP P -> 0 <= P <= 110000 -> exists a, val (numer xP) a /\ Rabs (a - 2.8866 * P) <= 2.8866 * P * 5e-16 + 1e-19.
Proof.
  intros V H. destruct (lit_near 2.830 2.83 ltac:(unfold Q2R; simpl; lra) ltac:(lra)) as (c & VC & EC).
  destruct (lit_near 1.02 1.02 ltac:(unfold Q2R; simpl; lra) ltac:(lra)) as (g & VG & EG). apply Rabs_le_inv in EC, EG.
  assert (B1 : 0 <= P * c <= 2.83 * P * (1 + 1.12e-16)) by (split; nra).
  assert (V1 : val (mul (n := N) xP (lit (n := N) 2.830)) (rnd (P * c))) by (apply val_mul; [exact V|exact VC|apply big_num; rewrite Rabs_pos_eq; lra]).
  pose proof (rnd_up (P * c) (2.84 * P) ltac:(rewrite Rabs_pos_eq; lra)) as E1. set (m := rnd (P * c)) in *. clearbody m. apply Rabs_le_inv in E1.
  assert (E1' : Rabs (m - 2.83 * P) <= 2.83 * P * 2.3e-16 + 1e-20) by (apply Rabs_le; split; nra). apply Rabs_le_inv in E1'.
  assert (BM : Rabs (m * g) <= 2.9 * P + 1e-19) by (apply Rabs_le; split; nra).
  assert (V2 : val (numer xP) (rnd (m * g))) by (apply val_mul; [exact V1|exact VG|apply big_num; lra]).
  pose proof (rnd_up (m * g) _ BM) as E2. apply Rabs_le_inv in E2. exists (rnd (m * g)). split; [exact V2|]. set (z := rnd (m * g)) in *. clearbody z.
  assert (E3 : Rabs (m * g - 2.8866 * P) <= 2.8866 * P * 3.5e-16 + 2e-20).
  { replace (m * g - 2.8866 * P) with ((m - 2.83 * P) * g + 2.83 * P * (g - 1.02)) by lra. apply Rabs_le. split; nra. }
  apply Rabs_le_inv in E3. apply Rabs_le. lra.
Qed.
Lemma scale_near xT T : val xT T -> 180 <= T <= 340 -> exists a, val (scale xT) a /\ Rabs (a - 60600 * T) <= 60600 * T * 2.3e-16.
Proof.
  intros V H. assert (V10 : val (lit (n := N) 1010.0) 1010).
  { assert (E : lit (n := N) 1010.0 = flit (inject_Z 1010)) by (apply B2SF_inj; vm_compute; reflexivity). rewrite E. apply val_int. lia. }
  assert (V60 : val (lit (n := N) 60.0) 60).
  { assert (E : lit (n := N) 60.0 = flit (inject_Z 60)) by (apply B2SF_inj; vm_compute; reflexivity). rewrite E. apply val_int. lia. }
  assert (V1 : val (mul (n := N) (lit (n := N) 1010.0) xT) (rnd (1010 * T))) by (apply val_mul; [exact V10|exact V|apply big_num; rewrite Rabs_pos_eq; lra]).
  pose proof (rnd_pos (1010 * T) ltac:(rewrite Rabs_pos_eq; lra)) as E1. rewrite (Rabs_pos_eq (1010 * T)) in E1 by lra. apply Rabs_le_inv in E1.
  set (m := rnd (1010 * T)) in *. clearbody m.
  assert (V2 : val (scale xT) (rnd (m * 60))) by (apply val_mul; [exact V1|exact V60|apply big_num; rewrite Rabs_pos_eq; lra]).
  pose proof (rnd_pos (m * 60) ltac:(rewrite Rabs_pos_eq; lra)) as E2. rewrite (Rabs_pos_eq (m * 60)) in E2 by lra. apply Rabs_le_inv in E2.
  exists (rnd (m * 60)). split; [exact V2|]. set (z := rnd (m * 60)) in *. clearbody z. apply Rabs_le. lra.
Qed.
Lemma quotient_near a b A B : Rabs (a - A) <= Rabs A * 5e-16 + 1e-19 -> Rabs (b - B) <= Rabs B * 8e-16 -> 1 <= Rabs B -> Rabs (A / B) <= 3 ->
  b <> 0 /\ Rabs (a / b - A / B) <= 4.1e-15.
Proof.
  intros HA HB B1 Q. assert (NB : B <> 0) by (intros E; rewrite E, Rabs_R0 in B1; lra).
  assert (Bb : Rabs B * (1 - 8e-16) <= Rabs b). { pose proof (Rabs_triang b (B - b)). replace (b + (B - b)) with B in * by ring. rewrite (Rabs_minus_sym B b) in *. lra. }
  assert (Nb : b <> 0). { intros E. rewrite E, Rabs_R0 in Bb. nra. } split; [exact Nb|].
  replace (a / b - A / B) with ((a - A) / b - A / B * ((b - B) / b)) by (field; tauto).
  assert (PB : 0 < Rabs b) by now apply Rabs_pos_lt.
  assert (X1 : Rabs ((b - B) / b) <= 8.1e-16).
  { unfold Rdiv. rewrite Rabs_mult, Rabs_inv. apply Rmult_le_reg_r with (Rabs b); [exact PB|]. rewrite Rmult_assoc, Rinv_l by lra. nra. }
  assert (X2 : Rabs ((a - A) / b) <= 1.55e-15).
  { unfold Rdiv. rewrite Rabs_mult, Rabs_inv. apply Rmult_le_reg_r with (Rabs b); [exact PB|]. rewrite Rmult_assoc, Rinv_l by lra.
    assert (QA : Rabs A <= 3 * Rabs B). { replace A with (A / B * B) by (field; exact NB). rewrite Rabs_mult. apply Rmult_le_compat_r; [apply Rabs_pos|exact Q]. }
    nra. }
  unfold Rminus at 1. eapply Rle_trans; [apply Rabs_triang|]. rewrite Rabs_Ropp, Rabs_mult. pose proof (Rabs_pos (A / B)). pose proof (Rabs_pos ((b - B) / b)).
  assert (Rabs (A / B) * Rabs ((b - B) / b) <= 3 * 8.1e-16) by (apply Rmult_le_compat; assumption). lra.
Qed.
Lemma refr_core xP P xT T x v : val xP P -> val xT T -> val x v -> 0 <= P <= 110000 -> 180 <= T <= 340 -> Rabs v <= 2.2 -> 0.02 <= Rabs (sin v) ->
  exists t r z, ntan (n := N) x = Ok t /\ div (n := N) (numer xP) (mul (n := N) (scale xT) t) = Ok r /\ val r z /\
    Rabs (z - P / 101000 * (283 / T) * (1.02 / 60) * (cos v / sin v)) <= 1e-14.
Proof.
  intros VP VT V HP HT HV HS. destruct (tan_away x v V HV) as [NC TB]. pose proof (tan_ge_sin v NC) as TG.
  pose proof (ac_tan L HL x v V ltac:(apply tan_fits; lra)) as C.
  assert (RT : ntan (n := N) x = Ok (l_tan L x)) by exact (math1_close ValueError _ _ _ C). destruct C as (t & Vt & Et).
  change (bpow radix2 (-52)) with (/ 4503599627370496) in Et. pose proof eps_small as EP.
  assert (Et' : Rabs (t - tan v) <= Rabs (tan v) * 2.3e-16) by lra. clear Et.
  assert (NS : sin v <> 0) by (intros E; rewrite E, Rabs_R0 in HS; lra).
  destruct (numer_near xP P VP HP) as (a & VA & EA). destruct (scale_near xT T VT HT) as (m & VM & EM).
  assert (ATB : Rabs t <= Rabs (tan v) * (1 + 2.3e-16)). { replace t with (tan v + (t - tan v)) by ring. eapply Rle_trans; [apply Rabs_triang|]. lra. }
  assert (Bm : 1e7 <= m <= 2.1e7) by (apply Rabs_le_inv in EM; lra).
  assert (BMT : Rabs (m * t) <= 1e30). { rewrite Rabs_mult, (Rabs_pos_eq m) by lra. pose proof (Rabs_pos t). nra. }
  assert (VB : val (mul (n := N) (scale xT) (l_tan L x)) (rnd (m * t))) by (apply val_mul; [exact VM|exact Vt|now apply big_num]).
  set (B := 60600 * T * tan v).
  assert (AB : Rabs B = 60600 * T * Rabs (tan v)) by (unfold B; rewrite Rabs_mult, (Rabs_pos_eq (60600 * T)) by lra; reflexivity).
  assert (BB : 2e5 <= Rabs B) by (rewrite AB; apply Rle_trans with (60600 * 180 * 0.02); [lra|apply Rmult_le_compat; lra]).
  assert (E1 : Rabs (m * t - B) <= Rabs B * 4.7e-16).
  { unfold B at 1. replace (m * t - 60600 * T * tan v) with (m * (t - tan v) + (m - 60600 * T) * tan v) by ring. eapply Rle_trans; [apply Rabs_triang|]. rewrite !Rabs_mult, (Rabs_pos_eq m) by lra. rewrite AB.
    pose proof (Rabs_pos (tan v)) as P1. pose proof (Rabs_pos (t - tan v)) as P2. pose proof (Rabs_pos (m - 60600 * T)) as P3. apply Rabs_le_inv in EM as EM'.
    set (w := Rabs (tan v)) in *. set (y := Rabs (t - tan v)) in *. set (z := Rabs (m - 60600 * T)) in *. clearbody w y z.
    assert (m * y <= 60600 * T * (1 + 2.3e-16) * (w * 2.3e-16)) by (apply Rmult_le_compat; lra). assert (z * w <= 60600 * T * 2.3e-16 * w) by (apply Rmult_le_compat_r; lra).
    assert (0 <= 60600 * T * w) by (apply Rmult_le_pos; lra). set (Tw := 60600 * T * w) in *. replace (60600 * T * (1 + 2.3e-16) * (w * 2.3e-16)) with (Tw * ((1 + 2.3e-16) * 2.3e-16)) in * by (unfold Tw; ring).
    replace (60600 * T * 2.3e-16 * w) with (Tw * 2.3e-16) in * by (unfold Tw; ring). lra. }
  assert (LMT : 0.1 <= Rabs (m * t)). { assert (Rabs B <= Rabs (m * t) + Rabs (m * t - B)) by (replace B with (m * t + - (m * t - B)) at 1 by ring; eapply Rle_trans; [apply Rabs_triang|]; rewrite Rabs_Ropp; lra). lra. }
  pose proof (rnd_pos (m * t) LMT) as E2. set (b := rnd (m * t)) in *. clearbody b.
  assert (UMT : Rabs (m * t) <= Rabs B * (1 + 4.7e-16)). { replace (m * t) with (B + (m * t - B)) by ring. eapply Rle_trans; [apply Rabs_triang|]. lra. }
  assert (E3 : Rabs (b - B) <= Rabs B * 8e-16). { replace (b - B) with ((b - m * t) + (m * t - B)) by ring. eapply Rle_trans; [apply Rabs_triang|]. lra. }
  set (K := P / 101000 * (283 / T) * (1.02 / 60) * (cos v / sin v)).
  assert (KE : 2.8866 * P / B = K) by (unfold K, B, tan; replace 2.8866 with (14433 / 5000) by lra; replace 1.02 with (51 / 50) by lra; field; repeat split; (assumption || lra)).
  assert (KB : Rabs K <= 3).
  { unfold K. rewrite Rabs_mult. pose proof (refr_k P T HP HT) as RK. rewrite (Rabs_pos_eq (P / 101000 * (283 / T) * (1.02 / 60))) by lra.
    assert (Rabs (cos v / sin v) <= 50). { unfold Rdiv. rewrite Rabs_mult, Rabs_inv. pose proof (COS_bound v). assert (Rabs (cos v) <= 1) by (apply Rabs_le; lra).
      assert (0 < / Rabs (sin v) <= 50) by (split; [apply Rinv_0_lt_compat; lra|replace 50 with (/ 0.02) by lra; apply Rinv_le; lra]). pose proof (Rabs_pos (cos v)). nra. }
    pose proof (Rabs_pos (cos v / sin v)). nra. }
  destruct (quotient_near a b (2.8866 * P) B) as [Nb QN]; try assumption; try lra.
  { rewrite (Rabs_pos_eq (2.8866 * P)) by lra. lra. } { now rewrite KE. }
  rewrite KE in QN. assert (QB : Rabs (a / b) <= 3.1). { replace (a / b) with (K + (a / b - K)) by ring. eapply Rle_trans; [apply Rabs_triang|]. lra. }
  assert (VD : val (Bdiv mode_NE (numer xP) (mul (n := N) (scale xT) (l_tan L x))) (rnd (a / b))) by (apply val_div; [exact VA|exact VB|exact Nb|apply big_num; lra]).
  exists (l_tan L x), (Bdiv mode_NE (numer xP) (mul (n := N) (scale xT) (l_tan L x))), (rnd (a / b)). split; [exact RT|]. split.
  { change ((if is_zero (mul (n := N) (scale xT) (l_tan L x)) then Err ZeroDivisionError else Ok (Bdiv mode_NE (numer xP) (mul (n := N) (scale xT) (l_tan L x)))) =
      Ok (Bdiv mode_NE (numer xP) (mul (n := N) (scale xT) (l_tan L x)))). rewrite (val_nz _ _ VB Nb). reflexivity. }
  split; [exact VD|]. pose proof (rnd_up _ _ QB) as E4. fold K. replace (rnd (a / b) - K) with ((rnd (a / b) - a / b) + (a / b - K)) by ring.
  eapply Rle_trans; [apply Rabs_triang|]. lra.
Qed.

Definition thr : f64 := mul (n := N) (neg (n := N) (lit (n := N) 1.0)) (add (n := N) (lit (n := N) 0.26667) (lit (n := N) 0.5667)).
Lemma thr_val : exists w, val thr w /\ Rabs (w + 0.83337) <= 1e-15.
Proof.
  assert (E : thr = fl (-7506329642923500) (-53)) by (apply B2SF_inj; vm_compute; reflexivity). rewrite E.
  eexists. split; [apply val_fl; [reflexivity|lia]|]. change (bpow radix2 (-53)) with (/ 9007199254740992). apply Rabs_le. lra.
Qed.
Lemma arg_float A z lo hi n m x t : F_arg AI [A] = Ok [z] -> fits z NoPer lo hi n m = true -> (0 < m)%Z -> t <> -5.11 -> satv A x (Fin t) ->
  exists q v, div (n := N) (lit (n := N) 10.3) (add (n := N) x (lit (n := N) 5.11)) = Ok q /\ val (radians (n := N) (add (n := N) x q)) v /\
    Rabs (v - rad (refraction_argument t)) <= IZR n / IZR m.
Proof.
  intros HF F M T S. destruct (transport L HL F_arg F_arg_rel [A] [x] [Fin t] _ ltac:(repeat constructor; exact S) HF) as (l1 & l2 & E1 & E2 & AA).
  inv3 AA. rewrite F_arg_R in E2 by exact T. apply Ok_inj in E2. injection E2 as <-.
  destruct (fits_nop _ _ _ _ _ _ _ F M S0) as (v & ? & V & [= <-] & _ & _ & D).
  unfold F_arg in E1. apply bind_eq_Ok in E1 as (q & Q & E1). apply Ok_inj in E1. injection E1 as <-. exists q, v. auto.
Qed.
Lemma refr_tail xP P xT T x t q v e : val xP P -> val xT T -> val x t -> 0 <= P <= 110000 -> 180 <= T <= 340 ->
  div (n := N) (lit (n := N) 10.3) (add (n := N) x (lit (n := N) 5.11)) = Ok q -> val (radians (n := N) (add (n := N) x q)) v ->
  Rabs (v - rad (refraction_argument t)) <= e -> e <= 1e-12 -> Rabs (refraction_argument t) <= 120 -> 0.0226 <= Rabs (sind (refraction_argument t)) -> 1e-7 <= Rabs (t + 0.83337) ->
  exists r z, get_refraction_correction (N := N) xP xT x = Ok r /\ val r z /\
    Rabs (z - (if Rle_dec (-0.83337) t then refraction_formula P T t else 0)) <= 1e-14 + 73 * e.
Proof.
  intros VP VT V HP HT HQ VV HV HE HA HS HG. set (a := rad (refraction_argument t)) in *.
  assert (SV : 0.0225 <= Rabs (sin v)).
  { rewrite sind_rad in HS. fold a in HS. assert (Rabs (sin v - sin a) <= e) by (eapply Rle_trans; [apply sin_lip|exact HV]).
    assert (Rabs (sin a) <= Rabs (sin v) + Rabs (sin v - sin a)) by (replace (sin a) with (sin v + - (sin v - sin a)) at 1 by ring; eapply Rle_trans; [apply Rabs_triang|]; rewrite Rabs_Ropp; lra). lra. }
  assert (BV : Rabs v <= 2.2).
  { replace v with (a + (v - a)) by ring. eapply Rle_trans; [apply Rabs_triang|]. assert (Rabs a <= rad 120) by (unfold a; rewrite rad_abs; now apply rad_le).
    assert (rad 120 <= 2.1) by (unfold rad; interval). lra. }
  destruct (refr_core xP P xT T _ v VP VT VV HP HT BV ltac:(lra)) as (tt' & r & z & RT & RD & VR & ER).
  destruct thr_val as (w & VW & EW).
  assert (G : get_refraction_correction (N := N) xP xT x = Ok (if Bleb thr x then r else lit (n := N) 0)).
  { unfold get_refraction_correction. cbv zeta. rewrite HQ. cbn [bind]. rewrite RT. cbn [bind].
    change (bind (div (n := N) (numer xP) (mul (n := N) (scale xT) tt')) (fun r => Ok (if Bleb thr x then r else lit (n := N) 0)) = Ok (if Bleb thr x then r else lit (n := N) 0)).
    rewrite RD. reflexivity. }
  rewrite G, (val_le _ _ _ _ VW V). apply Rabs_le_inv in EW.
  destruct (Rle_dec (-0.83337) t) as [C|C].
  - rewrite Rle_bool_true. 2:{ rewrite Rabs_pos_eq in HG; lra. }
    exists r, z. split; [reflexivity|]. split; [exact VR|]. unfold refraction_formula. rewrite sind_rad, cosd_rad. fold a.
    pose proof (refr_k P T HP HT) as RK. set (k := P / 101000 * (283 / T) * (1.02 / 60)) in *.
    replace (z - k * (cos a / sin a)) with ((z - k * (cos v / sin v)) + k * (cos v / sin v - cos a / sin a)) by ring.
    eapply Rle_trans; [apply Rabs_triang|]. rewrite Rabs_mult, (Rabs_pos_eq k) by lra. apply Rplus_le_compat; [exact ER|].
    rewrite sind_rad in HS. fold a in HS.
    pose proof (cot_lip v a 0.02 ltac:(lra) ltac:(lra) ltac:(lra)) as CL. set (y := Rabs (cos v / sin v - cos a / sin a)) in *. assert (0 <= y) by apply Rabs_pos. clearbody y.
    assert (y <= e / (0.02 * 0.02)) by (eapply Rle_trans; [exact CL|]; apply Rmult_le_compat_r; lra).
    assert (0 <= e) by (eapply Rle_trans; [apply Rabs_pos|exact HV]). apply Rle_trans with (0.02911 * (e / (0.02 * 0.02))); [apply Rmult_le_compat; lra|lra].
  - rewrite Rle_bool_false. 2:{ rewrite Rabs_left in HG; lra. }
    exists (lit (n := N) 0), 0. split; [reflexivity|]. split; [apply (val_int 0); lia|]. rewrite Rminus_0_r, Rabs_R0.
    assert (0 <= e) by (eapply Rle_trans; [apply Rabs_pos|exact HV]). lra.
Qed.

Lemma rng_sat x t lo hi : val x t -> zr lo <= t <= zr hi -> Rabs t <= 91 -> satv (Ab (mkab lo hi (91 * SC) 0 NoPer)) x (Fin t).
Proof.
  intros V H A. exists t, t, 0%Z. split; [exact V|]. split; [reflexivity|]. cbn [a_lo a_hi a_mag a_err a_per turn]. rewrite zr_int, zr_0.
  replace (t - t - 0 * 0) with 0 by ring. rewrite Rabs_R0. repeat split; lra.
Qed.
Lemma refr_float xP P xT T x t : val xP P -> val xT T -> val x t -> 0 <= P <= 110000 -> 180 <= T <= 340 -> -90.001 <= t <= 90.001 ->
  ~ (-5.2 < t < -5) -> 1e-7 <= Rabs (t + 0.83337) ->
  exists r z, get_refraction_correction (N := N) xP xT x = Ok r /\ val r z /\
    Rabs (z - (if Rle_dec (-0.83337) t then refraction_formula P T t else 0)) <= 2.3e-11.
Proof.
  intros VP VT V HP HT B G HG. assert (A91 : Rabs t <= 91) by (apply Rabs_le; lra).
  destruct (Rle_lt_dec t (-5.2)) as [C1|C1]; [|destruct (Rle_lt_dec t (-0.85)) as [C2|C2]].
  - pose proof (arg_neg t ltac:(lra)) as R.
    assert (S : satv R1 x (Fin t)) by (apply rng_sat; [exact V|unfold zr, SC; lra|exact A91]).
    destruct (arg_float R1 T1 _ _ _ _ x t T1_ok T1_fits eq_refl ltac:(lra) S) as (q & v & Q & VV & HV).
    destruct (refr_tail xP P xT T x t q v (3 / 10000000000000) VP VT V HP HT Q VV HV ltac:(lra) ltac:(apply Rabs_le; lra)) as (r & z & E1 & E2 & E3).
    { rewrite <- Rabs_Ropp, <- sind_opp, Rabs_pos_eq; [apply sin_mid; lra|left; apply sind_pos; lra]. } { exact HG. }
    exists r, z. split; [exact E1|]. split; [exact E2|]. eapply Rle_trans; [exact E3|]. lra.
  - pose proof (arg_pos t ltac:(lra)) as R.
    assert (S : satv R2 x (Fin t)) by (apply rng_sat; [exact V|unfold zr, SC; lra|exact A91]).
    destruct (arg_float R2 T2 _ _ _ _ x t T2_ok T2_fits eq_refl ltac:(lra) S) as (q & v & Q & VV & HV).
    destruct (refr_tail xP P xT T x t q v (3 / 10000000000000) VP VT V HP HT Q VV HV ltac:(lra) ltac:(apply Rabs_le; lra)) as (r & z & E1 & E2 & E3).
    { rewrite Rabs_pos_eq; [apply sin_mid; lra|left; apply sind_pos; lra]. } { exact HG. }
    exists r, z. split; [exact E1|]. split; [exact E2|]. eapply Rle_trans; [exact E3|]. lra.
  - pose proof (arg_pos t ltac:(lra)) as R.
    assert (S : satv R3 x (Fin t)) by (apply rng_sat; [exact V|unfold zr, SC; lra|exact A91]).
    destruct (arg_float R3 T3 _ _ _ _ x t T3_ok T3_fits eq_refl ltac:(lra) S) as (q & v & Q & VV & HV).
    destruct (refr_tail xP P xT T x t q v (6 / 10000000000000000) VP VT V HP HT Q VV HV ltac:(lra) ltac:(apply Rabs_le; lra)) as (r & z & E1 & E2 & E3).
    { rewrite Rabs_pos_eq; [apply sin_mid; lra|left; apply sind_pos; lra]. } { exact HG. }
    exists r, z. split; [exact E1|]. split; [exact E2|]. eapply Rle_trans; [exact E3|]. lra.
Qed.
(* refraction added to an elevation angle e that is near the exact one E *)
Lemma alt_float xP P xT T q e E b : val xP P -> val xT T -> val q e -> 0 <= P <= 110000 -> 180 <= T <= 340 -> -90 <= E <= 90 -> Rabs (e - E) <= b -> b <= 9e-6 ->
  ~ (-5.21 < E < -4.99) -> 1e-5 <= Rabs (E + 0.83337) ->
  exists r s a, get_refraction_correction (N := N) xP xT q = Ok r /\ val (add (n := N) q r) a /\
    get_refraction_correction (N := MathR) (Fin P) (Fin T) (Fin E) = Ok (Fin s) /\ Rabs (a - (E + s)) <= 2 * b + 3e-11.
Proof.
  intros VP VT V HP HT BE D Hb G HG. apply Rabs_le_inv in D as D'. rewrite refraction_ok by lra.
  assert (HG' : 1e-7 <= Rabs (e + 0.83337)). { assert (Rabs (E + 0.83337) <= Rabs (e + 0.83337) + Rabs (e - E)). { replace (E + 0.83337) with ((e + 0.83337) + - (e - E)) by ring. eapply Rle_trans; [apply Rabs_triang|]. rewrite Rabs_Ropp. lra. } lra. }
  destruct (refr_float xP P xT T q e VP VT V HP HT ltac:(lra) ltac:(lra) HG') as (r & z & R1 & R2 & R3).
  exists r, (if Rle_dec (-0.83337) E then refraction_formula P T E else 0), (rnd (e + z)). split; [exact R1|].
  assert (RB : Rabs (z - (if Rle_dec (-0.83337) E then refraction_formula P T E else 0)) <= b + 2.3e-11).
  { destruct (Rle_dec (-0.83337) E) as [C|C], (Rle_dec (-0.83337) e) as [C'|C'].
    - replace (z - refraction_formula P T E) with ((z - refraction_formula P T e) + (refraction_formula P T e - refraction_formula P T E)) by ring.
      eapply Rle_trans; [apply Rabs_triang|]. pose proof (refr_lip P T e E HP HT ltac:(lra) ltac:(lra)). lra.
    - exfalso. rewrite Rabs_pos_eq in HG by lra. lra.
    - exfalso. rewrite Rabs_left in HG by lra. lra.
    - assert (0 <= b) by (eapply Rle_trans; [apply Rabs_pos|exact D]). lra. }
  set (s := if Rle_dec (-0.83337) E then refraction_formula P T E else 0) in *.
  assert (SB : Rabs s <= 2).
  { unfold s. destruct (Rle_dec (-0.83337) E) as [C|C]; [|rewrite Rabs_R0; lra]. unfold refraction_formula. rewrite Rabs_mult. pose proof (refr_k P T HP HT) as RK.
    rewrite (Rabs_pos_eq (P / 101000 * (283 / T) * (1.02 / 60))) by lra. pose proof (sin_arg_low E ltac:(lra)) as SA. pose proof (cosd_bound (refraction_argument E)) as CB.
    set (si := sind (refraction_argument E)) in *. set (co := cosd (refraction_argument E)) in *. set (k := P / 101000 * (283 / T) * (1.02 / 60)) in *.
    assert (Rabs (co / si) <= 50). { unfold Rdiv. rewrite Rabs_mult, Rabs_inv, (Rabs_pos_eq si) by lra. assert (Rabs co <= 1) by (apply Rabs_le; lra). pose proof (Rabs_pos co).
      assert (0 < / si <= 50) by (split; [apply Rinv_0_lt_compat; lra|replace 50 with (/ 0.02) by lra; apply Rinv_le; lra]). nra. }
    pose proof (Rabs_pos (co / si)). apply Rle_trans with (0.02911 * 50); [apply Rmult_le_compat; lra|lra]. }
  clearbody s. apply Rabs_le_inv in RB as RB'. apply Rabs_le_inv in SB.
  assert (BB : Rabs (e + z) <= 100) by (apply Rabs_le; lra).
  split; [apply val_add; [exact V|exact R2|apply big_num; lra]|]. split; [reflexivity|].
  pose proof (rnd_up _ _ BB) as E4. apply Rabs_le_inv in E4. apply Rabs_le. lra.
Qed.
End L.

(* The fast functions in binary64 against exact arithmetic. *)
From Coq Require Import Reals Qreals Lra Lia List.
From Flocq Require Import Core IEEE754.BinarySingleNaN.
From Interval Require Import Tactic.
From Verif Require Import Py Num Cal TzCheck Clock SolarTime Solar Constants RInst RTac SpecTime SpecDt SpecGeom SpecEng Trig GeoProofs CalProofs GenProofs FastProofs B64 SpecB64 B64Lemmas B64Witness
  B64Ranges Rel Absint AbsintSound B64Lift B64Topo B64Pos B64Horiz AngleLip.
Import ListNotations.
Local Open Scope R_scope.

#[export] Hint Resolve get_declination_rel equation_of_time_rel : lrel.
(* declination, hour angle and the sine of the altitude *)
Definition F_fast : lfun := fun N l => match l with
  | [lat; day; h; m; lon] =>
      d <- get_declination day ;; e <- equation_of_time day ;;
      st <- div (add (add (add (mul h (lit 60)) m) (mul (lit 4) lon)) e) (lit 60) ;;
      c1 <- ncos (radians lat) ;; c2 <- ncos (radians d) ;; c3 <- ncos (radians (mul (lit 15.0) (sub st (lit 12.0)))) ;;
      s1 <- nsin (radians lat) ;; s2 <- nsin (radians d) ;;
      Ok [d; e; mul (lit 15.0) (sub st (lit 12.0)); add (mul (mul c1 c2) c3) (mul s1 s2)]
  | _ => Err Unmodelled
  end.
Lemma F_fast_rel : lrel F_fast. Proof. lrel_tac F_fast. Qed.
Definition I_fast : list abs_val := [Ab A90; exact_in (366 * SC); exact_in (24 * SC); exact_in (60 * SC); exact_in (360 * SC)].
Definition outputs (r : res (list abs_val)) : list abs_val := match r with Ok l => l | Err _ => [] end.
Definition O_fast : list abs_val := Eval vm_compute in outputs (F_fast AI I_fast).
Lemma fast_ok : F_fast AI I_fast = Ok O_fast. Proof. vm_compute. reflexivity. Qed.
Definition O_d : abs_val := Eval vm_compute in nth 0 O_fast Top.
Definition O_e : abs_val := Eval vm_compute in nth 1 O_fast Top.
Definition O_h : abs_val := Eval vm_compute in nth 2 O_fast Top.
Definition O_s : abs_val := Eval vm_compute in nth 3 O_fast Top.
Lemma O_fast_eq : O_fast = [O_d; O_e; O_h; O_s]. Proof. vm_compute. reflexivity. Qed.
Lemma O_d_fits : fits O_d NoPer (-24) 24 12 100000000000000 = true. Proof. vm_compute. reflexivity. Qed.
Lemma O_e_fits : fits O_e NoPer (-19) 19 17 100000000000000 = true. Proof. vm_compute. reflexivity. Qed.
Lemma O_h_fits : fits O_h NoPer (-1000) 1000 74 100000000000000 = true. Proof. vm_compute. reflexivity. Qed.
Lemma O_s_fits : fits O_s NoPer (-2) 2 21 1000000000000000 = true. Proof. vm_compute. reflexivity. Qed.

Lemma sine_gap2 t : Rabs t <= 89.99998 -> Rabs (sind t) <= 1 - 3e-14.
Proof.
  intros H. assert (G : sind 89.99998 <= 1 - 3e-14) by (unfold sind; interval with (i_prec 100)).
  apply Rabs_le_inv in H. assert (M : forall s, s <= 89.99998 -> -90 <= s -> sind s <= sind 89.99998).
  { intros s S1 S2. destruct (Req_dec s 89.99998) as [->|]; [lra|]. left. apply sind_incr; lra. }
  apply Rabs_le. split; [|apply Rle_trans with (2 := G); apply M; lra].
  apply Ropp_le_cancel. rewrite Ropp_involutive, <- sind_opp. apply Rle_trans with (2 := G). apply M; lra.
Qed.
Lemma hoelder_const2 : PI * 1.03e-7 <= rad 1.88e-5. Proof. unfold rad. interval. Qed.
Lemma lip_const2 : PI / 2 * 2.1e-14 / 0.0172 <= rad 1.11e-10. Proof. unfold rad. interval. Qed.

Section L.
Variable L : libm.
Hypothesis HL : accurate L.
Notation N := (B64 L).

(* degrees(asin(x)) when x is close to s *)
Lemma asin_tail sq w s : val sq w -> -1 <= s <= 1 -> Rabs (w - s) <= 2.1e-14 -> let E := deg (asin s) in
  (exists a e, nasin (n := N) sq = Ok a /\ val (degrees (n := N) a) e /\ Rabs (e - E) <= 1.9e-5 /\ (Rabs E <= 89.01 -> Rabs (e - E) <= 1.2e-10)) \/
  (nasin (n := N) sq = Err ValueError /\ 89.99998 < Rabs E).
Proof.
  intros VW BS EW. cbv zeta.
  destruct (Rle_lt_dec (Rabs w) 1) as [W1|W1].
  - left. pose proof (ac_asin L HL _ _ VW W1) as C. 
    assert (RT : nasin (n := N) sq = Ok (l_asin L sq)) by exact (math1_close ValueError _ _ _ C).
    destruct C as (a & VA & EA). change (bpow radix2 (-52)) with (/ 4503599627370496) in EA. pose proof eps_small as EP.
    assert (AW : Rabs (asin w) <= 1.6) by (assert (PI / 2 <= 1.6) by interval; pose proof (asin_bound w); apply Rabs_le; lra).
    assert (EA' : Rabs (a - asin w) <= 4e-16) by lra. clear EA.
    assert (A2 : Rabs a <= 2). { replace a with (asin w + (a - asin w)) by ring. eapply Rle_trans; [apply Rabs_triang|]. lra. }
    destruct (transport L HL F_deg F_deg_rel [exact_in (2 * SC)] [l_asin L sq] [Fin a] _ ltac:(repeat constructor; now apply exact_sat) Adeg2_ok) as (l3 & l4 & T3 & T4 & A).
    inversion A as [|? q p ? ? ? S A1]; subst. inversion A1; subst. clear A A1.
    destruct (fits_nop _ _ _ _ _ _ _ Adeg2_fits eq_refl S) as (e & p' & VE & Ep & _ & _ & EE).
    subst p. unfold F_deg in T4. apply Ok_inj in T4. injection T4 as T4. assert (p' = deg a) by (symmetry; exact T4). subst p'. clear S.
    unfold F_deg in T3. apply Ok_inj in T3. injection T3 as T3.
    exists (l_asin L sq), e. split; [exact RT|]. split; [subst q; exact VE|].
    assert (W2 : -1 <= w <= 1) by now apply Rabs_le_inv. destruct rad_consts as (K1 & K2 & K3).
    assert (D1 : Rabs (deg (a - asin w)) <= 1e-13) by (apply deg_abs; lra).
    assert (D2 : Rabs (deg (asin w - asin s)) <= 1.88e-5).
    { apply deg_abs. eapply Rle_trans; [apply (asin_hoelder w s 1.03e-7); try lra|exact hoelder_const2]. }
    assert (SPL : e - deg (asin s) = (e - deg a) + (deg (a - asin w) + deg (asin w - asin s))) by (rewrite !deg_minus; ring).
    assert (TR : forall b, Rabs (deg (asin w - asin s)) <= b -> Rabs (e - deg (asin s)) <= b + 1.3e-13).
    { change (a * (180 / PI)) with (deg a) in EE. intros b Hb. rewrite SPL. eapply Rle_trans; [apply Rabs_triang|]. pose proof (Rabs_triang (deg (a - asin w)) (deg (asin w - asin s))). lra. }
    split; [apply TR in D2; lra|]. intros H89.
    assert (D3 : Rabs (deg (asin w - asin s)) <= 1.11e-10).
    { apply deg_abs. apply Rle_trans with (2 := lip_const2).
      assert (MS : Rabs (asin s) <= rad 89.0115) by (apply rad_abs_le; lra).
      assert (MW : Rabs (asin w) <= rad 89.0115).
      { apply rad_abs_le. replace (deg (asin w)) with (deg (asin s) + deg (asin w - asin s)) by (rewrite deg_minus; ring). eapply Rle_trans; [apply Rabs_triang|]. lra. }
      assert (MM : 0 <= rad 89.0115 < PI / 2). { split; [unfold rad; interval|]. rewrite <- rad_90. apply rad_lt. lra. }
      eapply Rle_trans; [apply (asin_lip_inner w s (rad 89.0115)); try assumption; lra|].
      pose proof cos_gap as G. set (c := cos (rad 89.0115)) in *. pose proof PI_RGT_0.
      unfold Rdiv at 1 3. apply Rmult_le_compat; [|left; apply Rinv_0_lt_compat; lra| |apply Rinv_le_contravar; lra].
      - apply Rmult_le_pos; [lra|apply Rabs_pos].
      - apply Rmult_le_compat_l; lra. }
    apply TR in D3. lra.
  - right. split.
    + change (math_1 ValueError (l_asin L) sq = Err ValueError). unfold math_1.
      rewrite (ac_asin_dom L HL _ _ VW W1). destruct (val_fin _ _ VW) as [-> _]. reflexivity.
    + apply Rnot_le_lt. intros G. apply sine_gap2 in G. rewrite sind_deg, sin_asin in G by exact BS.
      assert (Rabs w <= Rabs s + Rabs (w - s)) by (replace w with (s + (w - s)) at 1 by ring; apply Rabs_triang). lra.
Qed.

Lemma yday_bounds u day h m : civil_clock u day h m -> (1 <= day <= 366 /\ 0 <= h <= 23 /\ 0 <= m <= 59)%Z.
Proof.
  intros ((y & (A & B) & S) & Hh & Hm). cbv zeta in S. rewrite midnight_year in *.
  assert (Y : (days_before_year (y + 1) = days_before_year y + year_len y)%Z) by apply days_before_year_step.
  assert ((365 <= year_len y <= 366)%Z) by (unfold year_len; destruct (is_leap y); lia). nia.
Qed.

Lemma fast_assemble (K : Num) (dt : datetime) lat lon y h m d e t s : aware dt = Ok tt ->
  tm_yday (clock_math K) dt = Ok y -> tm_hour (clock_math K) dt = Ok h -> tm_min (clock_math K) dt = Ok m -> F_fast K [lat; y; h; m; lon] = Ok [d; e; t; s] ->
  get_declination y = Ok d /\ equation_of_time y = Ok e /\ get_hour_angle (C := clock_math K) dt lon = Ok t /\
  get_altitude_fast (C := clock_math K) lat lon dt = (a <- nasin s ;; Ok (degrees a)).
Proof.
  intros A Y H M F. unfold F_fast in F. binv F. apply Ok_inj in F. injection F as <- <- <- <-.
  assert (G : get_hour_angle (C := clock_math K) dt lon = Ok (mul (lit 15.0) (sub v1 (lit 12.0)))).
  { unfold get_hour_angle, get_solar_time. cbn [aware_check clock_math]. rewrite A. cbn [bind]. rewrite H, M, Y. cbn [bind]. rewrite E0. cbn [bind]. rewrite E1. reflexivity. }
  split; [exact E|]. split; [exact E0|]. split; [exact G|].
  unfold get_altitude_fast. cbn [aware_check clock_math]. cbn [aware_check clock_math] in G. rewrite A. cbn [bind]. rewrite Y. cbn [bind]. rewrite E. cbn [bind]. cbv zeta. rewrite G. cbn [bind].
  rewrite E2. cbn [bind]. rewrite E3. cbn [bind]. rewrite E4. cbn [bind]. rewrite E5. cbn [bind]. rewrite E6. reflexivity.
Qed.

Lemma fast64 lat lon x xo dt u day h m : instant dt u -> in_range u = true -> civil_clock u day h m -> val x lat -> val xo lon -> -90 <= lat <= 90 -> -360 <= lon <= 360 ->
  exists qd qe qh qs d e t s,
    F_fast N [x; flit (inject_Z day); flit (inject_Z h); flit (inject_Z m); xo] = Ok [qd; qe; qh; qs] /\ val qd d /\ val qe e /\ val qh t /\ val qs s /\
    Rabs (d - masters_declination (IZR day)) <= 1.2e-13 /\ Rabs (e - masters_eot (IZR day)) <= 1.7e-13 /\
    Rabs (t - masters_hour_angle (IZR day) (IZR h) (IZR m) lon) <= 7.4e-13 /\ Rabs (masters_hour_angle (IZR day) (IZR h) (IZR m) lon) <= 1000 /\
    Rabs (s - sin_elev lat (masters_declination (IZR day)) (masters_hour_angle (IZR day) (IZR h) (IZR m) lon)) <= 2.1e-14.
Proof.
  intros Hi Hr Hc V Vo B Bo. destruct (yday_bounds u day h m Hc) as (Y & Hh & Hm).
  assert (IA : forall k z, (0 <= k <= z)%Z -> (z <= 366)%Z -> satv (exact_in (z * SC)) (flit (inject_Z k)) (Fin (IZR k))).
  { intros k z G G'. apply exact_sat; [apply val_int; lia|]. rewrite Rabs_pos_eq by (apply (IZR_le 0); lia). apply IZR_le. lia. }
  destruct (transport L HL F_fast F_fast_rel I_fast [x; flit (inject_Z day); flit (inject_Z h); flit (inject_Z m); xo] [Fin lat; Fin (IZR day); Fin (IZR h); Fin (IZR m); Fin lon] _
    ltac:(repeat constructor; [apply (exact_sat x lat 90); [exact V|apply Rabs_le; lra]|apply IA; lia|apply IA; lia|apply IA; lia|apply exact_sat; [exact Vo|apply Rabs_le; lra]]) fast_ok) as (l1 & l2 & T1 & T2 & A).
  rewrite O_fast_eq in A. inv3 A.
  destruct (clock_vals dt u day h m Hi Hr Hc) as (C1 & C2 & C3). pose proof (instant_aware dt u Hi) as AW.
  match type of T2 with F_fast MathR _ = Ok [?a; ?b; ?c; ?d] => destruct (fast_assemble MathR dt (Fin lat) (Fin lon) _ _ _ a b c d AW C1 C2 C3 T2) as (R1 & R2 & R3 & R4) end.
  rewrite declination_val in R1. rewrite eot_val in R2. rewrite (hour_angle_val dt u day h m) in R3 by assumption.
  apply Ok_inj in R1, R2, R3. subst.
  assert (R5 : y2 = Fin (sin_elev lat (masters_declination (IZR day)) (masters_hour_angle (IZR day) (IZR h) (IZR m) lon))).
  { unfold F_fast in T2. binv T2. apply Ok_inj in T2. injection T2 as -> -> T2 <-. change (mul (n := MathR) (lit (n := MathR) 15.0) (sub (n := MathR) v1 (lit (n := MathR) 12.0)) = Fin (masters_hour_angle (IZR day) (IZR h) (IZR m) lon)) in T2. rewrite T2 in E4. rewrite radians_R in E2, E3, E4, E5, E6. rewrite ncos_R in E2, E3, E4. rewrite nsin_R in E5, E6.
    apply Ok_inj in E2, E3, E4, E5, E6. subst. change (add (n := MathR) (mul (n := MathR) (mul (n := MathR) (Fin (cos (rad lat))) (Fin (cos (rad (masters_declination (IZR day)))))) (Fin (cos (rad (masters_hour_angle (IZR day) (IZR h) (IZR m) lon))))) (mul (n := MathR) (Fin (sin (rad lat))) (Fin (sin (rad (masters_declination (IZR day)))))) = Fin (sin_elev lat (masters_declination (IZR day)) (masters_hour_angle (IZR day) (IZR h) (IZR m) lon))). rewrite !mul_R, add_R. unfold sin_elev. rewrite !sind_rad, !cosd_rad. f_equal. ring. }
  subst y2.
  destruct (fits_nop _ _ _ _ _ _ _ O_d_fits eq_refl S) as (d & ? & VD & [= <-] & _ & _ & ED).
  destruct (fits_nop _ _ _ _ _ _ _ O_e_fits eq_refl S0) as (e & ? & VE & [= <-] & _ & _ & EE).
  destruct (fits_nop _ _ _ _ _ _ _ O_h_fits eq_refl S1) as (t & ? & VH & [= <-] & _ & BH & EH).
  destruct (fits_nop _ _ _ _ _ _ _ O_s_fits eq_refl S2) as (s & ? & VS & [= <-] & _ & _ & ES).
  exists x0, x1, x2, x3, d, e, t, s. repeat split; try assumption; try apply VD; try apply VE; try apply VH; try apply VS; try lra. apply Rabs_le. lra.
Qed.

(* the three auxiliary functions and the altitude *)
Lemma fast_parts64 lat lon x xo dt u day h m : instant dt u -> in_range u = true -> civil_clock u day h m -> val x lat -> val xo lon -> -90 <= lat <= 90 -> -360 <= lon <= 360 ->
  exists qd qe qh d e t d' e' t',
    get_declination (N := N) (flit (inject_Z day)) = Ok qd /\ val qd d /\ get_declination (N := MathR) (Fin (IZR day)) = Ok (Fin d') /\ Rabs (d - d') <= 1.2e-13 /\
    equation_of_time (N := N) (flit (inject_Z day)) = Ok qe /\ val qe e /\ equation_of_time (N := MathR) (Fin (IZR day)) = Ok (Fin e') /\ Rabs (e - e') <= 1.7e-13 /\
    get_hour_angle (N := N) (C := clock_math N) dt xo = Ok qh /\ val qh t /\
    get_hour_angle (N := MathR) (C := clock_math MathR) dt (Fin lon) = Ok (Fin t') /\ Rabs (t - t') <= 7.4e-13.
Proof.
  intros Hi Hr Hc V Vo B Bo. destruct (fast64 lat lon x xo dt u day h m Hi Hr Hc V Vo B Bo) as (qd & qe & qh & qs & d & e & t & s & F & VD & VE & VH & VS & ED & EE & EH & BH & ES).
  destruct (clock64 L dt u day h m Hi Hr Hc) as (AW & C1 & C2 & C3).
  destruct (fast_assemble N dt x xo _ _ _ _ _ _ _ AW C1 C2 C3 F) as (R1 & R2 & R3 & R4).
  exists qd, qe, qh, d, e, t, (masters_declination (IZR day)), (masters_eot (IZR day)), (masters_hour_angle (IZR day) (IZR h) (IZR m) lon).
  rewrite declination_val, eot_val, (hour_angle_val dt u day h m) by assumption. repeat split; try assumption; try apply VD; try apply VE; apply VH.
Qed.

Lemma altitude_fast64 lat lon x xo dt u : instant dt u -> in_range u = true -> val x lat -> val xo lon -> -90 <= lat <= 90 -> -360 <= lon <= 360 ->
  exists E, get_altitude_fast (N := MathR) (C := clock_math MathR) (Fin lat) (Fin lon) dt = Ok (Fin E) /\
    ((exists q a, get_altitude_fast (N := N) (C := clock_math N) x xo dt = Ok q /\ val q a /\ Rabs (a - E) <= 1.9e-5 /\ (Rabs E <= 89 -> Rabs (a - E) <= 1.2e-10)) \/
     (get_altitude_fast (N := N) (C := clock_math N) x xo dt = Err ValueError /\ 89.99998 < Rabs E)).
Proof.
  intros Hi Hr V Vo B Bo. destruct (civil_clock_exists u) as (day & h & m & Hc).
  destruct (fast64 lat lon x xo dt u day h m Hi Hr Hc V Vo B Bo) as (qd & qe & qh & qs & d & e & t & s & F & VD & VE & VH & VS & ED & EE & EH & BH & ES).
  destruct (clock64 L dt u day h m Hi Hr Hc) as (AW & C1 & C2 & C3).
  destruct (fast_assemble N dt x xo _ _ _ _ _ _ _ AW C1 C2 C3 F) as (R1 & R2 & R3 & R4).
  destruct (altitude_fast_val dt u day h m lat lon Hi Hr Hc) as (Hb & Ea). cbv zeta in Hb, Ea.
  set (z := dot _ _) in *. exists (deg (asin z)). split; [exact Ea|].
  assert (EZ : sin_elev lat (masters_declination (IZR day)) (masters_hour_angle (IZR day) (IZR h) (IZR m) lon) = z) by (unfold z, sin_elev, dot, equatorial, up; ring).
  rewrite EZ in ES. rewrite R4.
  destruct (asin_tail qs s z VS Hb ES) as [(a & e0 & RA & VA & EA & EA')|[RA GA]]; rewrite RA; cbn [bind]; [left|right].
  - exists (degrees (n := N) a), e0. repeat split; try assumption; try apply VA. intros; apply EA'; lra.
  - split; [reflexivity|exact GA].
Qed.
End L.

(* Elevation angle and azimuth in binary64 against exact arithmetic. *)
From Coq Require Import Reals Qreals Lra Lia List.
From Flocq Require Import Core IEEE754.BinarySingleNaN.
From Interval Require Import Tactic.
From Verif Require Import Py Num Cal TzCheck SolarTime Solar Tables Constants RInst RTac SpecTime SpecDt SpecGeom Trig SpaProofs GeoProofs B64 SpecB64 B64Lemmas
  B64Ranges Rel Absint AbsintSound B64Lift B64Topo B64Pos AngleLip.
Import ListNotations.
Local Open Scope R_scope.

Definition F_sine : lfun := fun N l => match l with
  | [lat; d; h] =>
      s1 <- nsin (radians lat) ;; s2 <- nsin (radians d) ;; c1 <- ncos (radians lat) ;; c2 <- ncos (radians d) ;; c3 <- ncos (radians h) ;;
      Ok [add (mul s1 s2) (mul (mul c1 c2) c3)]
  | _ => Err Unmodelled
  end.
Lemma F_sine_rel : lrel F_sine. Proof. lrel_tac F_sine. Qed.
Definition F_deg : lfun := fun N l => match l with [a] => Ok [degrees a] | _ => Err Unmodelled end.
Lemma F_deg_rel : lrel F_deg. Proof. lrel_tac F_deg. Qed.
Lemma elev_assemble (K : Num) (lat d h s a q : T K) : F_sine K [lat; d; h] = Ok [s] -> nasin s = Ok a -> F_deg K [a] = Ok [q] ->
  get_topocentric_elevation_angle lat d h = Ok q.
Proof.
  intros H A H'. unfold F_sine in H. binv H. apply Ok_inj in H. injection H as <-. apply Ok_inj in H'. injection H' as <-.
  unfold get_topocentric_elevation_angle. cbv zeta. rewrite E; cbn [bind]; rewrite E0; cbn [bind]; rewrite E1; cbn [bind]; rewrite E2; cbn [bind];
  rewrite E3; cbn [bind]. rewrite A. reflexivity.
Qed.
Lemma elev_raise (K : Num) (lat d h s : T K) e : F_sine K [lat; d; h] = Ok [s] -> nasin s = Err e -> get_topocentric_elevation_angle lat d h = Err e.
Proof.
  intros H A. unfold F_sine in H. binv H. apply Ok_inj in H. injection H as <-. 
  unfold get_topocentric_elevation_angle. cbv zeta. rewrite E; cbn [bind]; rewrite E0; cbn [bind]; rewrite E1; cbn [bind]; rewrite E2; cbn [bind];
  rewrite E3; cbn [bind]. rewrite A. reflexivity.
Qed.
Lemma F_sine_R lat d h : F_sine MathR [Fin lat; Fin d; Fin h] = Ok [Fin (sin_elev lat d h)].
Proof. unfold F_sine. rewrite !radians_R, !nsin_R, !ncos_R. cbn [bind]. rewrite !mul_R, add_R. unfold sin_elev. now rewrite !sind_rad, !cosd_rad. Qed.

Definition exact_in (z : Z) : abs_val := Ab (mkab (- z) z z 0 NoPer).
Definition Asine : abs_val := Eval vm_compute in
  match F_sine AI [Ab A90; exact_in (33 * SC); exact_in (361 * SC)] with Ok [s] => s | _ => Top end.
Lemma Asine_ok : F_sine AI [Ab A90; exact_in (33 * SC); exact_in (361 * SC)] = Ok [Asine].
Proof. vm_compute. reflexivity. Qed.
Definition Adeg2 : abs_val := Eval vm_compute in match F_deg AI [exact_in (2 * SC)] with Ok [s] => s | _ => Top end.
Lemma Adeg2_ok : F_deg AI [exact_in (2 * SC)] = Ok [Adeg2].
Proof. vm_compute. reflexivity. Qed.
Lemma Asine_fits : fits Asine NoPer (-2) 2 275 100000000000000000 = true. Proof. vm_compute. reflexivity. Qed.
Lemma Adeg2_fits : fits Adeg2 NoPer (-115) 115 167 10000000000000000 = true. Proof. vm_compute. reflexivity. Qed.

Lemma sine_gap t : Rabs t <= 89.999991 -> Rabs (sind t) <= 1 - 1e-14.
Proof.
  intros H. assert (G : sind 89.999991 <= 1 - 1e-14) by (unfold sind; interval with (i_prec 100)).
  apply Rabs_le_inv in H. assert (M : forall s, s <= 89.999991 -> -90 <= s -> sind s <= sind 89.999991).
  { intros s S1 S2. destruct (Req_dec s 89.999991) as [->|]; [lra|]. left. apply sind_incr; lra. }
  apply Rabs_le. split; [|apply Rle_trans with (2 := G); apply M; lra].
  apply Ropp_le_cancel. rewrite Ropp_involutive, <- sind_opp. apply Rle_trans with (2 := G). apply M; lra.
Qed.
Lemma cos_gap : 0.0172 <= cos (rad 89.0115).
Proof. unfold rad. interval. Qed.
Lemma deg_abs x e : Rabs x <= rad e -> Rabs (deg x) <= e.
Proof. intros H. rewrite <- (deg_rad e). apply Rabs_le_inv in H. apply Rabs_le. rewrite <- deg_opp. split; apply deg_le; lra. Qed.
Lemma rad_abs_le x e : Rabs (deg x) <= e -> Rabs x <= rad e.
Proof. intros H. rewrite <- (rad_deg x). apply Rabs_le_inv in H. apply Rabs_le. rewrite <- rad_opp. split; apply rad_le; lra. Qed.
Lemma deg_minus a b : deg (a - b) = deg a - deg b. Proof. unfold deg. ring. Qed.
Lemma rad_consts : 1.2e-7 <= rad 6.9e-6 /\ 3e-13 <= rad 1.8e-11 /\ 4e-16 <= rad 1e-13.
Proof. unfold rad. repeat split; interval. Qed.
Lemma hoelder_const : PI * 3.72e-8 <= 1.19e-7. Proof. interval. Qed.
Lemma lip_const : PI / 2 * 2.75e-15 / 0.0172 <= 2.6e-13. Proof. interval. Qed.

Section L.
Variable L : libm.
Hypothesis HL : accurate L.
Notation N := (B64 L).

Lemma exact_sat x v z : val x v -> Rabs v <= IZR z -> satv (exact_in (z * SC)) x (Fin v).
Proof. intros V H. apply (sat_exact x v (z * SC)); [exact V|]. now rewrite zr_int. Qed.

Lemma elev_float x lat qd d qh h : val x lat -> val qd d -> val qh h -> -90 <= lat <= 90 -> Rabs d <= 33 -> Rabs h <= 361 ->
  let E := deg (asin (sin_elev lat d h)) in
  (exists q e, get_topocentric_elevation_angle (N := N) x qd qh = Ok q /\ val q e /\ Rabs (e - E) <= 7e-6 /\ (Rabs E <= 89.01 -> Rabs (e - E) <= 2e-11)) \/
  (get_topocentric_elevation_angle (N := N) x qd qh = Err ValueError /\ 89.999991 < Rabs E).
Proof.
  intros V Vd Vh B Bd Bh. cbv zeta.
  destruct (transport L HL F_sine F_sine_rel [Ab A90; exact_in (33 * SC); exact_in (361 * SC)] [x; qd; qh] [Fin lat; Fin d; Fin h] _
    ltac:(repeat constructor; [apply (exact_sat x lat 90); [exact V|apply Rabs_le; lra]|now apply exact_sat|now apply exact_sat]) Asine_ok) as (l1 & l2 & T1 & T2 & A).
  inversion A as [|? sq sp ? ? ? S A1]; subst. inversion A1; subst. clear A A1.
  rewrite F_sine_R in T2. apply Ok_inj in T2. injection T2 as <-.
  set (s := sin_elev lat d h) in *. pose proof (sin_elev_bound lat d h) as BS. fold s in BS. clearbody s.
  destruct (fits_nop _ _ _ _ _ _ _ Asine_fits eq_refl S) as (w & s' & VW & Es & _ & _ & EW).
  injection Es as <-. replace (275 / 100000000000000000) with 2.75e-15 in EW by lra. clear S.
  destruct (Rle_lt_dec (Rabs w) 1) as [W1|W1].
  - left. pose proof (ac_asin L HL _ _ VW W1) as C. 
    assert (RT : nasin (n := N) sq = Ok (l_asin L sq)) by exact (math1_close ValueError _ _ _ C).
    destruct C as (a & VA & EA). change (bpow radix2 (-52)) with (/ 4503599627370496) in EA. pose proof eps_small as EP.
    assert (AW : Rabs (asin w) <= 1.6) by (assert (PI / 2 <= 1.6) by interval; pose proof (asin_bound w); apply Rabs_le; lra).
    assert (EA' : Rabs (a - asin w) <= 4e-16) by lra. clear EA.
    assert (A2 : Rabs a <= 2). { replace a with (asin w + (a - asin w)) by ring. eapply Rle_trans; [apply Rabs_triang|]. lra. }
    destruct (transport L HL F_deg F_deg_rel [exact_in (2 * SC)] [l_asin L sq] [Fin a] _ ltac:(repeat constructor; now apply exact_sat) Adeg2_ok) as (l3 & l4 & T3 & T4 & A).
    inversion A as [|? q p ? ? ? S A1]; subst. inversion A1; subst. clear A A1.
    destruct (fits_nop _ _ _ _ _ _ _ Adeg2_fits eq_refl S) as (e & p' & VE & Ep & _ & _ & EE).
    subst p. unfold F_deg in T4. apply Ok_inj in T4. injection T4 as T4. assert (p' = deg a) by (symmetry; exact T4). subst p'. clear S.
    exists q, e. split; [exact (elev_assemble N _ _ _ _ _ _ T1 RT T3)|]. split; [exact VE|].
    assert (W2 : -1 <= w <= 1) by now apply Rabs_le_inv. destruct rad_consts as (K1 & K2 & K3).
    assert (D1 : Rabs (deg (a - asin w)) <= 1e-13) by (apply deg_abs; lra).
    assert (HO : Rabs (asin w - asin s) <= 1.19e-7).
    { eapply Rle_trans; [apply (asin_hoelder w s 3.72e-8); try lra|exact hoelder_const]. }
    assert (D2 : Rabs (deg (asin w - asin s)) <= 6.9e-6) by (apply deg_abs; lra).
    assert (SPL : e - deg (asin s) = (e - deg a) + (deg (a - asin w) + deg (asin w - asin s))) by (rewrite !deg_minus; ring).
    assert (TR : forall b, Rabs (deg (asin w - asin s)) <= b -> Rabs (e - deg (asin s)) <= b + 1.3e-13).
    { change (a * (180 / PI)) with (deg a) in EE. intros b Hb. rewrite SPL. eapply Rle_trans; [apply Rabs_triang|]. pose proof (Rabs_triang (deg (a - asin w)) (deg (asin w - asin s))). lra. }
    split; [apply TR in D2; lra|]. intros H89.
    assert (D3 : Rabs (deg (asin w - asin s)) <= 1.8e-11).
    { apply deg_abs. apply Rle_trans with (2 := K2). apply Rle_trans with 2.6e-13; [|lra].
      assert (MS : Rabs (asin s) <= rad 89.0115) by (apply rad_abs_le; lra).
      assert (MW : Rabs (asin w) <= rad 89.0115).
      { apply rad_abs_le. replace (deg (asin w)) with (deg (asin s) + deg (asin w - asin s)) by (rewrite deg_minus; ring). eapply Rle_trans; [apply Rabs_triang|]. lra. }
      assert (MM : 0 <= rad 89.0115 < PI / 2). { split; [unfold rad; interval|]. rewrite <- rad_90. apply rad_lt. lra. }
      eapply Rle_trans; [apply (asin_lip_inner w s (rad 89.0115)); try assumption; lra|].
      apply Rle_trans with (2 := lip_const). pose proof cos_gap as G. set (c := cos (rad 89.0115)) in *. pose proof PI_RGT_0.
      unfold Rdiv at 1 3. apply Rmult_le_compat; [|left; apply Rinv_0_lt_compat; lra| |apply Rinv_le_contravar; lra].
      - apply Rmult_le_pos; [lra|apply Rabs_pos].
      - apply Rmult_le_compat_l; lra. }
    apply TR in D3. lra.
  - right. split.
    + apply (elev_raise N x qd qh sq ValueError T1). change (math_1 ValueError (l_asin L) sq = Err ValueError). unfold math_1.
      rewrite (ac_asin_dom L HL _ _ VW W1). destruct (val_fin _ _ VW) as [-> _]. reflexivity.
    + apply Rnot_le_lt. intros G. apply sine_gap in G. rewrite sind_deg, sin_asin in G by exact BS.
      assert (Rabs w <= Rabs s + Rabs (w - s)) by (replace w with (s + (w - s)) at 1 by ring; apply Rabs_triang). lra.
Qed.

(* with the errors of declination and hour angle *)
Lemma elev64 x lat qd d qh h d' h' (k : Z) e1 e2 : val x lat -> val qd d -> val qh h -> -90 <= lat <= 90 -> Rabs d <= 33 -> Rabs h <= 361 ->
  Rabs (d - d') <= e1 -> Rabs (h - h' - 360 * IZR k) <= e2 -> e1 + e2 <= 1.4e-6 ->
  let E := deg (asin (sin_elev lat d' h')) in
  get_topocentric_elevation_angle (N := MathR) (Fin lat) (Fin d') (Fin h') = Ok (Fin E) /\
  ((exists q e, get_topocentric_elevation_angle (N := N) x qd qh = Ok q /\ val q e /\ Rabs (e - E) <= e1 + e2 + 7e-6 /\
     (Rabs E <= 89 -> Rabs (e - E) <= e1 + e2 + 2e-11)) \/
   (get_topocentric_elevation_angle (N := N) x qd qh = Err ValueError /\ 89.99998 < Rabs E)).
Proof.
  intros V Vd Vh B Bd Bh D1 D2 D3. cbv zeta. split; [apply elevation_val|].
  pose proof (elevation_lip lat d h d' h' k) as LIP. set (E0 := deg (asin (sin_elev lat d h))) in *. set (E := deg (asin (sin_elev lat d' h'))) in *.
  assert (T : Rabs (E0 - E) <= e1 + e2) by lra.
  pose proof (elev_float x lat qd d qh h V Vd Vh B Bd Bh) as EF. cbv zeta in EF. fold E0 in EF. destruct EF as [(q & e & Q & VE & G1 & G2)|[Q G]]; [left|right].
  - exists q, e. split; [exact Q|]. split; [exact VE|]. assert (TR : forall b, Rabs (e - E0) <= b -> Rabs (e - E) <= e1 + e2 + b).
    { intros b Hb. replace (e - E) with ((e - E0) + (E0 - E)) by ring. eapply Rle_trans; [apply Rabs_triang|]. lra. }
    split; [now apply TR|]. intros H. apply TR, G2. replace E0 with (E + (E0 - E)) by ring. eapply Rle_trans; [apply Rabs_triang|]. lra.
  - split; [exact Q|]. assert (Rabs E0 <= Rabs E + Rabs (E0 - E)) by (replace E0 with (E + (E0 - E)) at 1 by ring; apply Rabs_triang). lra.
Qed.
End L.
Definition F_az1 : lfun := fun N l => match l with
  | [h; lat; d] =>
      a <- nsin (radians h) ;; c1 <- ncos (radians h) ;; s1 <- nsin (radians lat) ;; t1 <- ntan (radians d) ;; c2 <- ncos (radians lat) ;;
      Ok [a; sub (mul c1 s1) (mul t1 c2)]
  | _ => Err Unmodelled
  end.
Lemma F_az1_rel : lrel F_az1. Proof. lrel_tac F_az1. Qed.
Definition F_az2 : lfun := fun N l => match l with
  | [r] => q <- fmod (add (lit 180.0) (degrees r)) (lit 360) ;; Ok [q]
  | _ => Err Unmodelled
  end.
Lemma F_az2_rel : lrel F_az2. Proof. lrel_tac F_az2. Qed.
Lemma az_assemble (K : Num) (h lat d y x al q : T K) : F_az1 K [h; lat; d] = Ok [y; x] -> natan2 y x = Ok al -> F_az2 K [al] = Ok [q] ->
  get_topocentric_azimuth_angle h lat d = Ok q.
Proof.
  intros H A H'. unfold F_az1 in H. binv H. apply Ok_inj in H. injection H as <- <-. unfold F_az2 in H'. binv H'. apply Ok_inj in H'. injection H' as <-.
  unfold get_topocentric_azimuth_angle. cbv zeta. rewrite E; cbn [bind]; rewrite E0; cbn [bind]; rewrite E1; cbn [bind]; rewrite E2; cbn [bind];
  rewrite E3; cbn [bind]; rewrite A; cbn [bind]. exact E4.
Qed.
Definition az1_of (hh dd : abs_val) := match F_az1 AI [hh; Ab A90; dd] with Ok [a; b] => (a, b) | _ => (Top, Top) end.
Definition Yaz_full : abs_val := Eval vm_compute in fst (az1_of H_full D_full).
Definition Xaz_full : abs_val := Eval vm_compute in snd (az1_of H_full D_full).
Definition Yaz_mod : abs_val := Eval vm_compute in fst (az1_of H_mod D_mod).
Definition Xaz_mod : abs_val := Eval vm_compute in snd (az1_of H_mod D_mod).
Definition Aaz2 : abs_val := Eval vm_compute in match F_az2 AI [exact_in (4 * SC)] with Ok [s] => s | _ => Top end.
Lemma az1_full_ok : F_az1 AI [H_full; Ab A90; D_full] = Ok [Yaz_full; Xaz_full]. Proof. vm_compute. reflexivity. Qed.
Lemma az1_mod_ok : F_az1 AI [H_mod; Ab A90; D_mod] = Ok [Yaz_mod; Xaz_mod]. Proof. vm_compute. reflexivity. Qed.
Lemma az2_ok : F_az2 AI [exact_in (4 * SC)] = Ok [Aaz2]. Proof. vm_compute. reflexivity. Qed.
Lemma Y_full_fits : fits Yaz_full NoPer (-4) 4 234 10000000000 = true. Proof. vm_compute. reflexivity. Qed.
Lemma X_full_fits : fits Xaz_full NoPer (-4) 4 246 10000000000 = true. Proof. vm_compute. reflexivity. Qed.
Lemma Y_mod_fits : fits Yaz_mod NoPer (-4) 4 392 100000000000 = true. Proof. vm_compute. reflexivity. Qed.
Lemma X_mod_fits : fits Xaz_mod NoPer (-4) 4 398 100000000000 = true. Proof. vm_compute. reflexivity. Qed.
Lemma az2_fits : fits Aaz2 Deg (-1) 361 2 10000000000000 = true. Proof. vm_compute. reflexivity. Qed.
Lemma F_az1_R h lat d : cosd d <> 0 -> F_az1 MathR [Fin h; Fin lat; Fin d] = Ok [Fin (sind h); Fin (cosd h * sind lat - tand d * cosd lat)].
Proof. intros H. unfold F_az1. rewrite !radians_R, !nsin_R, !ncos_R, ntan_R by now apply cos_rad_ne0. cbn [bind]. now rewrite !mul_R, sub_R, !sind_rad, !cosd_rad, !tand_rad. Qed.
Lemma F_az2_R r : F_az2 MathR [Fin r] = Ok [Fin (Rfmod (180 + deg r) 360)].
Proof. unfold F_az2. rx. replace (Q2R 180.0) with 180 by (unfold Q2R; simpl; lra). reflexivity. Qed.

(* the horizontal projection *)
Lemma azimuth_norm lat d h : 0 < cosd d -> let c := cosd (deg (asin (sin_elev lat d h))) in
  c * c <= (cosd h * sind lat - tand d * cosd lat) * (cosd h * sind lat - tand d * cosd lat) + sind h * sind h.
Proof.
  intros C. cbv zeta. rewrite cosd_deg, cos_asin_sqr by apply sin_elev_bound.
  pose proof (sincosd lat) as L1. pose proof (sincosd d) as L2. pose proof (sincosd h) as L3.
  assert (T : tand d * cosd d = sind d) by (rewrite tand_def; field; lra).
  set (b := cosd h * sind lat - tand d * cosd lat).
  assert (B : b * cosd d = cosd d * cosd h * sind lat - sind d * cosd lat) by (unfold b; rewrite <- T; ring).
  assert (I : 1 - sin_elev lat d h * sin_elev lat d h = (b * b + sind h * sind h) * (cosd d * cosd d)).
  { transitivity ((b * cosd d) * (b * cosd d) + (cosd d * sind h) * (cosd d * sind h)); [|ring]. rewrite B. unfold sin_elev.
    set (sl := sind lat) in *. set (cl := cosd lat) in *. set (sd := sind d) in *. set (cd := cosd d) in *. set (sh := sind h) in *. set (ch := cosd h) in *.
    assert (H1 : sh * sh = 1 - ch * ch) by lra.
    transitivity ((sl * sl + cl * cl) * (sd * sd + cd * cd) - (sl * sd + cl * cd * ch) * (sl * sd + cl * cd * ch)); [rewrite L1, L2; ring|].
    transitivity ((cd * ch * sl - sd * cl) * (cd * ch * sl - sd * cl) + cd * cd * (sh * sh)); [|ring]. rewrite H1.
    assert (H2 : cl * cl = 1 - sl * sl) by lra.
    transitivity (cd * cd - cd * cd * (ch * ch) * (cl * cl) - 2 * (sl * sd * (cl * cd * ch)) + sd * sd * (cl * cl)
      + cd * cd * (sl * sl + cl * cl - 1)); [ring|]. rewrite H2. 
    transitivity (cd * cd * (ch * ch) * (sl * sl) + sd * sd * (cl * cl) - 2 * (sl * sd * (cl * cd * ch)) + cd * cd * (1 - ch * ch)); [rewrite H2|]; ring. }
  rewrite I. assert (0 <= b * b + sind h * sind h). { apply Rplus_le_le_0_compat; apply Rle_0_sqr. }
  assert (cosd d * cosd d <= 1) by (assert (0 <= sind d * sind d) by apply Rle_0_sqr; lra). assert (0 <= cosd d * cosd d) by apply Rle_0_sqr. nra.
Qed.
Section A.
Variable L : libm.
Hypothesis HL : accurate L.
Notation N := (B64 L).
Lemma az64 hh dd Y X n1 n2 m x lat qd d' qh h' del : F_az1 AI [hh; Ab A90; dd] = Ok [Y; X] ->
  fits Y NoPer (-4) 4 n1 m = true -> fits X NoPer (-4) 4 n2 m = true -> (0 < m)%Z -> val x lat -> -90 <= lat <= 90 ->
  satv hh qh (Fin h') -> satv dd qd (Fin d') -> -33 <= d' <= 33 ->
  IZR n1 / IZR m * (IZR n1 / IZR m) + IZR n2 / IZR m * (IZR n2 / IZR m) <= del * del -> 0 <= del <= 3.4e-8 ->
  let E := deg (asin (sin_elev lat d' h')) in 1e-5 <= cosd E ->
  exists q a a' (k : Z), get_topocentric_azimuth_angle (N := N) qh x qd = Ok q /\ val q a /\
    get_topocentric_azimuth_angle (N := MathR) (Fin h') (Fin lat) (Fin d') = Ok (Fin a') /\
    Rabs (a - a' - 360 * IZR k) <= 4e-13 + deg (1.0035 * del) / cosd E.
Proof.
  intros HF FY FX Hm V B Sh Sd Bd HD Hdel. cbv zeta. intros CE.
  assert (CD : 0 < cosd d') by (apply cosd_pos; lra).
  destruct (transport L HL F_az1 F_az1_rel [hh; Ab A90; dd] [qh; x; qd] [Fin h'; Fin lat; Fin d'] _
    ltac:(repeat constructor; [exact Sh|apply (exact_sat x lat 90); [exact V|apply Rabs_le; lra]|exact Sd]) HF) as (l1 & l2 & T1 & T2 & A).
  inv3 A. rewrite F_az1_R in T2 by lra. apply Ok_inj in T2. injection T2 as <- <-.
  destruct (fits_nop _ _ _ _ _ _ _ FY Hm S) as (v & ? & VY & [= <-] & BY & _ & EY).
  destruct (fits_nop _ _ _ _ _ _ _ FX Hm S0) as (w & ? & VX & [= <-] & BX & _ & EX). clear S S0 Sh Sd.
  pose proof (azimuth_norm lat d' h' CD) as NO. cbv zeta in NO.
  rewrite azimuth_val by lra.
  set (c := cosd (deg (asin (sin_elev lat d' h')))) in *. set (sx := cosd h' * sind lat - tand d' * cosd lat) in *. set (sy := sind h') in *. clearbody c sx sy.
  match goal with VY : val ?y v, VX : val ?x0 w |- _ => destruct (atan2_near_ieee sx sy y x0 w v c del VY VX) as (j & J) end; [lra|exact NO| |].
  { apply Rle_trans with (2 := HD). apply Rabs_le_inv in EX, EY. set (e1 := IZR n1 / IZR m) in *. set (e2 := IZR n2 / IZR m) in *. clearbody e1 e2. nra. }
  match goal with VY : val ?y v, VX : val ?x0 w |- _ => pose proof (ac_atan2 L HL y x0 v w VY VX) as C; pose proof (atan2_ieee_range y x0) as AR; set (at2 := atan2_ieee y x0) in *; set (r := l_atan2 L y x0) in *;
    assert (RT : natan2 (n := N) y x0 = Ok r) by (change (math_2 (l_atan2 L) y x0 = Ok r); unfold math_2; fold r; destruct (close_fin _ _ C) as [-> ->]; reflexivity) end.
  destruct C as (r0 & VR & ER). change (bpow radix2 (-52)) with (/ 4503599627370496) in ER. pose proof eps_small as EP.
  assert (P4 : PI < 3.2) by interval. assert (AB : Rabs (at2) <= 3.2) by (apply Rabs_le; lra).
  assert (ER' : Rabs (r0 - at2) <= 8e-16) by lra. clear ER.
  assert (R4 : Rabs r0 <= 4). { replace r0 with (at2 + (r0 - at2)) by ring. eapply Rle_trans; [apply Rabs_triang|]. lra. }
  destruct (transport L HL F_az2 F_az2_rel [exact_in (4 * SC)] [r] [Fin r0] _ ltac:(repeat constructor; now apply exact_sat) az2_ok) as (l3 & l4 & T3 & T4 & A).
  inv3 A. rewrite F_az2_R in T4. apply Ok_inj in T4. injection T4 as <-.
  destruct (fits_deg _ _ _ _ _ _ _ az2_fits eq_refl S) as (a & ? & k & VA & [= <-] & _ & _ & EA).
  replace (2 / 10000000000000) with 2e-13 in EA by lra.
  destruct (Rfmod_eq (180 + deg r0) 360) as (k1 & K1). destruct (Rfmod_eq (180 + deg (Ratan2 sy sx)) 360) as (k2 & K2).
  eexists; exists a; eexists; exists (k - k1 + k2 + j)%Z. split; [eapply az_assemble; eassumption|]. split; [exact VA|]. split; [reflexivity|].
  rewrite K1 in EA. rewrite K2, !plus_IZR, minus_IZR.
  assert (DJ : Rabs (deg (at2 - Ratan2 sy sx - IZR j * (2 * PI))) <= deg (del / (c - del))).
  { apply deg_abs. now rewrite rad_deg. }
  assert (DR : Rabs (deg (r0 - at2)) <= 1e-13).
  { apply deg_abs. destruct rad_consts as (_ & _ & ?). unfold rad in *. assert (8e-16 <= 1e-13 * (PI / 180)) by interval. lra. }
  assert (DL : deg (del / (c - del)) <= deg (1.0035 * del) / c).
  { replace (deg (1.0035 * del) / c) with (deg (1.0035 * del / c)) by (unfold deg; field; pose proof PI_RGT_0; split; lra). apply deg_le.
    apply Rmult_le_reg_r with (c - del); [lra|]. apply Rmult_le_reg_r with c; [lra|].
    replace (del / (c - del) * (c - del) * c) with (del * c) by (field; lra). replace (1.0035 * del / c * (c - del) * c) with (del * (1.0035 * (c - del))) by (field; lra).
    apply Rmult_le_compat_l; lra. }
  replace (a - _ - _) with ((a - (180 + deg r0 - 360 * IZR k1) - 360 * IZR k) + (deg (r0 - at2) + deg (at2 - Ratan2 sy sx - IZR j * (2 * PI)))).
  - eapply Rle_trans; [apply Rabs_triang|]. pose proof (Rabs_triang (deg (r0 - at2)) (deg (at2 - Ratan2 sy sx - IZR j * (2 * PI)))). lra.
  - rewrite !deg_minus. replace (deg (IZR j * (2 * PI))) with (360 * IZR j) by (unfold deg; field; pose proof PI_RGT_0; lra). ring.
Qed.
End A.

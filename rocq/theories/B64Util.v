(* The extraterrestrial irradiance and the sky functions of util.py in binary64 against exact arithmetic. *)
From Coq Require Import Reals Qreals Lra Lia List.
From Flocq Require Import Core IEEE754.BinarySingleNaN.
From Interval Require Import Tactic.
From Verif Require Import Py Num Cal TzCheck Clock SolarTime Solar Constants Util RInst RTac SpecTime SpecDt SpecGeom SpecEng Trig GeoProofs CalProofs GenProofs FastProofs IrradianceProofs B64 SpecB64 B64Lemmas B64Witness
  B64Ranges Rel Absint AbsintSound B64Lift B64Topo B64Pos B64Horiz AngleLip B64Fast Samples RefractionProofs PositionProofs B64Final B64End B64FastAz SpaProofs SpecNear.
Import ListNotations.
Local Open Scope R_scope.

(* the sine of the altitude, and the irradiance of a sun that is up *)
Definition F_extra : lfun := fun N l => match l with
  | [lat; day; h; m; lon; S0] =>
      q1 <- div (mul (mul (lit 2) npi) (sub day (lit 1.0))) (lit 365.0) ;;
      ab <- ncos q1 ;; bc <- nsin q1 ;; cd <- ncos (mul (lit 2) q1) ;; df <- nsin (mul (lit 2) q1) ;;
      d <- get_declination day ;; e <- equation_of_time day ;;
      st <- div (add (add (add (mul h (lit 60)) m) (mul (lit 4) lon)) e) (lit 60) ;;
      s1 <- nsin (radians lat) ;; s2 <- nsin (radians d) ;;
      c1 <- ncos (radians lat) ;; c2 <- ncos (radians d) ;; c3 <- ncos (radians (mul (lit 15.0) (sub st (lit 12.0)))) ;;
      let ZA := add (mul s1 s2) (mul (mul c1 c2) c3) in
      let ec := add (add (add (add (lit 1.00010) (mul (lit 0.034221) ab)) (mul (lit 0.001280) bc)) (mul (lit 0.000719) cd)) (mul (lit 0.000077) df) in
      Ok [ZA; ec; mul (mul S0 ZA) ec]
  | _ => Err Unmodelled
  end.
Lemma F_extra_rel : lrel F_extra. Proof. lrel_tac F_extra. Qed.
Definition I_extra : list abs_val := I_fast ++ [exact_in (2000 * SC)].
Definition O_extra : list abs_val := Eval vm_compute in outputs (F_extra AI I_extra).
Lemma extra_ok : F_extra AI I_extra = Ok O_extra. Proof. vm_compute. reflexivity. Qed.
Definition O_za : abs_val := Eval vm_compute in nth 0 O_extra Top.
Definition O_ec : abs_val := Eval vm_compute in nth 1 O_extra Top.
Definition O_ir : abs_val := Eval vm_compute in nth 2 O_extra Top.
Lemma O_extra_eq : O_extra = [O_za; O_ec; O_ir]. Proof. vm_compute. reflexivity. Qed.
Lemma O_za_fits : fits O_za NoPer (-2) 2 21 1000000000000000 = true. Proof. vm_compute. reflexivity. Qed.
Lemma O_ec_fits : fits O_ec NoPer (-2) 2 1 1000000000000 = true. Proof. vm_compute. reflexivity. Qed.
Lemma O_ir_fits : fits O_ir NoPer (-5000) 5000 46 1000000000000 = true. Proof. vm_compute. reflexivity. Qed.


(* the distance and the declination of util.py, and what is computed from the altitude *)
Definition F_year : lfun := fun N l => match l with
  | [day] =>
      s <- nsin (mul (mul (lit 2) npi) (sub day (lit 94))) ;; q <- div (mul (lit 0.0335) s) (lit 365) ;;
      p <- div (mul (lit 2) npi) (lit 365) ;; t <- nsin (mul p (sub day (lit 81))) ;;
      Ok [sub (lit 1) q; mul earth_axis_inclination t]
  | _ => Err Unmodelled
  end.
Lemma F_year_rel : lrel F_year. Proof. lrel_tac F_year. Qed.
Definition O_year : list abs_val := Eval vm_compute in outputs (F_year AI [exact_in (366 * SC)]).
Lemma year_ok : F_year AI [exact_in (366 * SC)] = Ok O_year. Proof. vm_compute. reflexivity. Qed.
Definition O_kd : abs_val := Eval vm_compute in nth 0 O_year Top.
Definition O_dg : abs_val := Eval vm_compute in nth 1 O_year Top.
Lemma O_year_eq : O_year = [O_kd; O_dg]. Proof. vm_compute. reflexivity. Qed.
Lemma O_kd_fits : fits O_kd NoPer 0 2 21 100000000000000000 = true. Proof. vm_compute. reflexivity. Qed.
Lemma O_dg_fits : fits O_dg NoPer (-24) 24 1 10000000000000 = true. Proof. vm_compute. reflexivity. Qed.

Definition F_sky2 : lfun := fun N l => match l with
  | [a; TL; KD] =>
      s <- nsin a ;; c <- ncos (mul (lit 2) a) ;;
      let DT := add (add (lit (-21.657)) (mul (lit 41.752) TL)) (mul (mul (lit 0.51905) TL) TL) in
      Ok [add (add (lit 0.038175) (mul (lit 1.5458) s)) (mul (lit (-0.59980)) (mul (lit 0.5) (sub (lit 1) c)));
          add (add (lit (-0.0067133)) (mul (lit 0.78600) s)) (mul (lit 0.22401) (mul (lit 0.5) (sub (lit 1) c)));
          DT; mul (mul KD DT) a; mul (lit 572) a]
  | _ => Err Unmodelled
  end.
Lemma F_sky2_rel : lrel F_sky2. Proof. lrel_tac F_sky2. Qed.
Definition up_in (e : Z) : abs_val := Ab (mkab 0 (90 * SC) (90 * SC) e NoPer).
Definition E_full : Z := Eval vm_compute in (28 * SC / 10 ^ 7 + 1)%Z.
Definition E_mod : Z := Eval vm_compute in (46 * SC / 10 ^ 8 + 1)%Z.
Definition O_sky_full : list abs_val := Eval vm_compute in outputs (F_sky2 AI [up_in E_full; exact_in (10 * SC); O_kd]).
Lemma sky_full_ok : F_sky2 AI [up_in E_full; exact_in (10 * SC); O_kd] = Ok O_sky_full. Proof. vm_compute. reflexivity. Qed.
Definition O_sky_mod : list abs_val := Eval vm_compute in outputs (F_sky2 AI [up_in E_mod; exact_in (10 * SC); O_kd]).
Lemma sky_mod_ok : F_sky2 AI [up_in E_mod; exact_in (10 * SC); O_kd] = Ok O_sky_mod. Proof. vm_compute. reflexivity. Qed.
Definition O_sky_full1 : abs_val := Eval vm_compute in nth 0 O_sky_full Top.
Definition O_sky_full2 : abs_val := Eval vm_compute in nth 1 O_sky_full Top.
Definition O_sky_full3 : abs_val := Eval vm_compute in nth 2 O_sky_full Top.
Definition O_sky_full4 : abs_val := Eval vm_compute in nth 3 O_sky_full Top.
Definition O_sky_full5 : abs_val := Eval vm_compute in nth 4 O_sky_full Top.
Lemma O_sky_full_eq : O_sky_full = [O_sky_full1; O_sky_full2; O_sky_full3; O_sky_full4; O_sky_full5]. Proof. vm_compute. reflexivity. Qed.
Definition O_sky_mod1 : abs_val := Eval vm_compute in nth 0 O_sky_mod Top.
Definition O_sky_mod2 : abs_val := Eval vm_compute in nth 1 O_sky_mod Top.
Definition O_sky_mod3 : abs_val := Eval vm_compute in nth 2 O_sky_mod Top.
Definition O_sky_mod4 : abs_val := Eval vm_compute in nth 3 O_sky_mod Top.
Definition O_sky_mod5 : abs_val := Eval vm_compute in nth 4 O_sky_mod Top.
Lemma O_sky_mod_eq : O_sky_mod = [O_sky_mod1; O_sky_mod2; O_sky_mod3; O_sky_mod4; O_sky_mod5]. Proof. vm_compute. reflexivity. Qed.
Definition F_exp : lfun := fun N l => match l with
  | [AM; TL; DEC; KD] => Ok [mul (mul (mul (lit (-0.8662)) AM) TL) DEC; mul (lit 1367) KD]
  | _ => Err Unmodelled
  end.
Lemma F_exp_rel : lrel F_exp. Proof. lrel_tac F_exp. Qed.
Definition O_expo : list abs_val := Eval vm_compute in outputs (F_exp AI [exact_in (5 * SC); exact_in (5 * SC); O_dg; O_kd]).
Definition O_w : abs_val := Eval vm_compute in nth 0 O_expo Top.
Definition O_k : abs_val := Eval vm_compute in nth 1 O_expo Top.
Lemma O_expo_eq : O_expo = [O_w; O_k]. Proof. vm_compute. reflexivity. Qed.
Lemma O_w_fits : fits O_w NoPer (-510) 510 24 10000000000000 = true. Proof. vm_compute. reflexivity. Qed.
Lemma O_k_fits : fits O_k NoPer 0 1368 5 10000000000000 = true. Proof. vm_compute. reflexivity. Qed.
Lemma exp_ok : F_exp AI [exact_in (5 * SC); exact_in (5 * SC); O_dg; O_kd] = Ok O_expo. Proof. vm_compute. reflexivity. Qed.

Lemma extra_assemble (K : Num) (dt : datetime) lat lon S0 y h m za ec ir : aware dt = Ok tt -> utc_yday (N := K) dt = Ok y ->
  tm_yday (clock_math K) dt = Ok y -> tm_hour (clock_math K) dt = Ok h -> tm_min (clock_math K) dt = Ok m -> F_extra K [lat; y; h; m; lon; S0] = Ok [za; ec; ir] ->
  ir = mul (mul S0 za) ec /\
  extraterrestrial_irrad (C := clock_math K) (fun d => d) lat lon dt S0 = (up <- truth (lt (lit 0) za) ;; if up : bool then Ok ir else Ok (lit 0.0)).
Proof.
  intros A U Y H M F. unfold F_extra in F. binv F. cbv zeta in F. apply Ok_inj in F. injection F as <- <- <-. split; [reflexivity|].
  unfold extraterrestrial_irrad. rewrite A. cbn [bind]. rewrite U. cbn [bind]. 
  rewrite E. cbn [bind]. rewrite E0. cbn [bind]. rewrite E1. cbn [bind]. rewrite E2. cbn [bind]. rewrite E3. cbn [bind]. rewrite E4. cbn [bind].
  assert (G : get_hour_angle (C := clock_math K) dt lon = Ok (mul (lit 15.0) (sub v6 (lit 12.0)))).
  { unfold get_hour_angle, get_solar_time. cbn [aware_check clock_math]. rewrite A. cbn [bind]. rewrite H, M, Y. cbn [bind]. rewrite E5. cbn [bind]. rewrite E6. reflexivity. }
  cbv zeta. cbn [aware_check clock_math] in G |- *. rewrite G. cbn [bind]. rewrite E7. cbn [bind]. rewrite E8. cbn [bind]. rewrite E9. cbn [bind]. rewrite E10. cbn [bind]. rewrite E11. reflexivity.
Qed.

Lemma bpow_small : bpow radix2 (-1074) = / IZR (2 ^ 1074). Proof. reflexivity. Qed.

Lemma list2_inj {A} (a b c d : A) : [a; b] = [c; d] -> a = c /\ b = d. Proof. now intros [= -> ->]. Qed.

Section L.
Variable L : libm.
Hypothesis HL : accurate L.
Notation N := (B64 L).

Lemma utc_yday64 dt u day h m : instant dt u -> in_range u = true -> civil_clock u day h m -> utc_yday (N := N) dt = Ok (flit (inject_Z day)).
Proof.
  intros Hi Hr Hc. apply civil_clock_fields in Hc as (<- & _ & _). unfold utc_yday. rewrite (instant_utctimetuple dt u Hi), Hr. reflexivity.
Qed.
Lemma int_sat k z : (0 <= k <= z)%Z -> (z <= 366)%Z -> satv (exact_in (z * SC)) (flit (inject_Z k)) (Fin (IZR k)).
Proof. intros G G'. apply exact_sat; [apply val_int; lia|]. rewrite Rabs_pos_eq by (apply (IZR_le 0); lia). apply IZR_le. lia. Qed.
Lemma up64 z : truth (n := N) (lt (n := N) (lit (n := N) 0) z) = Ok (Bltb (flit (inject_Z 0)) z). Proof. reflexivity. Qed.
Lemma upR z : truth (n := MathR) (lt (n := MathR) (lit (n := MathR) 0) (Fin z)) = Ok (Rbool_lt 0 z). Proof. rx. first [reflexivity | replace (Q2R 0) with 0 by (unfold Q2R; simpl; lra); reflexivity]. Qed.

Lemma extraterrestrial64 lat lon S0 x xo xs dt u : instant dt u -> in_range u = true -> val x lat -> val xo lon -> val xs S0 -> -90 <= lat <= 90 -> -360 <= lon <= 360 -> 0 <= S0 <= 2000 ->
  exists q r r', extraterrestrial_irrad (N := N) (C := clock_math N) (fun d => d) x xo dt xs = Ok q /\ val q r /\
    extraterrestrial_irrad (N := MathR) (C := clock_math MathR) (fun d => d) (Fin lat) (Fin lon) dt (Fin S0) = Ok (Fin r') /\ Rabs (r - r') <= 1.4e-10.
Proof.
  intros Hi Hr V Vo Vs B Bo Bs. destruct (civil_clock_exists u) as (day & h & m & Hc). destruct (yday_bounds u day h m Hc) as (Y & Hh & Hm).
  destruct (transport L HL F_extra F_extra_rel I_extra [x; flit (inject_Z day); flit (inject_Z h); flit (inject_Z m); xo; xs] [Fin lat; Fin (IZR day); Fin (IZR h); Fin (IZR m); Fin lon; Fin S0] _
    ltac:(unfold I_extra, I_fast; cbn [app]; repeat constructor; [apply (exact_sat x lat 90); [exact V|apply Rabs_le; lra]|apply int_sat; lia|apply int_sat; lia|apply int_sat; lia|apply exact_sat; [exact Vo|apply Rabs_le; lra]|apply exact_sat; [exact Vs|apply Rabs_le; lra]]) extra_ok) as (l1 & l2 & T1 & T2 & A).
  rewrite O_extra_eq in A. inv3 A.
  destruct (clock_vals dt u day h m Hi Hr Hc) as (C1 & C2 & C3). pose proof (instant_aware dt u Hi) as AW.
  destruct (clock64 L dt u day h m Hi Hr Hc) as (_ & D1 & D2 & D3).
  destruct (extra_assemble MathR dt _ _ _ _ _ _ _ _ _ AW (utc_yday_val dt u day h m Hi Hr Hc) C1 C2 C3 T2) as (R1 & R2).
  destruct (extra_assemble N dt _ _ _ _ _ _ _ _ _ AW (utc_yday64 dt u day h m Hi Hr Hc) D1 D2 D3 T1) as (_ & Q2).
  destruct (fits_nop _ _ _ _ _ _ _ O_za_fits eq_refl S) as (z & z' & VZ & -> & _ & BZ & EZ).
  destruct (fits_nop _ _ _ _ _ _ _ O_ec_fits eq_refl S1) as (c & c' & VC & -> & _ & BC & EC).
  destruct (fits_nop _ _ _ _ _ _ _ O_ir_fits eq_refl S2) as (i & i' & VI & -> & _ & BI & EI).
  rewrite !mul_R in R1. apply Fin_inj in R1. clear T1 T2 S S1 S2.
  assert (NZ : Rabs z' <= 2.1e-14 -> Rabs i' <= 8.5e-11).
  { intros H. rewrite R1, !Rabs_mult. pose proof (Rabs_pos z'). assert (Rabs S0 <= 2000) by (apply Rabs_le; lra). assert (Rabs c' <= 2) by (apply Rabs_le; lra). pose proof (Rabs_pos S0). pose proof (Rabs_pos c').
    apply Rle_trans with (2000 * 2.1e-14 * 2); [|lra]. apply Rmult_le_compat; try lra; [|apply Rmult_le_compat; lra]. apply Rmult_le_pos; lra. }
  rewrite R2, Q2. clear R2 Q2. rewrite up64, upR. cbn [bind]. rewrite (val_lt _ _ 0 z (val_int 0 ltac:(lia)) VZ).
  assert (V0 : val (flit 0.0) 0) by exact (val_int 0 ltac:(lia)).
  assert (L0 : lit (n := MathR) 0.0 = Fin 0) by (rx; unfold Q2R; simpl; f_equal; lra).
  apply Rabs_le_inv in EZ. unfold Rbool_lt. destruct (Rlt_dec 0 z') as [Z'|Z']; destruct (Rlt_bool_spec 0 z) as [Z|Z].
  - exists x2, i, i'. do 3 (split; [first [reflexivity|exact VI]|]). lra.
  - exists (flit 0.0), 0, i'. split; [reflexivity|]; split; [exact V0|]; split; [reflexivity|]. rewrite Rminus_0_l, Rabs_Ropp. apply Rle_trans with 8.5e-11; [apply NZ; apply Rabs_le; lra|lra].
  - exists x2, i, 0. split; [reflexivity|]. split; [exact VI|]. split; [now rewrite L0|].
    replace (i - 0) with ((i - i') + i') by ring. eapply Rle_trans; [apply Rabs_triang|]. assert (Rabs i' <= 8.5e-11); [|lra]. apply NZ, Rabs_le. lra.
  - exists (flit 0.0), 0, 0. split; [reflexivity|]. split; [exact V0|]. split; [now rewrite L0|]. rewrite Rminus_0_r, Rabs_R0. lra.
Qed.

Lemma year64 dt u : instant dt u -> in_range u = true ->
  exists qk qd k d d', mean_earth_sun_distance (N := N) dt = Ok qk /\ val qk k /\ Rabs (k - 1) <= 2.1e-16 /\ satv O_kd qk (Fin 1) /\
    declination_degree (N := N) dt (flit (inject_Z 365)) = Ok qd /\ val qd d /\ declination_degree (N := MathR) dt (Fin 365) = Ok (Fin d') /\ Rabs (d - d') <= 1e-13 /\ satv O_dg qd (Fin d').
Proof.
  intros Hi Hr. destruct (civil_clock_exists u) as (day & h & m & Hc). destruct (yday_bounds u day h m Hc) as (Y & Hh & Hm).
  destruct (transport L HL F_year F_year_rel [exact_in (366 * SC)] [flit (inject_Z day)] [Fin (IZR day)] _ ltac:(repeat constructor; apply int_sat; lia) year_ok) as (l1 & l2 & T1 & T2 & A).
  rewrite O_year_eq in A. inv3 A.
  assert (G : forall (K : Num) y k d, utc_yday (N := K) dt = Ok y -> F_year K [y] = Ok [k; d] ->
    mean_earth_sun_distance (N := K) dt = Ok k /\ declination_degree (N := K) dt (lit (n := K) 365) = Ok d).
  { intros K y0' k d U F. unfold F_year in F. binv F. apply Ok_inj in F. injection F as <- <-. unfold mean_earth_sun_distance, declination_degree.
    rewrite (instant_aware dt u Hi). cbn [bind]. rewrite U. cbn [bind]. rewrite E. cbn [bind]. rewrite E0. cbn [bind]. rewrite E1. cbn [bind]. rewrite E2. split; reflexivity. }
  destruct (G N _ _ _ (utc_yday64 dt u day h m Hi Hr Hc) T1) as (Q1 & Q2). destruct (G MathR _ _ _ (utc_yday_val dt u day h m Hi Hr Hc) T2) as (R1 & R2).
  rewrite (distance_constant dt u Hi Hr) in R1. apply Ok_inj in R1. subst.
  destruct (fits_nop _ _ _ _ _ _ _ O_kd_fits eq_refl S) as (k & k' & VK & E & _ & _ & EK). apply Fin_inj in E. subst k'.
  destruct (fits_nop _ _ _ _ _ _ _ O_dg_fits eq_refl S0) as (d & d' & VD & -> & _ & _ & ED).
  exists x, x0, k, d, d'. split; [exact Q1|]. split; [exact VK|]. split; [lra|]. split; [exact S|]. split; [exact Q2|]. split; [exact VD|].
  split; [|split; [lra|exact S0]]. assert (L0 : lit (n := MathR) 365 = Fin 365) by (rx; f_equal; unfold Q2R; simpl; lra). rewrite L0 in R2. exact R2.
Qed.

(* what is computed from an altitude and the distance *)
Lemma sky_vals e O O1 O2 O3 O4 O5 n1 n2 n4 n5 q a a' xt TL qk : F_sky2 AI [up_in e; exact_in (10 * SC); O_kd] = Ok O -> O = [O1; O2; O3; O4; O5] ->
  fits O1 NoPer (-3) 3 n1 100000000000 = true -> fits O2 NoPer (-3) 3 n2 100000000000 = true -> fits O3 NoPer (-500) 500 22 100000000000000 = true ->
  fits O4 NoPer (-45000) 45000 n4 100000000000 = true -> fits O5 NoPer 0 52000 n5 100000000000 = true ->
  val q a -> 0 <= a <= 90 -> 0 <= a' <= 90 -> Rabs (a - a') <= zr e -> val xt TL -> -10 <= TL <= 10 -> satv O_kd qk (Fin 1) ->
  exists q1 q2 q3 q4 q5 r1 r2 r3 r4 r5 r1' r2' r3' r4' r5', F_sky2 N [q; xt; qk] = Ok [q1; q2; q3; q4; q5] /\ F_sky2 MathR [Fin a'; Fin TL; Fin 1] = Ok [Fin r1'; Fin r2'; Fin r3'; Fin r4'; Fin r5'] /\
    val q1 r1 /\ val q2 r2 /\ val q3 r3 /\ val q4 r4 /\ val q5 r5 /\ Rabs (r1 - r1') <= IZR n1 / 100000000000 /\ Rabs (r2 - r2') <= IZR n2 / 100000000000 /\
    Rabs (r3 - r3') <= 2.2e-13 /\ Rabs (r4 - r4') <= IZR n4 / 100000000000 /\ Rabs (r5 - r5') <= IZR n5 / 100000000000.
Proof.
  intros F -> F1 F2 F3 F4 F5 V B B' D Vt Bt SK.
  assert (SA : satv (up_in e) q (Fin a')).
  { exists a, a', 0%Z. cbn [a_lo a_hi a_mag a_err a_per turn]. rewrite zr_0, zr_int. split; [exact V|]. split; [reflexivity|]. split; [lra|]. split; [rewrite Rabs_pos_eq; lra|].
    now replace (a - a' - 0 * 0) with (a - a') by ring. }
  destruct (transport L HL F_sky2 F_sky2_rel [up_in e; exact_in (10 * SC); O_kd] [q; xt; qk] [Fin a'; Fin TL; Fin 1] _ ltac:(repeat constructor; [exact SA|apply exact_sat; [exact Vt|apply Rabs_le; lra]|exact SK]) F) as (l1 & l2 & T1 & T2 & A).
  inv3 A.
  destruct (fits_nop _ _ _ _ _ _ _ F1 eq_refl S) as (r1 & r1' & V1 & -> & _ & _ & E1).
  destruct (fits_nop _ _ _ _ _ _ _ F2 eq_refl S0) as (r2 & r2' & V2 & -> & _ & _ & E2).
  destruct (fits_nop _ _ _ _ _ _ _ F3 eq_refl S1) as (r3 & r3' & V3 & -> & _ & _ & E3).
  destruct (fits_nop _ _ _ _ _ _ _ F4 eq_refl S2) as (r4 & r4' & V4 & -> & _ & _ & E4).
  destruct (fits_nop _ _ _ _ _ _ _ F5 eq_refl S3) as (r5 & r5' & V5 & -> & _ & _ & E5).
  exists x, x0, x1, x2, x3, r1, r2, r3, r4, r5, r1', r2', r3', r4', r5'. repeat (split; [assumption|]). split; [lra|]. split; assumption.
Qed.

Lemma direct_near64 dt u q a a' del xm AM xt TL : instant dt u -> in_range u = true -> val q a -> Rabs (a - a') <= del -> 0 <= del <= 1e-5 ->
  val xm AM -> val xt TL -> -5 <= AM <= 5 -> -5 <= TL <= 5 ->
  exists qk qd d' e p r, mean_earth_sun_distance (N := N) dt = Ok qk /\ declination_degree (N := N) dt (flit (inject_Z 365)) = Ok qd /\
    nexp (n := N) (mul (n := N) (mul (n := N) (mul (n := N) (lit (n := N) (-0.8662)) xm) xt) qd) = Ok e /\
    nsin (n := N) q = Ok (l_sin L q) /\ p = mul (n := N) (mul (n := N) (mul (n := N) (lit (n := N) 1367) qk) e) (l_sin L q) /\ val p r /\
    declination_degree (N := MathR) dt (Fin 365) = Ok (Fin d') /\
    Rabs (r - 1367 * exp (-0.8662 * AM * TL * d') * sin a') <= (1367 * del + 5e-9) * exp (-0.8662 * AM * TL * d').
Proof.
  intros Hi Hr V D Hd Vm Vt Bm Bt. destruct (year64 dt u Hi Hr) as (qk & qd & k & d & d' & K1 & VK & EK & SK & D1 & VD & D2 & ED & SD).
  destruct (transport L HL F_exp F_exp_rel [exact_in (5 * SC); exact_in (5 * SC); O_dg; O_kd] [xm; xt; qd; qk] [Fin AM; Fin TL; Fin d'; Fin 1] _
    ltac:(repeat constructor; [apply exact_sat; [exact Vm|apply Rabs_le; lra]|apply exact_sat; [exact Vt|apply Rabs_le; lra]|exact SD|exact SK]) exp_ok) as (l1 & l2 & T1 & T2 & A).
  rewrite O_expo_eq in A. inv3 A. unfold F_exp in T1, T2. apply Ok_inj in T1, T2.
  apply list2_inj in T1 as [T11 T12]. apply list2_inj in T2 as [T21 T22].
  rewrite lit_R, !mul_R in T21, T22.
  destruct (fits_nop _ _ _ _ _ _ _ O_w_fits eq_refl S) as (w & w' & VW & E & _ & BW & EW). rewrite E in T21.
  destruct (fits_nop _ _ _ _ _ _ _ O_k_fits eq_refl S0) as (kk & kk' & VKK & E' & _ & _ & EKK). rewrite E' in T22.
  apply Fin_inj in T21, T22.
  assert (W' : w' = -0.8662 * AM * TL * d') by (rewrite <- T21; unfold Q2R; simpl; lra).
  assert (KK : kk' = 1367) by (rewrite <- T22; unfold Q2R; simpl; lra).
  rewrite KK in EKK. clear S S0 SK SD.
  set (X := exp w'). assert (XP : 0 < X) by apply exp_pos.
  assert (EXW : exp w = X * exp (w - w')) by (unfold X; rewrite <- exp_plus; f_equal; ring).
  assert (ET : 1 - 2.5e-12 <= exp (w - w') <= 1 + 2.5e-12).
  { assert (BT : -2.4e-12 <= w - w' <= 2.4e-12) by (apply Rabs_le_inv in EW; lra). set (t := w - w') in *. clearbody t. split; interval with (i_prec 80). }
  assert (XB : exp (-510) <= X <= exp 510).
  { assert (M : forall s t, s <= t -> exp s <= exp t) by (intros s t [H| ->]; [left; now apply exp_increasing|lra]). split; apply M; lra. }
  assert (X0 : bpow radix2 (-1074) <= 1e-20 * X).
  { apply Rle_trans with (1e-20 * exp (-510)); [|lra]. rewrite bpow_small. interval. }
  assert (X1 : 2000 * X <= bpow radix2 1000).
  { apply Rle_trans with (2000 * exp 510); [lra|]. change (bpow radix2 1000) with (IZR (2 ^ 1000)). interval. }
  assert (P52 : bpow radix2 (-52) <= 2.3e-16) by (change (bpow radix2 (-52)) with (/ 4503599627370496); lra).
  assert (P53' : bpow radix2 (-53) <= 1.2e-16) by (change (bpow radix2 (-53)) with (/ 9007199254740992); lra).
  pose proof (bpow_ge_0 radix2 (-52)) as P52p. pose proof (bpow_ge_0 radix2 (-53)) as P53p. pose proof (bpow_ge_0 radix2 (-1074)) as P74p.
  set (b52 := bpow radix2 (-52)) in *. set (b53 := bpow radix2 (-53)) in *. set (b74 := bpow radix2 (-1074)) in *. 
  assert (EB : exp w <= 1.1 * X) by (rewrite EXW; nra).
  pose proof (ac_exp L HL _ _ VW ltac:(lra)) as CE. pose proof (math1_close OverflowError _ _ _ CE) as RE. destruct CE as (v & VV & EV). fold b52 b74 in EV.
  assert (EV' : Rabs (v - X) <= 2.6e-12 * X).
  { replace (v - X) with ((v - exp w) + (exp w - X)) by ring. eapply Rle_trans; [apply Rabs_triang|]. rewrite (Rabs_pos_eq (exp w)) in EV by (left; apply exp_pos).
    assert (exp w * b52 <= 1.1 * X * 2.3e-16) by (apply Rmult_le_compat; try lra; left; apply exp_pos).
    assert (Rabs (exp w - X) <= 2.5e-12 * X) by (rewrite EXW; apply Rabs_le; nra). lra. }
  clear EV EB EXW ET.
  pose proof (ac_sin L HL _ _ V) as CS. pose proof (math1_close ValueError _ _ _ CS) as RS. destruct CS as (s & VS & ES). fold b52 b74 in ES.
  assert (SB : Rabs (sin a) <= 1) by (apply Rabs_le; pose proof (SIN_bound a); lra).
  assert (X2 : b74 <= 1e-17). { unfold b74. rewrite bpow_small. interval. }
  assert (ES' : Rabs (s - sin a') <= del + 3e-16).
  { replace (s - sin a') with ((s - sin a) + (sin a - sin a')) by ring. eapply Rle_trans; [apply Rabs_triang|]. pose proof (sin_lip a a'). assert (Rabs (sin a) * b52 <= 1 * 2.3e-16) by (apply Rmult_le_compat; try lra; apply Rabs_pos). lra. }
  assert (SB' : Rabs (sin a') <= 1) by (apply Rabs_le; pose proof (SIN_bound a'); lra).
  assert (S1 : Rabs s <= 1.1). { replace s with (sin a' + (s - sin a')) by ring. eapply Rle_trans; [apply Rabs_triang|]. lra. }
  clear ES SB. set (S := sin a') in *. clearbody S.
  assert (VB : Rabs v <= 1.1 * X). { replace v with (X + (v - X)) by ring. eapply Rle_trans; [apply Rabs_triang|]. rewrite (Rabs_pos_eq X) by lra. lra. }
  assert (KB : Rabs kk <= 1368). { replace kk with (1367 + (kk - 1367)) by ring. eapply Rle_trans; [apply Rabs_triang|]. rewrite (Rabs_pos_eq 1367) by lra. lra. }
  assert (B1 : Rabs (kk * v) <= 1505 * X).
  { rewrite Rabs_mult. apply Rle_trans with (1368 * (1.1 * X)); [apply Rmult_le_compat; try lra; apply Rabs_pos|lra]. }
  pose proof (val_mul _ _ _ _ VKK VV ltac:(lra)) as VP. pose proof (rnd_rel (kk * v)) as RP. fold b53 b74 in RP. set (p1 := rnd (kk * v)) in *. clearbody p1.
  assert (E1 : Rabs (p1 - 1367 * X) <= 3.7e-9 * X).
  { replace (p1 - 1367 * X) with ((p1 - kk * v) + (kk * (v - X) + (kk - 1367) * X)) by ring. eapply Rle_trans; [apply Rabs_triang|].
    pose proof (Rabs_triang (kk * (v - X)) ((kk - 1367) * X)) as TR. rewrite !Rabs_mult in TR. rewrite (Rabs_pos_eq X) in TR by lra.
    assert (Rabs kk * Rabs (v - X) <= 1368 * (2.6e-12 * X)) by (apply Rmult_le_compat; try lra; apply Rabs_pos).
    assert (Rabs (kk - 1367) * X <= 5e-13 * X) by (apply Rmult_le_compat_r; lra).
    assert (Rabs (kk * v) * b53 <= 1505 * X * 1.2e-16) by (apply Rmult_le_compat; try lra; apply Rabs_pos). lra. }
  assert (PB : Rabs p1 <= 1368 * X). { replace p1 with (1367 * X + (p1 - 1367 * X)) by ring. eapply Rle_trans; [apply Rabs_triang|]. rewrite (Rabs_pos_eq (1367 * X)) by lra. lra. }
  assert (B2 : Rabs (p1 * s) <= 1505 * X).
  { rewrite Rabs_mult. apply Rle_trans with (1368 * X * 1.1); [apply Rmult_le_compat; try lra; apply Rabs_pos|lra]. }
  pose proof (val_mul _ _ _ _ VP VS ltac:(lra)) as VR. pose proof (rnd_rel (p1 * s)) as RR. fold b53 b74 in RR. set (r := rnd (p1 * s)) in *. clearbody r.
  exists qk, qd, d', (l_exp L x), (Bmult mode_NE (Bmult mode_NE x0 (l_exp L x)) (l_sin L q)), r.
  split; [exact K1|]. split; [exact D1|]. split; [subst x; exact RE|]. split; [exact RS|]. split; [subst x0; reflexivity|]. split; [exact VR|]. split; [exact D2|]. rewrite <- W'. fold X.
  replace (r - 1367 * X * S) with ((r - p1 * s) + ((p1 - 1367 * X) * s + 1367 * X * (s - S))) by ring. eapply Rle_trans; [apply Rabs_triang|].
  pose proof (Rabs_triang ((p1 - 1367 * X) * s) (1367 * X * (s - S))) as TR. rewrite !(Rabs_mult _ s), (Rabs_mult (1367 * X)), (Rabs_pos_eq (1367 * X)) in TR by lra.
  assert (Rabs (p1 - 1367 * X) * Rabs s <= 3.7e-9 * X * 1.1) by (apply Rmult_le_compat; try lra; apply Rabs_pos).
  assert (1367 * X * Rabs (s - S) <= 1367 * X * (del + 3e-16)) by (apply Rmult_le_compat_l; lra).
  assert (Rabs (p1 * s) * b53 <= 1505 * X * 1.2e-16) by (apply Rmult_le_compat; try lra; apply Rabs_pos).
  rewrite (Rabs_mult p1 s) in *. lra.
Qed.

Lemma sky_full q a a' xt TL qk : val q a -> 0 <= a <= 90 -> 0 <= a' <= 90 -> Rabs (a - a') <= 2.8e-6 -> val xt TL -> -10 <= TL <= 10 -> satv O_kd qk (Fin 1) ->
  exists q1 q2 q3 q4 q5 r1 r2 r3 r4 r5 r1' r2' r3' r4' r5', F_sky2 N [q; xt; qk] = Ok [q1; q2; q3; q4; q5] /\ F_sky2 MathR [Fin a'; Fin TL; Fin 1] = Ok [Fin r1'; Fin r2'; Fin r3'; Fin r4'; Fin r5'] /\
    val q1 r1 /\ val q2 r2 /\ val q3 r3 /\ val q4 r4 /\ val q5 r5 /\ Rabs (r1 - r1') <= 601000 / 100000000000 /\ Rabs (r2 - r2') <= 283000 / 100000000000 /\
    Rabs (r3 - r3') <= 2.2e-13 /\ Rabs (r4 - r4') <= 138000000 / 100000000000 /\ Rabs (r5 - r5') <= 161000000 / 100000000000.
Proof.
  intros V B B' D Vt Bt SK. apply (sky_vals E_full _ _ _ _ _ _ 601000 283000 138000000 161000000 q a a' xt TL qk sky_full_ok O_sky_full_eq); try assumption; try (vm_compute; reflexivity).
  eapply Rle_trans; [exact D|]. apply Rle_trans with (IZR 28 / 10000000); [lra|]. unfold zr. apply Rmult_le_reg_r with (IZR SC * 10000000); [pose proof SC_pos; lra|].
  replace (IZR 28 / 10000000 * (IZR SC * 10000000)) with (IZR (28 * SC)) by (rewrite mult_IZR; field). replace (IZR E_full / IZR SC * (IZR SC * 10000000)) with (IZR (E_full * 10000000)) by (rewrite mult_IZR; field; pose proof SC_pos; lra).
  apply IZR_le. vm_compute. discriminate.
Qed.
Lemma sky_mod q a a' xt TL qk : val q a -> 0 <= a <= 90 -> 0 <= a' <= 90 -> Rabs (a - a') <= 4.6e-7 -> val xt TL -> -10 <= TL <= 10 -> satv O_kd qk (Fin 1) ->
  exists q1 q2 q3 q4 q5 r1 r2 r3 r4 r5 r1' r2' r3' r4' r5', F_sky2 N [q; xt; qk] = Ok [q1; q2; q3; q4; q5] /\ F_sky2 MathR [Fin a'; Fin TL; Fin 1] = Ok [Fin r1'; Fin r2'; Fin r3'; Fin r4'; Fin r5'] /\
    val q1 r1 /\ val q2 r2 /\ val q3 r3 /\ val q4 r4 /\ val q5 r5 /\ Rabs (r1 - r1') <= 99000 / 100000000000 /\ Rabs (r2 - r2') <= 47000 / 100000000000 /\
    Rabs (r3 - r3') <= 2.2e-13 /\ Rabs (r4 - r4') <= 23000000 / 100000000000 /\ Rabs (r5 - r5') <= 27000000 / 100000000000.
Proof.
  intros V B B' D Vt Bt SK. apply (sky_vals E_mod _ _ _ _ _ _ 99000 47000 23000000 27000000 q a a' xt TL qk sky_mod_ok O_sky_mod_eq); try assumption; try (vm_compute; reflexivity).
  eapply Rle_trans; [exact D|]. apply Rle_trans with (IZR 46 / 100000000); [lra|]. unfold zr. apply Rmult_le_reg_r with (IZR SC * 100000000); [pose proof SC_pos; lra|].
  replace (IZR 46 / 100000000 * (IZR SC * 100000000)) with (IZR (46 * SC)) by (rewrite mult_IZR; field). replace (IZR E_mod / IZR SC * (IZR SC * 100000000)) with (IZR (E_mod * 100000000)) by (rewrite mult_IZR; field; pose proof SC_pos; lra).
  apply IZR_le. vm_compute. discriminate.
Qed.

Lemma list5_inj {A} (a b c d e a' b' c' d' e' : A) : [a; b; c; d; e] = [a'; b'; c'; d'; e'] -> a = a' /\ b = b' /\ c = c' /\ d = d' /\ e = e'. Proof. intros [= -> -> -> -> ->]. auto. Qed.
Lemma sky_assemble (K : Num) dt lat lon el T P TL q k q1 q2 q3 q4 q5 : aware dt = Ok tt -> get_altitude (N := K) lat lon dt el T P = Ok q -> mean_earth_sun_distance (N := K) dt = Ok k ->
  F_sky2 K [q; TL; k] = Ok [q1; q2; q3; q4; q5] ->
  solarelevation_function_clear (N := K) lat lon dt T P el = Ok q1 /\ solarelevation_function_overcast (N := K) lat lon dt el T P = Ok q2 /\
  diffuse_transmittance (N := K) TL = q3 /\ diffuse_underclear (N := K) lat lon dt el T P TL = Ok q4 /\ diffuse_underovercast (N := K) lat lon dt el T P TL = Ok q4 /\
  global_irradiance_overcast (N := K) lat lon dt el T P = Ok q5.
Proof.
  intros A Q D F. unfold F_sky2 in F. binv F. cbv zeta in F. apply Ok_inj, list5_inj in F as (<- & <- & <- & <- & <-).
  unfold solarelevation_function_clear, solarelevation_function_overcast, diffuse_transmittance, diffuse_underclear, diffuse_underovercast, global_irradiance_overcast.
  rewrite A. cbn [bind]. rewrite Q, D. cbn [bind]. rewrite E. cbn [bind]. rewrite E0. repeat split; reflexivity.
Qed.
Lemma distance_sat dt u : instant dt u -> in_range u = true -> exists qk, mean_earth_sun_distance (N := N) dt = Ok qk /\ satv O_kd qk (Fin 1).
Proof. intros Hi Hr. destruct (year64 dt u Hi Hr) as (qk & _ & _ & _ & _ & K & _ & _ & S & _). now exists qk. Qed.

Local Notation sky_near := (sky_functions_near L).

Lemma sky64 lat lon el x xo xe dt u xT T xP P xt TL dec ha E : instant dt u -> in_range u = true ->
  val x lat -> val xo lon -> val xe el -> -90 <= lat <= 90 -> -360 <= lon <= 360 -> -100000 <= el <= 100000 ->
  val xT T -> val xP P -> 180 <= T <= 340 -> 0 <= P <= 110000 -> val xt TL -> -10 <= TL <= 10 ->
  get_topocentric_position (N := MathR) (Fin lat) (Fin lon) dt (Fin el) = Ok (Fin dec, Fin ha) ->
  get_topocentric_elevation_angle (N := MathR) (Fin lat) (Fin dec) (Fin ha) = Ok (Fin E) -> 0.00001 <= E <= 89 ->
  sky_near lat lon el x xo xe dt xT xP xt T P TL 6.01e-6 2.83e-6 1.38e-3 1.61e-3 /\
  ((midnight 1834 1 1 <= u < midnight 2106 1 1)%Z -> sky_near lat lon el x xo xe dt xT xP xt T P TL 9.9e-7 4.7e-7 2.3e-4 2.7e-4) /\
  near 2.2e-13 (Ok (diffuse_transmittance (N := N) xt)) (Ok (diffuse_transmittance (N := MathR) (Fin TL))).
Proof.
  intros Hi Hr Vx Vo Ve Hlat Hlon Hel VT VP HT HP Vt Bt E1 E2 HE.
  assert (W : ~ (-5.21 < E < -4.99)) by lra. assert (G : 1e-5 <= Rabs (E + 0.83337)) by (rewrite Rabs_pos_eq; lra).
  assert (A89 : Rabs E <= 89) by (rewrite Rabs_pos_eq; lra).
  destruct (altitude_accuracy64 L HL lat lon el x xo xe dt u xT T xP P dec ha E Hi Hr Vx Vo Ve Hlat Hlon Hel VT VP HT HP E1 E2 W G)
    as [(q & a & a' & Q1 & V & Q2 & _ & B1 & B2)|(_ & N0)]; [|rewrite Rabs_pos_eq in N0; lra].
  specialize (B1 A89). specialize (B2 A89).
  assert (HA : a' = E + refraction_formula P T E).
  { unfold get_altitude in Q2. rewrite (instant_aware dt u Hi), bind_Ok, E1, bind_Ok, E2, bind_Ok, refraction_above, bind_Ok, add_R in Q2 by lra.
    now apply Ok_inj, Fin_inj in Q2. }
  pose proof (apparent_up P T E HP HT ltac:(lra)) as UP. rewrite <- HA in UP. pose proof (Rabs_le_inv _ _ B1) as BB.
  destruct (distance_sat dt u Hi Hr) as (qk & K1 & SK). pose proof (distance_constant dt u Hi Hr) as K2. pose proof (instant_aware dt u Hi) as AW.
  assert (FIN : forall q1 q2 q3 q4 q5 r1 r2 r3 r4 r5 r1' r2' r3' r4' r5' c1 c2 c4 c5,
    F_sky2 N [q; xt; qk] = Ok [q1; q2; q3; q4; q5] -> F_sky2 MathR [Fin a'; Fin TL; Fin 1] = Ok [Fin r1'; Fin r2'; Fin r3'; Fin r4'; Fin r5'] ->
    val q1 r1 -> val q2 r2 -> val q3 r3 -> val q4 r4 -> val q5 r5 -> Rabs (r1 - r1') <= c1 -> Rabs (r2 - r2') <= c2 ->
    Rabs (r3 - r3') <= 2.2e-13 -> Rabs (r4 - r4') <= c4 -> Rabs (r5 - r5') <= c5 ->
    sky_near lat lon el x xo xe dt xT xP xt T P TL c1 c2 c4 c5 /\ near 2.2e-13 (Ok (diffuse_transmittance (N := N) xt)) (Ok (diffuse_transmittance (N := MathR) (Fin TL)))).
  { intros q1 q2 q3 q4 q5 r1 r2 r3 r4 r5 r1' r2' r3' r4' r5' c1 c2 c4 c5 F F' W1 W2 W3 W4 W5 D1 D2 D3 D4 D5.
    destruct (sky_assemble N dt _ _ _ _ _ _ _ _ _ _ _ _ _ AW Q1 K1 F) as (G1 & G2 & G3 & G4 & G5 & G6).
    destruct (sky_assemble MathR dt _ _ _ _ _ _ _ _ _ _ _ _ _ AW Q2 K2 F') as (H1 & H2 & H3 & H4 & H5 & H6).
    unfold sky_near. rewrite G1, G2, G3, G4, G5, G6, H1, H2, H3, H4, H5, H6. 
    repeat apply conj; [exists q1, r1, r1'|exists q2, r2, r2'|exists q4, r4, r4'|exists q4, r4, r4'|exists q5, r5, r5'|exists q3, r3, r3'];
      (split; [reflexivity|split; [assumption|split; [reflexivity|assumption]]]). }
  destruct (sky_full q a a' xt TL qk V ltac:(lra) ltac:(lra) B1 Vt Bt SK) as (q1 & q2 & q3 & q4 & q5 & r1 & r2 & r3 & r4 & r5 & r1' & r2' & r3' & r4' & r5' & F & F' & W1 & W2 & W3 & W4 & W5 & D1 & D2 & D3 & D4 & D5).
  destruct (FIN _ _ _ _ _ _ _ _ _ _ _ _ _ _ _ 6.01e-6 2.83e-6 1.38e-3 1.61e-3 F F' W1 W2 W3 W4 W5) as (R1 & R2); try lra.
  split; [exact R1|]. split; [|exact R2]. intros M. clear F F' W1 W2 W3 W4 W5 D1 D2 D3 D4 D5 R1 R2 q1 q2 q3 q4 q5 r1 r2 r3 r4 r5 r1' r2' r3' r4' r5'.
  destruct (sky_mod q a a' xt TL qk V ltac:(lra) ltac:(lra) (B2 M) Vt Bt SK) as (q1 & q2 & q3 & q4 & q5 & r1 & r2 & r3 & r4 & r5 & r1' & r2' & r3' & r4' & r5' & F & F' & W1 & W2 & W3 & W4 & W5 & D1 & D2 & D3 & D4 & D5).
  destruct (FIN _ _ _ _ _ _ _ _ _ _ _ _ _ _ _ 9.9e-7 4.7e-7 2.3e-4 2.7e-4 F F' W1 W2 W3 W4 W5) as (R1 & R2); try lra.
  exact R1.
Qed.

Lemma direct64 lat lon el x xo xe dt u xT T xP P xm AM xt TL dec ha E : instant dt u -> in_range u = true ->
  val x lat -> val xo lon -> val xe el -> -90 <= lat <= 90 -> -360 <= lon <= 360 -> -100000 <= el <= 100000 ->
  val xT T -> val xP P -> 180 <= T <= 340 -> 0 <= P <= 110000 -> val xm AM -> -5 <= AM <= 5 -> val xt TL -> -5 <= TL <= 5 ->
  get_topocentric_position (N := MathR) (Fin lat) (Fin lon) dt (Fin el) = Ok (Fin dec, Fin ha) ->
  get_topocentric_elevation_angle (N := MathR) (Fin lat) (Fin dec) (Fin ha) = Ok (Fin E) -> 0.00001 <= E <= 89 ->
  exists d', declination_degree (N := MathR) dt TY_default = Ok (Fin d') /\
    near 1e-13 (declination_degree (N := N) dt TY_default) (declination_degree (N := MathR) dt TY_default) /\
    near (3.83e-3 * exp (-0.8662 * AM * TL * d')) (direct_underclear (N := N) x xo dt TY_default xm xt xe xT xP)
      (direct_underclear (N := MathR) (Fin lat) (Fin lon) dt TY_default (Fin AM) (Fin TL) (Fin el) (Fin T) (Fin P)) /\
    ((midnight 1834 1 1 <= u < midnight 2106 1 1)%Z ->
     near (6.3e-4 * exp (-0.8662 * AM * TL * d')) (direct_underclear (N := N) x xo dt TY_default xm xt xe xT xP)
      (direct_underclear (N := MathR) (Fin lat) (Fin lon) dt TY_default (Fin AM) (Fin TL) (Fin el) (Fin T) (Fin P))).
Proof.
  intros Hi Hr Vx Vo Ve Hlat Hlon Hel VT VP HT HP Vm Bm Vt Bt E1 E2 HE.
  assert (W : ~ (-5.21 < E < -4.99)) by lra. assert (G : 1e-5 <= Rabs (E + 0.83337)) by (rewrite Rabs_pos_eq; lra).
  assert (A89 : Rabs E <= 89) by (rewrite Rabs_pos_eq; lra).
  destruct (altitude_accuracy64 L HL lat lon el x xo xe dt u xT T xP P dec ha E Hi Hr Vx Vo Ve Hlat Hlon Hel VT VP HT HP E1 E2 W G)
    as [(q & a & a' & Q1 & V & Q2 & _ & B1 & B2)|(_ & N0)]; [|rewrite Rabs_pos_eq in N0; lra].
  specialize (B1 A89). specialize (B2 A89). pose proof (instant_aware dt u Hi) as AW.
  assert (TY : TY_default (N := MathR) = Fin 365) by (unfold TY_default; rewrite lit_R; f_equal; unfold Q2R; simpl; lra).
  destruct (year64 dt u Hi Hr) as (_ & qd & _ & d & d' & _ & _ & _ & _ & D1 & VD & D2 & ED & SD).
  destruct (fits_nop _ _ _ _ _ _ _ O_dg_fits eq_refl SD) as (? & ? & _ & FE & _ & BD & _). apply Fin_inj in FE. subst x1.
  rewrite TY. exists d'. split; [exact D2|]. split; [exists qd, d, d'; split; [exact D1|split; [exact VD|split; [exact D2|exact ED]]]|].
  assert (R : direct_underclear (N := MathR) (Fin lat) (Fin lon) dt (Fin 365) (Fin AM) (Fin TL) (Fin el) (Fin T) (Fin P) = Ok (Fin (1367 * exp (-0.8662 * AM * TL * d') * sin a'))).
  { unfold direct_underclear. rewrite AW, bind_Ok, (distance_constant dt u Hi Hr), bind_Ok, D2, bind_Ok, !lit_R, !mul_R, nexp_R, bind_Ok, Q2, bind_Ok, nsin_R, bind_Ok, !mul_R.
    replace (Q2R (-0.8662)) with (-0.8662) by (unfold Q2R; simpl; lra). replace (Q2R 1367) with 1367 by (unfold Q2R; simpl; lra). now rewrite Rmult_1_r.
    replace (Q2R (-0.8662)) with (-0.8662) by (unfold Q2R; simpl; lra).
    set (w := -0.8662 * AM * TL * d'). assert (BW : w <= 520). { unfold w. assert (Rabs (AM * TL * d') <= 5 * 5 * 24) by (rewrite !Rabs_mult; apply Rmult_le_compat; try (apply Rmult_le_pos); try apply Rabs_pos; [apply Rmult_le_compat; try apply Rabs_pos|]; apply Rabs_le; lra). apply Rabs_le_inv in H. lra. }
    apply Rle_lt_trans with (exp 520); [destruct BW as [H| ->]; [left; now apply exp_increasing|lra]|]. unfold float_overflow. interval. }
  rewrite R. clear R.
  assert (FIN : forall del, Rabs (a - a') <= del -> 0 <= del <= 1e-5 -> near ((1367 * del + 5e-9) * exp (-0.8662 * AM * TL * d')) (direct_underclear (N := N) x xo dt TY_default xm xt xe xT xP) (Ok (Fin (1367 * exp (-0.8662 * AM * TL * d') * sin a')))).
  { intros del DD BDl. destruct (direct_near64 dt u q a a' del xm AM xt TL Hi Hr V DD BDl Vm Vt Bm Bt) as (qk & qd2 & d2 & e & p & r & K1 & K2 & K3 & K4 & K5 & K6 & K7 & K8).
    rewrite D2 in K7. apply Ok_inj, Fin_inj in K7. subst d2. exists p, r, (1367 * exp (-0.8662 * AM * TL * d') * sin a'). split; [|split; [exact K6|split; [reflexivity|exact K8]]].
    unfold direct_underclear. rewrite AW, bind_Ok, K1, bind_Ok. change (TY_default (N := N)) with (flit (inject_Z 365)). rewrite K2, bind_Ok, K3, bind_Ok, Q1, bind_Ok, K4, bind_Ok. now rewrite K5. }
  assert (MON : forall c1 c2 r r', c1 <= c2 -> near (c1 * exp (-0.8662 * AM * TL * d')) r r' -> near (c2 * exp (-0.8662 * AM * TL * d')) r r').
  { intros c1 c2 r r' C (q0 & v & v' & X1 & X2 & X3 & X4). exists q0, v, v'. split; [exact X1|]. split; [exact X2|]. split; [exact X3|]. eapply Rle_trans; [exact X4|]. apply Rmult_le_compat_r; [left; apply exp_pos|exact C]. }
  split; [apply (MON (1367 * 2.8e-6 + 5e-9)); [lra|]; apply FIN; lra|]. intros M. apply (MON (1367 * 4.6e-7 + 5e-9)); [lra|]. apply FIN; [now apply B2|lra].
Qed.

(* the sun high enough for an irradiance of 1 W/m2 *)
Lemma clear_index64 g lat lon xg x xo dt u : instant dt u -> in_range u = true -> val xg g -> val x lat -> val xo lon -> -2000 <= g <= 2000 -> -90 <= lat <= 90 -> -360 <= lon <= 360 ->
  forall r', extraterrestrial_irrad (N := MathR) (C := clock_math MathR) (fun d => d) (Fin lat) (Fin lon) dt SC_default = Ok (Fin r') -> 1 <= r' ->
  near 2.9e-7 (clear_index (N := N) (C := clock_math N) (fun d => d) xg x xo dt) (clear_index (N := MathR) (C := clock_math MathR) (fun d => d) (Fin g) (Fin lat) (Fin lon) dt).
Proof.
  intros Hi Hr Vg V Vo Bg B Bo r' R H.
  assert (TY : SC_default (N := MathR) = Fin 1367) by (unfold SC_default; rewrite lit_R; f_equal; unfold Q2R; simpl; lra).
  assert (VS : val (SC_default (N := N)) 1367).
  { unfold SC_default. change (lit (n := N) 1367.0) with (flit 1367.0). assert (EQ : Q2R 1367.0 = IZR 1367) by (unfold Q2R; simpl; lra).
    rewrite <- (rnd_int 1367) by lia. rewrite <- EQ. apply val_lit. rewrite EQ, Rabs_pos_eq by lra. apply Rle_trans with (bpow radix2 11); [change (bpow radix2 11) with 2048; lra|now apply bpow_le]. }
  destruct (extraterrestrial64 lat lon 1367 x xo _ dt u Hi Hr V Vo VS B Bo ltac:(lra)) as (q & r & r2 & Q1 & Q2 & Q3 & Q4).
  rewrite <- TY, R in Q3. apply Ok_inj, Fin_inj in Q3. subst r2. apply Rabs_le_inv in Q4.
  assert (NZ : r <> 0) by lra.
  assert (GR : Rabs (g / r) <= 2001).
  { unfold Rdiv. rewrite Rabs_mult, Rabs_inv, (Rabs_pos_eq r) by lra. apply Rmult_le_reg_r with r; [lra|]. rewrite Rmult_assoc, Rinv_l, Rmult_1_r by exact NZ. assert (Rabs g <= 2000) by (apply Rabs_le; lra). lra. }
  assert (BIG1 : 2001 <= bpow radix2 1000) by (apply Rle_trans with (bpow radix2 11); [change (bpow radix2 11) with 2048; lra|now apply bpow_le]).
  pose proof (val_div _ _ _ _ Vg Q2 NZ ltac:(lra)) as VD. pose proof (rnd_rel (g / r)) as RD.
  exists (Bdiv mode_NE xg q), (rnd (g / r)), (g / r').
  split. { unfold clear_index. rewrite (instant_aware dt u Hi), bind_Ok, Q1, bind_Ok. cbn [div B64]. rewrite (val_nz q r Q2) by exact NZ. reflexivity. }
  split; [exact VD|]. split. { unfold clear_index. rewrite (instant_aware dt u Hi), bind_Ok, R, bind_Ok. apply div_R. lra. }
  replace (rnd (g / r) - g / r') with ((rnd (g / r) - g / r) + g * ((r' - r) / (r * r'))) by (field; lra). eapply Rle_trans; [apply Rabs_triang|].
  assert (T1 : Rabs (g * ((r' - r) / (r * r'))) <= 2.85e-7).
  { rewrite Rabs_mult. unfold Rdiv. rewrite Rabs_mult, Rabs_inv. assert (Rabs g <= 2000) by (apply Rabs_le; lra). assert (Rabs (r' - r) <= 1.4e-10) by (apply Rabs_le; lra).
    assert (0.99 <= r * r') by nra. rewrite (Rabs_pos_eq (r * r')) by lra. assert (0 <= / (r * r') <= / 0.99) by (split; [left; apply Rinv_0_lt_compat; lra|apply Rinv_le_contravar; lra]).
    apply Rle_trans with (2000 * (1.4e-10 * / 0.99)); [|lra]. pose proof (Rabs_pos g). pose proof (Rabs_pos (r' - r)). apply Rmult_le_compat; try lra; [apply Rmult_le_pos; lra|]. apply Rmult_le_compat; lra. }
  assert (P53' : bpow radix2 (-53) <= 1.2e-16) by (change (bpow radix2 (-53)) with (/ 9007199254740992); lra).
  assert (X2 : bpow radix2 (-1074) <= 1e-17) by (rewrite bpow_small; interval).
  assert (Rabs (g / r) * bpow radix2 (-53) <= 2001 * 1.2e-16) by (apply Rmult_le_compat; try lra; [apply Rabs_pos|apply bpow_ge_0]). lra.
Qed.
End L.

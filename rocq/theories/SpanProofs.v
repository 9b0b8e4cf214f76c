(* simulate_span over the real model: which horizons are long enough (C42, C43). *)
From Coq Require Import Reals Qreals Lra Lia Psatz.
From Flocq Require Import Core.
From Interval Require Import Tactic.
From Verif Require Import Py Num Cal CalProofs TzCheck Clock Tables Constants SolarTime Solar Radiation Simulate RInst RTac
  SpecTime SpecDt SpecEng SolarTimeProofs JulianProofs GenProofs SimulateProofs SpecGeom SpecAstro Trig GeoProofs RefractionProofs SphereProofs
  SeriesProofs PositionProofs FastProofs RadiationProofs.
Local Open Scope R_scope.

(* ---------------------------------------------------------------- no IndexError but from the horizon *)
Definition noidx {A} (r : res A) : Prop := r <> Err IndexError.

Lemma noidx_Ok {A} (a : A) : noidx (Ok a). Proof. discriminate. Qed.
Lemma noidx_bind {A B} (r : res A) (f : A -> res B) : noidx r -> (forall a, noidx (f a)) -> noidx (bind r f).
Proof. intros H1 H2. destruct r as [a|e]; cbn [bind]; [apply H2|]. intros [= ->]. now apply H1. Qed.
Lemma noidx_Err {A B} e : noidx (@Err A e) -> noidx (@Err B e).
Proof. intros H [= ->]. now apply H. Qed.
Lemma noidx_rmap {A B} (f : A -> B) (r : res A) : noidx r -> noidx (rmap f r).
Proof. intros H. apply noidx_bind; [assumption|]. intros. apply noidx_Ok. Qed.
Lemma noidx_div a b : noidx (@div MathR a b).
Proof. cbn. unfold xdiv_py. destruct (xis_zero b); discriminate. Qed.
Lemma noidx_fmod a b : noidx (@fmod MathR a b).
Proof. cbn. unfold xfmod_py. destruct (xis_zero b); discriminate. Qed.
Lemma noidx_sin a : noidx (@nsin MathR a). Proof. destruct a; discriminate. Qed.
Lemma noidx_cos a : noidx (@ncos MathR a). Proof. destruct a; discriminate. Qed.
Lemma noidx_tan a : noidx (@ntan MathR a). Proof. destruct a; discriminate. Qed.
Lemma noidx_atan a : noidx (@natan MathR a). Proof. destruct a; discriminate. Qed.
Lemma noidx_atan2 a b : noidx (@natan2 MathR a b). Proof. discriminate. Qed.
Lemma noidx_powi a b : noidx (@powi MathR a b). Proof. discriminate. Qed.
Lemma noidx_asin a : noidx (@nasin MathR a).
Proof. destruct a; try discriminate. cbn. destruct (asin_ok r); discriminate. Qed.
Lemma noidx_exp a : noidx (@nexp MathR a).
Proof. destruct a; try discriminate. cbn. destruct (Rbool_lt _ _); discriminate. Qed.
Lemma noidx_round a : noidx (@round_int MathR a). Proof. destruct a; discriminate. Qed.
Lemma noidx_truth a : noidx (@truth MathR a). Proof. discriminate. Qed.
Lemma noidx_aware d : noidx (aware d). Proof. unfold aware. destruct (dt_tz d); discriminate. Qed.

Create HintDb noidx.
Global Hint Resolve noidx_Ok noidx_div noidx_fmod noidx_sin noidx_cos noidx_tan noidx_atan noidx_atan2 noidx_powi noidx_asin noidx_exp
  noidx_round noidx_truth noidx_aware : noidx.
Ltac noidx := cbv zeta; repeat match goal with
  | |- noidx (bind _ _) => apply noidx_bind; [|intros]
  | |- noidx (rmap _ _) => apply noidx_rmap
  | |- noidx (let '(_, _) := ?x in _) => destruct x
  | |- noidx (Ok _) => apply noidx_Ok
  end; auto with noidx.

Lemma noidx_utcoffset d : noidx (utcoffset d).
Proof. unfold utcoffset. destruct (dt_tz d); [|discriminate]. destruct (tz_utcoffset _ _ _); [|discriminate]. destruct (_ <? _)%Z; discriminate. Qed.
Lemma utctimetuple_cases d : (exists u, in_range u = true /\ utctimetuple d = Ok (fields_of_us u)) \/
  (noidx (utctimetuple d) /\ forall f, utctimetuple d <> Ok f).
Proof.
  unfold utctimetuple. pose proof (noidx_utcoffset d) as H. destruct (utcoffset d) as [o|e]; cbn [bind].
  - cbv zeta. destruct (in_range _) eqn:E; [left; eauto|right; split; [discriminate|discriminate]].
  - right. split; [exact (noidx_Err e H)|discriminate].
Qed.

Definition utc_tz : tzinfo := {| tz_id := 0; tz_utcoffset := fun _ _ => Some 0%Z |}.
Definition at_utc (u : Z) : datetime := mkdt u false (Some utc_tz).
Lemma at_utc_instant u : instant (at_utc u) u.
Proof. exists utc_tz, 0%Z. cbn. repeat split; unfold us_per_day; lia. Qed.

Lemma noidx_leap d : noidx (get_leap_seconds d).
Proof.
  unfold get_leap_seconds, get_leap_seconds_w. apply noidx_rmap, noidx_bind; [apply noidx_aware|]. intros _.
  destruct (utctimetuple_cases d) as [(u & Hr & ->)|[H K]].
  - cbn [bind]. change (noidx (leap_at (f_year (fields_of_us u)) (f_mon (fields_of_us u)))).
    rewrite leap_at_spec by apply fields_mon_range. discriminate.
  - destruct (utctimetuple d); [now destruct (K a)|exact (noidx_Err e H)].
Qed.
Lemma noidx_delta_t_q d : noidx (get_delta_t_q d).
Proof.
  destruct (utctimetuple_cases d) as [(u & Hr & E)|[H K]].
  - unfold get_delta_t_q. apply noidx_bind; [apply noidx_aware|]. intros _. rewrite E.
    destruct (delta_t_total (at_utc u) u (at_utc_instant u) Hr) as (q & D & _).
    unfold get_delta_t_q in D. rewrite (instant_utctimetuple _ _ (at_utc_instant u)), Hr in D. cbn [at_utc aware dt_tz bind] in D.
    cbn [bind]. rewrite D. discriminate.
  - unfold get_delta_t_q. apply noidx_bind; [apply noidx_aware|]. intros _.
    destruct (utctimetuple d); [now destruct (K a)|exact (noidx_Err e H)].
Qed.
Lemma noidx_timestamp d : noidx (timestamp (N := MathR) d).
Proof.
  unfold timestamp, timestamp_us. apply noidx_bind; [|intros; discriminate]. destruct (dt_tz d); [|discriminate].
  apply noidx_bind; [apply noidx_utcoffset|]. intros [o|]; discriminate.
Qed.
Lemma noidx_jd d : noidx (get_julian_solar_day (N := MathR) d).
Proof.
  unfold get_julian_solar_day, get_delta_t. pose proof (noidx_timestamp d). pose proof (noidx_leap d). pose proof (noidx_delta_t_q d). noidx.
Qed.
Lemma noidx_jde d : noidx (get_julian_ephemeris_day (N := MathR) d).
Proof. unfold get_julian_ephemeris_day. pose proof (noidx_timestamp d). pose proof (noidx_leap d). noidx. Qed.
Global Hint Resolve noidx_jd noidx_jde : noidx.

Lemma noidx_fold_left {A B} (f : res B -> A -> res B) l : (forall r a, noidx r -> noidx (f r a)) ->
  forall r, noidx r -> noidx (fold_left f l r).
Proof. intros H. induction l as [|a l IH]; intros r Hr; [exact Hr|]. cbn [fold_left]. apply IH. now apply H. Qed.
Lemma noidx_fold_right {A B} (f : A -> res B -> res B) l r : (forall a r, noidx r -> noidx (f a r)) -> noidx r -> noidx (fold_right f r l).
Proof. intros H Hr. induction l as [|a l IH]; [exact Hr|]. cbn [fold_right]. now apply H. Qed.

Lemma noidx_coeff t l : noidx (get_coeff (N := MathR) t l).
Proof.
  unfold get_coeff. apply noidx_bind; [|intros; discriminate]. apply noidx_fold_left; [|discriminate].
  intros r a Hr. noidx. unfold coeff_line. apply noidx_fold_left; [|discriminate].
  intros r' [[a' b'] c'] Hr'. noidx.
Qed.
Lemma noidx_dict {A} k (l : list (string * A)) : noidx (dict_get k l).
Proof. induction l as [|[k' v] l IH]; [discriminate|]. cbn [dict_get]. destruct (String.eqb k k'); [discriminate|exact IH]. Qed.
Lemma noidx_nutation t : noidx (get_nutation (N := MathR) t).
Proof.
  unfold get_nutation, get_nutation_st. cbn [get_aberration_coeffs fst]. unfold get_nutation_from.
  assert (noidx (nutation_args (N := MathR) aberration_coeffs_table t)).
  { unfold nutation_args. apply noidx_fold_right; [|discriminate]. intros k r Hr. pose proof (noidx_dict k aberration_coeffs_table).
    noidx. destruct a as [[[? ?] ?] ?]. unfold cubic. noidx. }
  noidx. unfold nutation_terms. apply noidx_fold_right; [|discriminate]. intros [[[[a0 a1] a2] a3] y] r Hr. unfold nutation_term. noidx.
Qed.
Global Hint Resolve noidx_coeff noidx_nutation : noidx.

Lemma noidx_position lat lon d el : noidx (get_topocentric_position (N := MathR) lat lon d el).
Proof.
  unfold get_topocentric_position. noidx.
  - unfold get_projected_radial_distance, get_flattened_latitude. noidx.
  - unfold get_projected_axial_distance, get_flattened_latitude. noidx.
  - unfold topocentric_position_at, get_julian_ephemeris_century, get_julian_ephemeris_millennium, get_geocentric_latitude,
      get_geocentric_longitude, get_heliocentric_latitude, get_heliocentric_longitude, get_sun_earth_distance,
      get_aberration_correction, get_equatorial_horizontal_parallax, get_apparent_sidereal_time, get_mean_sidereal_time, get_julian_century,
      get_true_ecliptic_obliquity, get_geocentric_sun_right_ascension, get_geocentric_sun_declination, get_local_hour_angle,
      get_parallax_sun_right_ascension, get_topocentric_sun_declination. noidx.
Qed.
Global Hint Resolve noidx_position : noidx.

Lemma noidx_altitude lat lon d el T P : noidx (get_altitude (N := MathR) lat lon d el T P).
Proof. unfold get_altitude, get_topocentric_elevation_angle, get_refraction_correction. noidx. Qed.
Lemma noidx_azimuth lat lon d el : noidx (get_azimuth (N := MathR) lat lon d el).
Proof. unfold get_azimuth, get_topocentric_azimuth_angle. noidx. Qed.
Lemma noidx_tm_yday d : noidx (tm_yday (clock_math MathR) d).
Proof.
  cbn [clock_math tm_yday]. apply noidx_rmap. unfold tm_yday_math. apply noidx_bind; [|intros; discriminate].
  destruct (utctimetuple_cases d) as [(u & _ & ->)|[H _]]; [discriminate|exact H].
Qed.
Lemma noidx_radiation d alt : noidx (get_radiation_direct (N := MathR) (C := clock_math MathR) d alt).
Proof.
  unfold get_radiation_direct, get_apparent_extraterrestrial_flux, get_optical_depth. pose proof (noidx_tm_yday d). noidx.
  unfold get_air_mass_ratio. 
  assert (K : noidx (s <- @nsin MathR (radians alt) ;; div (lit 1) s)) by noidx.
  destruct (bind _ _) as [x|e]; [discriminate|]. destruct e; try discriminate. exact (noidx_Err _ K).
Qed.

Definition simulate_math := @simulate_one MathR (clock_math MathR) (fun d => d).

Lemma round_range x : 0 <= x < 360 -> (0 <= ZnearestE x <= 360)%Z.
Proof.
  intros [H1 H2]. split.
  - rewrite <- (@Zrnd_IZR ZnearestE (valid_rnd_N _) 0). apply (@Zrnd_le ZnearestE (valid_rnd_N _)). exact H1.
  - rewrite <- (@Zrnd_IZR ZnearestE (valid_rnd_N _) 360). apply (@Zrnd_le ZnearestE (valid_rnd_N _)). lra.
Qed.

Lemma simulate_one_index lat lon horizon el T P t :
  simulate_math lat lon horizon el T P t = Err IndexError <->
  exists alt az, get_altitude (N := MathR) lat lon t el T P = Ok alt /\ get_azimuth (N := MathR) lat lon t el = Ok (Fin az) /\
    (Z.of_nat (List.length horizon) <= ZnearestE az)%Z.
Proof.
  unfold simulate_math, simulate_one. pose proof (noidx_altitude lat lon t el T P) as HA. pose proof (noidx_azimuth lat lon t el) as HZ.
  destruct (get_altitude lat lon t el T P) as [alt|e]; cbn [bind]; [|split; [intros [= ->]; now destruct HA|intros (? & ? & ? & _); discriminate]].
  destruct (get_azimuth lat lon t el) as [az|e] eqn:EZ; cbn [bind]; [|split; [intros [= ->]; now destruct HZ|intros (? & ? & _ & ? & _); discriminate]].
  destruct (get_azimuth_range _ _ _ _ _ EZ) as [->|(x & -> & Hx)].
  { cbn. split; [discriminate|intros (? & ? & _ & ? & _); discriminate]. }
  rewrite round_R. cbn [bind]. pose proof (round_range x Hx) as R.
  destruct (Z.le_gt_cases (Z.of_nat (List.length horizon)) (ZnearestE x)) as [L|L].
  - rewrite py_index_out by assumption. split; [|reflexivity]. intros _. eauto 10.
  - destruct (py_index_in_bounds horizon (ZnearestE x) ltac:(lia)) as (s & ->). cbn [bind]. split.
    + intros H. exfalso. revert H. 
      change (noidx (s0 <- @nsin MathR (radians alt);; r <- @round_int MathR (lit 380 * s0)%num;; shaded <- @truth MathR (lt s (lit 380 - ofZ r)%num);;
        rad <- (if shaded : bool then Ok (lit 0) else get_radiation_direct (N := MathR) (C := clock_math MathR) t alt);; Ok (t, alt, Fin x, rad, s))).
      noidx. destruct a1; [discriminate|apply noidx_radiation].
    + intros (a & y & _ & [= <-] & H). lia.
Qed.

Lemma span_no_index lat lon horizon start stop step el T P :
  (361 <= List.length horizon)%nat ->
  g_end (datetime_range start stop step) <> Err IndexError ->
  g_end (simulate_span (N := MathR) (C := clock_math MathR) (fun d => d) lat lon horizon start stop step el T P) <> Err IndexError.
Proof.
  intros Hh Hr. pose proof (simulate_span_spec (N := MathR) (C := clock_math MathR) (fun d => d) lat lon horizon start stop step el T P) as S.
  cbv zeta in S. destruct S as (dn & td & _ & _ & S). destruct td as [|t td]; [now rewrite S|].
  destruct S as (e & S1 & ->). intros [= ->]. apply simulate_one_index in S1 as (a & z & _ & Hz & L).
  destruct (get_azimuth_range _ _ _ _ _ Hz) as [?|(x & [= <-] & Hx)]; [discriminate|]. pose proof (round_range z Hx). lia.
Qed.

Lemma range_no_index start stop step : g_end (datetime_range start stop (StepInt step)) <> Err IndexError.
Proof.
  change (noidx (g_end (datetime_range start stop (StepInt step)))). unfold datetime_range.
  assert (D : noidx (dt_sub stop start)).
  { unfold dt_sub. destruct (same_tz _ _); [discriminate|].
    pose proof (noidx_utcoffset stop). pose proof (noidx_utcoffset start). noidx. destruct a, a0; discriminate. }
  destruct (dt_sub stop start) as [span|e]; cbn [bind]; [|exact (noidx_Err e D)].
  unfold timedelta_us. cbv zeta. destruct (timedelta_ok _); cbn [bind]; [|discriminate]. destruct (_ =? 0)%Z; [discriminate|].
  set (f := fun n : Z => _). set (l := zrange _). destruct (gen_map_prefix f l) as (l1 & l2 & _ & _ & G).
  destruct l2 as [|n l2]; [rewrite G; discriminate|]. destruct G as (e & G1 & ->). unfold f in G1. revert G1.
  destruct (timedelta_ok _); cbn [bind]; [|now intros [= <-]]. unfold dt_add. cbv zeta. destruct (in_range _); [discriminate|now intros [= <-]].
Qed.

(* ---------------------------------------------------------------- the sun just west of north at a pole *)
Definition pole (s : R) : Prop := s = 1 \/ s = -1.
Lemma sind_pole s : pole s -> sind (90 * s) = s.
Proof. intros [-> | ->]; [rewrite Rmult_1_r; apply sind_90|]. replace (90 * -1) with (- (90)) by lra. rewrite sind_opp, sind_90. lra. Qed.
Lemma cosd_pole s : pole s -> cosd (90 * s) = 0.
Proof. intros [-> | ->]; [rewrite Rmult_1_r; apply cosd_90|]. replace (90 * -1) with (- (90)) by lra. rewrite cosd_opp. apply cosd_90. Qed.

Lemma same_sincos a b : sind a = sind b -> cosd a = cosd b -> same_angle a b.
Proof.
  intros Hs Hc. assert (C : cosd (a - b) = 1).
  { rewrite cosd_rad, rad_minus, cos_minus, <- !sind_rad, <- !cosd_rad, Hs, Hc. pose proof (sincosd b). lra. }
  assert (S : sind (a - b) = 0).
  { rewrite sind_rad, rad_minus, sin_minus, <- !sind_rad, <- !cosd_rad, Hs, Hc. lra. }
  destruct (Rfmod_eq (a - b) 360) as (k & E). exists k.
  pose proof (Rfmod_range (a - b) 360 ltac:(lra)) as R. rewrite <- (cosd_fmod (a - b)) in C. rewrite <- (sind_fmod (a - b)) in S.
  set (x := Rfmod (a - b) 360) in *. assert (x = 0); [|lra].
  destruct (Rlt_dec 0 x); [|lra]. exfalso. destruct (Rlt_dec x 180).
  - pose proof (sind_pos x ltac:(lra)). lra.
  - assert (sind (x - 180) = - sind x). { rewrite !sind_rad, rad_minus, rad_180, sin_minus, cos_PI, sin_PI. lra. }
    assert (cosd (x - 180) = - cosd x). { rewrite !cosd_rad, rad_minus, rad_180, cos_minus, cos_PI, sin_PI. lra. }
    destruct (Req_dec x 180) as [->|]; [|pose proof (sind_pos (x - 180) ltac:(lra)); lra].
    rewrite Rminus_diag_eq in H0 by reflexivity. rewrite cosd_0 in H0. lra.
Qed.

Lemma dalpha_0 H p d : 0 < cosd d -> lib_dalpha 0 H p d = 0.
Proof.
  intros Hd. unfold lib_dalpha, Ratan2. replace (- 0 * sind p * sind H) with 0 by ring. replace (cosd d - 0 * sind p * cosd H) with (cosd d) by ring.
  destruct (Rsgn_cases (cosd d)) as [[-> _]|[[_ ?]|[_ ?]]]; try lra. replace (0 / cosd d) with 0 by (field; lra). rewrite atan_0. apply deg_0.
Qed.

Lemma pole_dec_sine s lon y jd jde : pole s -> 1721425 < jde < 5373485 -> 0 <= s * sind (sun_delta jde) -> -1 <= y <= 1 ->
  -0.0001 <= s * sind (topo_dec lon 0 y jd jde).
Proof.
  intros Hs Hj Hd Hy. unfold topo_dec, lib_dec. rewrite dalpha_0, cosd_0, sind_deg by (pose proof (cos_delta_bound jde Hj); lra).
  pose proof (cos_delta_bound jde Hj) as C. pose proof (sin_par_bound jde Hj) as P.
  pose proof (prod_bound y (sind (lib_par jde)) (cosd (lib_H lon jd jde)) 1 ltac:(lra) Hy ltac:(lra) (cosd_bound _)) as B.
  pose proof (prod_bound y (sind (lib_par jde)) 1 1 ltac:(lra) Hy ltac:(lra) ltac:(lra)) as B'.
  set (num := (sind (sun_delta jde) - y * sind (lib_par jde)) * 1). set (den := cosd (sun_delta jde) - y * sind (lib_par jde) * cosd (lib_H lon jd jde)).
  assert (N : -0.00005 <= s * num) by (unfold num; destruct Hs as [-> | ->]; lra).
  assert (D : 0.9 <= den) by (unfold den; lra). clearbody num den. clear - N D Hs.
  pose proof (atan2_polar num den) as A. cbv zeta in A. destruct A as [A1 A2].
  set (r := sqrt (den * den + num * num)) in *. set (c := cos (Ratan2 num den)) in *. set (n := sin (Ratan2 num den)) in *.
  assert (R : 0.9 <= r). { unfold r. replace 0.9 with (sqrt (0.9 * 0.9)) by (apply sqrt_square; lra). apply sqrt_le_1; nra. }
  assert (E : s * num = r * (s * n)) by (rewrite <- A2; ring). rewrite E in N. set (q := s * n) in *. clearbody q r. nra.
Qed.

Lemma choose_longitude a b h : 0 <= h < 360 -> exists lon, -180 <= lon < 180 /\ Rfmod (a + lon - b) 360 = h.
Proof.
  intros Hh. set (l := h - a + b). exists (Rfmod (l + 180) 360 - 180). split.
  - pose proof (Rfmod_range (l + 180) 360 ltac:(lra)). lra.
  - destruct (Rfmod_eq (l + 180) 360) as (k & ->).
    replace (a + (l + 180 - 360 * IZR k - 180) - b) with (h + 360 * IZR (- k)) by (unfold l; rewrite opp_IZR; ring).
    rewrite Rfmod_shift by lra. now apply Rfmod_id.
Qed.

Lemma pole_sun d u T P : instant d u -> in_range u = true -> T <> 0 ->
  exists lat lon h, -90 <= lat <= 90 /\ -180 <= lon < 180 /\
    get_altitude (N := MathR) (Fin lat) (Fin lon) d (Fin 0) (Fin T) (Fin P) = Ok (Fin h) /\
    get_azimuth (N := MathR) (Fin lat) (Fin lon) d (Fin 0) = Ok (Fin 359.75).
Proof.
  intros Hi Hr HT. destruct (jd_ok d u Hi Hr) as (jd & jde & Ejd & Ejde & B1 & B2).
  assert (S : exists s, pole s /\ 0 <= s * sind (sun_delta jde)).
  { destruct (Rle_dec 0 (sind (sun_delta jde))); [exists 1|exists (-1)]; (split; [unfold pole; auto|lra]). }
  destruct S as (s & Hs & Hd). set (h0 := 90 + 89.75 * s).
  assert (Hh0 : 0 <= h0 < 360) by (unfold h0; destruct Hs; subst; lra).
  destruct (choose_longitude (app_sid jd jde) (sun_alpha jde) h0 Hh0) as (lon & Hlon & EH).
  assert (Hlat : -90 <= 90 * s <= 90) by (destruct Hs; subst; lra).
  destruct (position_val (90 * s) lon d 0 u Hi Hr Hlat ltac:(lra)) as (x & y & jd' & jde' & x0 & y0 & E1 & E2 & _ & _ & EP & Ex & Ey & Epos & Bd).
  rewrite Ejd in E1. rewrite Ejde in E2. injection E1 as <-. injection E2 as <-.
  pose proof (projected_range (90 * s) 0 x y x0 y0 EP ltac:(lra) Ex Ey) as _.
  assert (X0 : x = 0).
  { destruct EP as [_ (k & _ & -> & _)]. rewrite Ex, (cosd_pole s Hs). lra. }
  assert (Y0 : -1 <= y <= 1).
  { rewrite Ey. destruct EP as [EP _]. pose proof flat_pos. assert (F1 : flat <= 1) by (unfold flat; lra).
    assert (Y : -1 <= y0 / flat <= 1) by (split; nra). replace y0 with (y0 / flat * flat) by (field; lra).
    set (q := y0 / flat) in *. clearbody q. clear - Y F1 H. split; nra. }
  clear Ex Ey EP. subst x. assert (TH : topo_H lon 0 jd jde = h0).
  { unfold topo_H. rewrite dalpha_0 by (pose proof (cos_delta_bound jde B2); lra). unfold lib_H. rewrite EH. lra. }
  pose proof (pole_dec_sine s lon y jd jde Hs B2 Hd Y0) as SD. rewrite TH in Epos.
  set (dec := topo_dec lon 0 y jd jde) in *.
  destruct (horizontal_coordinates_correct (90 * s) dec h0 Bd) as (A & e & H1 & H2 & H3 & H4 & H5).
  destruct H3 as (K1 & K2 & K3). unfold dot, equatorial, east, north, up in K1, K2, K3. rewrite ?(sind_pole s Hs), ?(cosd_pole s Hs) in *.
  assert (Ee : e = s * dec).
  { assert (Se : sind e = sind (s * dec)).
    { rewrite <- K3. destruct Hs as [-> | ->]; [rewrite Rmult_1_l; ring|]. replace (-1 * dec) with (- dec) by ring. rewrite sind_opp. ring. }
    assert (R : -90 < s * dec < 90) by (destruct Hs; subst; lra).
    destruct (Rtotal_order e (s * dec)) as [L|[L|L]]; [|exact L|].
    - pose proof (sind_incr e (s * dec) ltac:(lra) L ltac:(lra)). lra.
    - pose proof (sind_incr (s * dec) e ltac:(lra) L ltac:(lra)). lra. }
  assert (Ce : cosd e = cosd dec).
  { rewrite Ee. destruct Hs as [-> | ->]; [now rewrite Rmult_1_l|]. replace (-1 * dec) with (- dec) by ring. apply cosd_opp. }
  pose proof (cosd_pos dec Bd) as Pc. rewrite Ce in K1, K2.
  assert (SA : sind A = - sind h0) by (apply (Rmult_eq_reg_r (cosd dec)); lra).
  assert (CA : cosd A = - s * cosd h0) by (apply (Rmult_eq_reg_r (cosd dec)); lra).
  assert (EA : A = 359.75).
  { apply same_angle_unique; [assumption|lra|]. apply (same_angle_trans _ (-0.25)).
    - apply same_sincos.
      + replace (sind (-0.25)) with (sind (- (0.25))) by (f_equal; lra). rewrite SA, sind_opp. f_equal. unfold h0. destruct Hs as [-> | ->].
        * replace (90 + 89.75 * 1) with (180 - 0.25) by lra. apply sind_supp.
        * f_equal. lra.
      + replace (cosd (-0.25)) with (cosd (- (0.25))) by (f_equal; lra). rewrite CA, cosd_opp. unfold h0. destruct Hs as [-> | ->].
        * replace (90 + 89.75 * 1) with (180 - 0.25) by lra. rewrite cosd_supp. lra.
        * replace (90 + 89.75 * -1) with 0.25 by lra. lra.
    - exists (-1)%Z. lra. }
  subst A. assert (Le : -5 < e).
  { destruct (Rlt_dec (-5) e); [assumption|]. exfalso.
    assert (sind e <= sind (-5)).
    { destruct (Req_dec e (-5)) as [->|]; [lra|]. left. apply sind_incr; lra. }
    assert (sind (-5) < -0.01) by (unfold sind; interval).
    assert (sind e = s * sind dec) by lra. lra. }
  exists (90 * s), lon, (e + (if Rle_dec (-0.83337) e then refraction_formula P T e else 0)). split; [exact Hlat|]. split; [exact Hlon|].
  unfold get_altitude, get_azimuth. rewrite (instant_aware d u Hi), !bind_Ok, Epos, !bind_Ok, H2, bind_Ok, refraction_ok, bind_Ok by (assumption || lra).
  split; [reflexivity|exact H1].
Qed.

Lemma round_359 : ZnearestE 359.75 = 360%Z.
Proof. apply Znearest_imp. apply Rabs_lt. lra. Qed.

(* a horizon of 360 entries: the lookup goes wrong at some place on Earth, whatever the time *)
Lemma short_horizon d u T P horizon : instant d u -> in_range u = true -> T <> 0 -> List.length horizon = 360%nat ->
  exists lat lon, -90 <= lat <= 90 /\ -180 <= lon < 180 /\
    simulate_math (Fin lat) (Fin lon) horizon (Fin 0) (Fin T) (Fin P) d = Err IndexError.
Proof.
  intros Hi Hr HT Hh. destruct (pole_sun d u T P Hi Hr HT) as (lat & lon & h & H1 & H2 & H3 & H4).
  exists lat, lon. split; [exact H1|]. split; [exact H2|]. apply simulate_one_index. exists (Fin h), 359.75.
  split; [exact H3|]. split; [exact H4|]. rewrite round_359, Hh. reflexivity.
Qed.

Lemma round_360_iff x : 0 <= x < 360 -> (360 <= ZnearestE x)%Z <-> 359.5 <= x.
Proof.
  intros Hx. split; intros H.
  - pose proof (Znearest_half (fun x => negb (Z.even x)) x) as K. apply IZR_le in H. apply Rabs_le_inv in K.
    replace (/ 2) with 0.5 in K by lra. lra.
  - assert (E : ZnearestE 359.5 = 360%Z).
    { unfold Znearest. assert (F : Zfloor 359.5 = 359%Z) by (apply Zfloor_imp; rewrite plus_IZR; lra).
      assert (C : Zceil 359.5 = 360%Z) by (apply Zceil_imp; rewrite minus_IZR; lra).
      rewrite F, C. rewrite Rcompare_Eq by lra. reflexivity. }
    rewrite <- E. now apply (@Zrnd_le ZnearestE (valid_rnd_N _)).
Qed.

(* one entry per degree suffices exactly until the azimuth rounds up to 360 *)
Lemma short_horizon_iff lat lon horizon el T P t : List.length horizon = 360%nat ->
  simulate_math lat lon horizon el T P t = Err IndexError <->
  exists alt az, get_altitude (N := MathR) lat lon t el T P = Ok alt /\ get_azimuth (N := MathR) lat lon t el = Ok (Fin az) /\ 359.5 <= az.
Proof.
  intros Hh. rewrite simulate_one_index, Hh. split; intros (alt & az & H1 & H2 & H3); exists alt, az; (split; [exact H1|]; split; [exact H2|]);
    destruct (get_azimuth_range _ _ _ _ _ H2) as [?|(x & [= <-] & Hx)]; try discriminate; now apply (round_360_iff az Hx).
Qed.

Lemma span_short_horizon start stop m span u T P horizon :
  valid_dt start -> dt_fold start = false -> instant start u -> in_range u = true ->
  dt_sub stop start = Ok span -> (0 < m)%Z -> (m * minute_us <= span)%Z -> timedelta_ok (m * minute_us) = true ->
  (dt_local start + span <= max_us)%Z -> T <> 0 -> List.length horizon = 360%nat ->
  exists lat lon, -90 <= lat <= 90 /\ -180 <= lon < 180 /\
    simulate_span (N := MathR) (C := clock_math MathR) (fun d => d) (Fin lat) (Fin lon) horizon start stop (StepInt m) (Fin 0) (Fin T) (Fin P)
    = mkgen [] (Err IndexError).
Proof.
  intros V F Hi Hr Hs Hm Hspan Ht Hmax HT Hh. destruct (short_horizon start u T P horizon Hi Hr HT Hh) as (lat & lon & H1 & H2 & H3).
  exists lat, lon. split; [exact H1|]. split; [exact H2|]. unfold simulate_span, gen_for.
  rewrite (datetime_range_spec start stop m span) by assumption. cbn [g_items].
  assert (1 <= span / (m * minute_us))%Z by (apply Z.div_le_lower_bound; unfold minute_us in *; lia).
  unfold zrange. destruct (Z.to_nat (span / (m * minute_us))) as [|k] eqn:E; [lia|]. cbn [seq map gen_map].
  replace (nth_time start m (Z.of_nat 0)) with start.
  - unfold simulate_math in H3. rewrite H3. reflexivity.
  - unfold nth_time. destruct start as [l f tz]. cbn in *. subst f. f_equal. lia.
Qed.

(* Where the sun of the full computation is at the sunrise, sunset and transit of util.py, 1901 to 2099. *)
From Coq Require Import Reals Qreals Lra Lia List Psatz.
From Flocq Require Import Core.
From Interval Require Import Tactic.
From Verif Require Import Py Num Cal TzCheck Clock Tables Constants SolarTime Solar Util GenProofs RInst RTac SpecTime SpecDt SpecGeom SpecAstro SpecEng
  Trig GeoProofs SolarTimeProofs JulianProofs PositionProofs SpaProofs FastProofs SpanProofs TopoProofs AngleLip B64Ranges B64Lift B64Final SunriseProofs MiscProofs Samples
  ApproxNum ApproxProofs SunNum.
Local Open Scope R_scope.

Lemma fem_deg v : fem 1 0 v = rad (fourier_eot v / 240).
Proof.
  unfold fem, fourier_eot, sind, cosd, rad. cbv zeta. set (a := 279.134 + 0.985647 * v).
  replace (279.134 + 0 + 0.985647 * v) with a by (unfold a; ring).
  replace (2 * a * PI / 180) with (2 * (a * (PI / 180))) by field. replace (3 * a * PI / 180) with (3 * (a * (PI / 180))) by field.
  replace (4 * a * PI / 180) with (4 * (a * (PI / 180))) by field. replace (a * PI / 180) with (a * (PI / 180)) by field. lra.
Qed.
Lemma fdm_deg v : fdm v = rad (fourier_declination v).
Proof.
  unfold fdm, fourier_declination, sind, cosd, rad. cbv zeta.
  replace (2 * (360 * v / 366) * PI / 180) with (2 * (2 * PI / 366 * v)) by field. replace (3 * (360 * v / 366) * PI / 180) with (3 * (2 * PI / 366 * v)) by field.
  replace (360 * v / 366 * PI / 180) with (2 * PI / 366 * v) by field. lra.
Qed.
(* midnight of the local date *)
Lemma day_start_jd l (k : Z) f : 0 <= f < 1 -> jd_utc l - 2451545 = IZR k - 1 / 2 + f -> jd_utc (day_start l) - 2451545 = IZR k - 1 / 2.
Proof.
  intros F E. unfold day_start. set (q := (l / 86400000000)%Z).
  pose proof (Z.div_mod l 86400000000 ltac:(lia)) as D. pose proof (Z.mod_pos_bound l 86400000000 ltac:(lia)) as [M1 M2]. fold q in D.
  set (r := (l mod 86400000000)%Z) in *. unfold jd_utc in *. rewrite D, plus_IZR, mult_IZR in E. rewrite mult_IZR. apply IZR_le in M1. apply IZR_lt in M2.
  assert (K : (q = k + 730119)%Z).
  { apply Z.le_antisymm; apply Z.lt_succ_r, lt_IZR; rewrite succ_IZR, ?plus_IZR; lra. }
  rewrite K, plus_IZR. lra.
Qed.

(* w hours after the transit of the local day *)
Lemma sun_clock d u day h m lat lon el t ut w : instant d u -> civil_clock (dt_local d) day h m ->
  instant t ut -> (dt_local t - ut = dt_local d - u)%Z ->
  (midnight 1901 1 1 <= dt_local d < midnight 2100 1 1)%Z -> (midnight 1901 1 1 <= ut < midnight 2100 1 1)%Z ->
  -90 <= lat <= 90 -> -180 <= lon <= 180 -> -100000 <= el <= 100000 -> -12 <= w <= 12 ->
  hours_after (dt_local d) (transit_hours (dt_local d - u) lon (IZR day) + w) (dt_local t) ->
  exists dec ha (k : Z), get_topocentric_position (N := MathR) (Fin lat) (Fin lon) t (Fin el) = Ok (Fin dec, Fin ha) /\
    Rabs (dec - fourier_declination (IZR day)) <= 1.257 /\ Rabs (ha - 15 * w - 360 * IZR k) <= 0.447.
Proof.
  intros _ Hc Hi Off Hl Hu Hlat Hlon Hel Hw Ha. pose proof (modern_in_range ut Hu) as Hr.
  destruct (position_val lat lon t el ut Hi Hr Hlat ltac:(lra)) as (x & y & jd & jde & x0 & y0 & E1 & E2 & B1 & B2 & EP & -> & -> & E & _).
  rewrite (jd_off t ut Hi Hr) in E1. rewrite (jde_val t ut Hi Hr) in E2. apply Ok_inj in E1, E2. injection E1 as E1. injection E2 as E2.
  destruct (observer_bounds lat el x0 y0 EP Hel) as [BX BY]. set (x := x0 + _) in *. set (y := y0 + _) in *. clearbody x y.
  pose proof (tai_range ut) as [T1 T2]. apply IZR_le in T1, T2.
  pose proof (adj_ok (f_year (fields_of_us ut)) (f_mon (fields_of_us ut)) (fields_mon_range ut)) as A.
  destruct (next_ym (f_year (fields_of_us ut)) (f_mon (fields_of_us ut))) as [y' m']. destruct A as (_ & A1 & A2).
  apply Qle_Rle in A1, A2. replace (Q2R (-34)) with (-34) in A1 by (unfold Q2R; simpl; lra).
  replace (Q2R (-30)) with (-30) in A2 by (unfold Q2R; simpl; lra).
  set (o := Q2R _ + 32.184) in E1. assert (Ho : -1.9 <= o <= 2.2) by (unfold o; lra). clearbody o.
  set (tt := IZR _ + 32.184) in E2. assert (Ht : 42 <= tt <= 69.2) by (unfold tt; lra). clearbody tt. clear A1 A2 T1 T2.
  destruct (calendar (dt_local d) day h m Hl Hc) as (yr & n & r & Yr & Hr' & Hd & Hh & Hm & EU & j & i & Ey & En & Hij).
  assert (F : 0 <= (60 * IZR h + IZR m + r) / 1440 < 1).
  { assert (0 <= IZR h <= 23) by (split; apply IZR_le; lia). assert (0 <= IZR m <= 59) by (split; apply IZR_le; lia). lra. }
  assert (MD : jd_utc (day_start (dt_local d)) - 2451545 = IZR (n + day - 1) - 1 / 2).
  { apply day_start_jd with ((60 * IZR h + IZR m + r) / 1440); [exact F|]. rewrite EU, minus_IZR, plus_IZR. lra. }
  unfold hours_after, transit_hours in Ha. apply Rabs_le_inv in Ha.
  set (q := fourier_eot (IZR day)) in *. pose proof (fourier_eot_range (IZR day)) as Q. fold q in Q.
  set (f := jd_utc ut - 2451545 - IZR (n + day - 1) + 1 / 2).
  assert (EF : -0.00000001 <= 360 * f - (180 - lon - q / 240 + 15 * w) <= 0.00000001).
  { assert (EO : IZR (dt_local t) - IZR ut = IZR (dt_local d - u)) by (rewrite <- Off, minus_IZR; reflexivity).
    unfold f. unfold jd_utc in *. set (ds := IZR (day_start (dt_local d))) in *. clearbody ds. set (lt := IZR (dt_local t)) in *. set (of := IZR (dt_local d - u)) in *. clearbody lt of.
    clear - Ha MD EO. lra. }
  assert (FB : -0.5139 <= f <= 1.5139) by lra.
  assert (EU2 : jd_utc ut - 2451545 = IZR n - 1 / 2 + (IZR day - 1) + f) by (unfold f; rewrite minus_IZR, plus_IZR; lra).
  assert (UB : 2415385.5 <= jd_utc ut < 2488069.5).
  { change (midnight 1901 1 1) with 59958144000000000%Z in Hu. change (midnight 2100 1 1) with 66238041600000000%Z in Hu.
    destruct Hu as [U1 U2]. apply IZR_le in U1. apply IZR_lt in U2. unfold jd_utc. lra. }
  destruct (phase_gen ut day f yr n j i (tt / 86400) jde Yr Hd ltac:(lra) EU2 Ey En Hij (eq_sym E2) ltac:(lra)) as (s & Hs & EX).
  destruct (sun_at ut lon x y jd jde o tt _ _ UB (eq_sym E1) Ho (eq_sym E2) Ht BX BY EX) as (et & k & Het & O & DD & HH).
  assert (D : 1 <= IZR day <= 366) by (split; apply IZR_le; lia).
  set (v := IZR day) in *. set (ep := true_obl jde) in *. assert (SX : sbox s ep et) by (split; [lra|split; assumption]).
  do 2 eexists. exists (n + day - 1 + k)%Z. split; [exact E|]. split.
  - apply Rabs_le. replace (fourier_declination v) with (deg (fdm v)) by (rewrite fdm_deg; unfold deg, rad; field; apply PI_neq0).
    assert (DF : - (0.5) <= fdm v <= 0.5).
    { rewrite fdm_deg. unfold rad. pose proof (fourier_declination_range v) as MR. set (z := fourier_declination v) in *. clearbody z. split; interval. }
    pose proof (DD (fdm v) 1.25 ltac:(lra) ltac:(lra) (fdec_year v s ep et D SX)). lra.
  - pose proof (feot_year v s ep et D SX) as EY. cbv zeta in EY. rewrite fem_deg in EY. fold q in EY.
    assert (EY2 : - (0.42) <= true_eot ep (xm 0 v s) et - q / 240 <= 0.42) by (apply deg_close; lra).
    set (e := true_eot ep (xm 0 v s) et) in *. clearbody e.
    apply Rabs_le. rewrite plus_IZR. clear - EY2 HH EF. unfold f in EF. set (kk := IZR (n + day - 1)) in *. clearbody kk. lra.
Qed.

(* ---------------------------------------------------------------- C83 - C85 *)
Lemma near_direction d h d' h' (k : Z) : Rabs (d - d') <= 1.257 -> Rabs (h - h' - 360 * IZR k) <= 0.447 ->
  cosd 1.34 <= dot (equatorial d h) (equatorial d' h').
Proof.
  intros D H. apply Rabs_le_inv in D, H. rewrite dot_equatorial. pose proof (cosd_bound d) as B1. pose proof (cosd_bound d') as B2.
  assert (P : -1 <= cosd d * cosd d' <= 1) by (pose proof (prod_le (cosd d) (cosd d') 1 1 ltac:(lra) ltac:(lra)); lra).
  replace (cosd (h - h')) with (cosd (h - h' - 360 * IZR k)) by (apply same_angle_cos; exists (- k)%Z; rewrite opp_IZR; ring).
  set (a := d - d') in *. set (b := h - h' - 360 * IZR k) in *. clearbody a b. pose proof (cosd_bound b) as CB.
  assert (cosd 1.34 <= cosd a + cosd b - 1) by (unfold cosd; interval with (i_bisect a, i_prec 50)). nra.
Qed.
Lemma rises_neg lat decl H : rises_at lat decl H -> rises_at lat decl (- H).
Proof.
  unfold rises_at, dot, equatorial, up. replace (15 * - H) with (- (15 * H)) by ring. rewrite cosd_opp. lra.
Qed.
Lemma elevation_at d u day h m lat lon el t ut w : instant d u -> civil_clock (dt_local d) day h m ->
  instant t ut -> (dt_local t - ut = dt_local d - u)%Z ->
  (midnight 1901 1 1 <= dt_local d < midnight 2100 1 1)%Z -> (midnight 1901 1 1 <= ut < midnight 2100 1 1)%Z ->
  -90 <= lat <= 90 -> -180 <= lon <= 180 -> -100000 <= el <= 100000 -> -12 <= w <= 12 ->
  hours_after (dt_local d) (transit_hours (dt_local d - u) lon (IZR day) + w) (dt_local t) ->
  rises_at lat (fourier_declination (IZR day)) w ->
  exists dec ha A e (k : Z), get_topocentric_position (N := MathR) (Fin lat) (Fin lon) t (Fin el) = Ok (Fin dec, Fin ha) /\
    get_topocentric_elevation_angle (N := MathR) (Fin lat) (Fin dec) (Fin ha) = Ok (Fin e) /\
    get_azimuth (N := MathR) (Fin lat) (Fin lon) t (Fin el) = Ok (Fin A) /\ 0 <= A < 360 /\
    Rabs (e - -0.833) <= 1.34 /\ cosd e * sind A = - (cosd dec * sind ha) /\ -90 <= e <= 90 /\ -90 < dec < 90 /\ Rabs (ha - 15 * w - 360 * IZR k) <= 0.447.
Proof.
  intros Hd Hc Hi Off Hl Hu Hlat Hlon Hel Hw Ha R. pose proof (modern_in_range ut Hu) as Hr.
  destruct (sun_clock d u day h m lat lon el t ut w Hd Hc Hi Off Hl Hu Hlat Hlon Hel Hw Ha) as (dec & ha & k & E & D & H).
  destruct (azimuth_total lat lon t el ut Hi Hr Hlat ltac:(lra)) as (dec' & ha' & az & e & F1 & F2 & F3 & F4 & F5 & F6 & F7).
  rewrite E in F1. apply Ok_inj in F1. injection F1 as <- <-. exists dec, ha, az, e, k.
  pose proof (near_direction _ _ _ _ k D H) as C. do 4 (split; [assumption|]). split.
  - apply (elevation_within (equatorial (fourier_declination (IZR day)) (15 * w)) (equatorial dec ha) (up lat) 1.34 e (-0.833) (dot_eq _ _) (dot_eq _ _) (dot_up lat)).
    + lra.
    + exact C.
    + exact F7.
    + lra.
    + symmetry. apply F5.
    + unfold rises_at in R. rewrite R. unfold sind. f_equal. lra.
  - split; [|auto]. destruct F5 as (G & _). rewrite (Rmult_comm (cosd e)), <- G. unfold dot, equatorial, east. ring.
Qed.
Lemma sunrise_true d u lat lon el sr ss tr t ut : instant d u -> -90 < lat < 90 -> -180 <= lon <= 180 -> -100000 <= el <= 100000 ->
  (midnight 1901 1 1 <= dt_local d < midnight 2100 1 1)%Z ->
  get_sunrise_sunset_transit (N := MathR) (Fin lat) (Fin lon) d = Ok (sr, ss, tr) ->
  (t = sr \/ t = ss) -> instant t ut -> (dt_local t - ut = dt_local d - u)%Z -> (midnight 1901 1 1 <= ut < midnight 2100 1 1)%Z ->
  exists dec ha e, get_topocentric_position (N := MathR) (Fin lat) (Fin lon) t (Fin el) = Ok (Fin dec, Fin ha) /\
    get_topocentric_elevation_angle (N := MathR) (Fin lat) (Fin dec) (Fin ha) = Ok (Fin e) /\ Rabs (e - -0.833) <= 1.34.
Proof.
  intros Hd Hlat Hlon Hel Hl Hs Ht Hi Off Hu. destruct (civil_clock_exists (dt_local d)) as (day & h & m & Hc).
  destruct (sunrise_solution d u day h m lat lon sr ss tr Hd Hc Hlat Hs) as (H & HB & R & _ & A1 & A2 & _). cbv zeta in A1, A2.
  assert (G : exists w, -12 <= w <= 12 /\ rises_at lat (fourier_declination (IZR day)) w /\ hours_after (dt_local d) (transit_hours (dt_local d - u) lon (IZR day) + w) (dt_local t)).
  { destruct Ht as [-> | ->]; [exists (- H)|exists H]; (split; [lra|]); (split; [auto using rises_neg|assumption]). }
  destruct G as (w & W & R' & A).
  destruct (elevation_at d u day h m lat lon el t ut w Hd Hc Hi Off Hl Hu ltac:(lra) Hlon Hel W A R') as (dec & ha & az & e & k & E1 & E2 & _ & _ & E3 & _).
  exists dec, ha, e. auto.
Qed.
Lemma sin_side x y (k : Z) : Rabs (x - y - 360 * IZR k) <= 0.447 -> 0.45 <= y <= 179.55 -> 0 < sind x.
Proof.
  intros H Y. apply Rabs_le_inv in H. replace (sind x) with (sind (x - 360 * IZR k)) by (apply same_angle_sin; exists (- k)%Z; rewrite opp_IZR; ring).
  set (z := x - 360 * IZR k). assert (0 < z < 180) by (unfold z; lra). unfold sind. pose proof PI_RGT_0. apply sin_gt_0; nra.
Qed.
Lemma side A : 0 <= A < 360 -> (0 < sind A -> 0 < A < 180) /\ (sind A < 0 -> 180 < A).
Proof.
  intros HA. pose proof PI_RGT_0 as P. split; intros S.
  - destruct (Rle_lt_dec A 0) as [C|C]; [replace A with 0 in S by lra; unfold sind in S; replace (0 * PI / 180) with 0 in S by field; rewrite sin_0 in S; lra|].
    split; [exact C|]. apply Rnot_le_lt. intros N. assert (sind A <= 0); [|lra]. unfold sind. apply sin_le_0; nra.
  - apply Rnot_le_lt. intros N. assert (0 <= sind A); [|lra]. unfold sind. apply sin_ge_0; nra.
Qed.
(* sunrise in the eastern half of the sky, sunset in the western half; the day lasting from four
   minutes to 23 hours 56 minutes *)
Lemma sunrise_side d u lat lon el sr ss tr t ut : instant d u -> -90 < lat < 90 -> -180 <= lon <= 180 -> -100000 <= el <= 100000 ->
  (midnight 1901 1 1 <= dt_local d < midnight 2100 1 1)%Z ->
  get_sunrise_sunset_transit (N := MathR) (Fin lat) (Fin lon) d = Ok (sr, ss, tr) ->
  (240000000 <= dt_local ss - dt_local sr <= 86160000000)%Z ->
  (t = sr \/ t = ss) -> instant t ut -> (dt_local t - ut = dt_local d - u)%Z -> (midnight 1901 1 1 <= ut < midnight 2100 1 1)%Z ->
  exists A, get_azimuth (N := MathR) (Fin lat) (Fin lon) t (Fin el) = Ok (Fin A) /\ (t = sr -> 0 < A < 180) /\ (t = ss -> 180 < A < 360).
Proof.
  intros Hd Hlat Hlon Hel Hl Hs Hday Ht Hi Off Hu. destruct (civil_clock_exists (dt_local d)) as (day & h & m & Hc).
  destruct (sunrise_solution d u day h m lat lon sr ss tr Hd Hc Hlat Hs) as (H & HB & R & _ & A1 & A2 & _). cbv zeta in A1, A2.
  assert (HH : 0.033 <= H <= 11.967).
  { unfold hours_after in A1, A2. apply Rabs_le_inv in A1, A2. destruct Hday as [D1 D2]. apply IZR_le in D1, D2. rewrite minus_IZR in D1, D2. lra. }
  assert (Ne : dt_local sr <> dt_local ss) by lia.
  assert (G : forall w, -12 <= w <= 12 -> rises_at lat (fourier_declination (IZR day)) w -> hours_after (dt_local d) (transit_hours (dt_local d - u) lon (IZR day) + w) (dt_local t) ->
    exists A, get_azimuth (N := MathR) (Fin lat) (Fin lon) t (Fin el) = Ok (Fin A) /\ 0 <= A < 360 /\ ((w = - H -> 0 < sind A) /\ (w = H -> sind A < 0))).
  { intros w W R' A.
    destruct (elevation_at d u day h m lat lon el t ut w Hd Hc Hi Off Hl Hu ltac:(lra) Hlon Hel W A R') as (dec & ha & az & e & k & _ & _ & E1 & E2 & E3 & E4 & E5 & E6 & E7).
    exists az. split; [exact E1|]. split; [exact E2|]. pose proof (cosd_pos dec E6) as CD.
    assert (CE : 0 <= cosd e) by (unfold cosd; pose proof PI_RGT_0; apply cos_ge_0; nra).
    split; intros ->.
    - assert (S : 0 < sind (- ha)).
      { apply (sin_side (- ha) (15 * H) (- k)%Z); [|lra]. rewrite opp_IZR. rewrite <- Rabs_Ropp. match goal with H : Rabs ?a <= _ |- Rabs ?b <= _ => replace b with a by ring end. exact E7. }
      rewrite sind_opp in S. nra.
    - assert (S : 0 < sind ha) by (apply (sin_side ha (15 * H) k E7); lra). nra. }
  destruct Ht as [-> | ->].
  - destruct (G (- H) ltac:(lra) (rises_neg _ _ _ R) A1) as (A & E1 & E2 & E3 & _). exists A. split; [exact E1|]. split; [intros _; apply (side A E2); auto|intros ->; contradiction].
  - destruct (G H ltac:(lra) R A2) as (A & E1 & E2 & _ & E3). exists A. split; [exact E1|]. split; [intros ->; contradiction|]. intros _. split; [apply (side A E2); auto|lra].
Qed.
Lemma transit_true d u lat lon el sr ss tr ut : instant d u -> -90 < lat < 90 -> -180 <= lon <= 180 -> -100000 <= el <= 100000 ->
  (midnight 1901 1 1 <= dt_local d < midnight 2100 1 1)%Z ->
  get_sunrise_sunset_transit (N := MathR) (Fin lat) (Fin lon) d = Ok (sr, ss, tr) ->
  instant tr ut -> (dt_local tr - ut = dt_local d - u)%Z -> (midnight 1901 1 1 <= ut < midnight 2100 1 1)%Z ->
  exists dec ha (k : Z), get_topocentric_position (N := MathR) (Fin lat) (Fin lon) tr (Fin el) = Ok (Fin dec, Fin ha) /\
    Rabs (ha - 360 * IZR k) <= 0.447.
Proof.
  intros Hd Hlat Hlon Hel Hl Hs Hi Off Hu. destruct (civil_clock_exists (dt_local d)) as (day & h & m & Hc).
  destruct (sunrise_solution d u day h m lat lon sr ss tr Hd Hc Hlat Hs) as (H & HB & _ & _ & _ & _ & A). cbv zeta in A.
  rewrite <- (Rplus_0_r (transit_hours _ _ _)) in A.
  destruct (sun_clock d u day h m lat lon el tr ut 0 Hd Hc Hi Off Hl Hu ltac:(lra) Hlon Hel ltac:(lra) A) as (dec & ha & k & E & _ & K).
  exists dec, ha, k. split; [exact E|]. replace (ha - 360 * IZR k) with (ha - 15 * 0 - 360 * IZR k) by ring. exact K.
Qed.

(* a case: 21 June 2020, latitude 40, longitude 75 west, five hours behind UTC *)
Lemma sample_after t w : hours_after (dt_local sample_dt) (transit_hours (dt_local sample_dt - sample_u) (-75) 173 + w) (dt_local t) ->
  -12 <= w <= 12 -> dt_tz t = dt_tz sample_dt ->
  exists ut, instant t ut /\ (dt_local t - ut = dt_local sample_dt - sample_u)%Z /\ (midnight 1901 1 1 <= ut < midnight 2100 1 1)%Z.
Proof.
  intros Ha Hw Ht. exists (dt_local t + 18000000000)%Z. split.
  - exists sample_tz, (-18000000000)%Z. rewrite Ht. split; [reflexivity|]. split; [reflexivity|]. split; [reflexivity|]. lia.
  - split; [change (dt_local sample_dt - sample_u)%Z with (-18000000000)%Z; lia|].
    unfold hours_after, transit_hours in Ha. apply Rabs_le_inv in Ha. pose proof (fourier_eot_range 173) as Q. set (q := fourier_eot 173) in *. clearbody q.
    change (IZR (dt_local sample_dt - sample_u)) with (IZR (-18000000000)) in Ha.
    change (midnight 1901 1 1) with 59958144000000000%Z. change (midnight 2100 1 1) with 66238041600000000%Z.
    assert (E : day_start (dt_local sample_dt) = 63728294400000000%Z) by (vm_compute; reflexivity). rewrite E in Ha. split; [apply le_IZR|apply lt_IZR]; rewrite plus_IZR; lra.
Qed.
Lemma sunrise_case : exists sr ss tr, get_sunrise_sunset_transit (N := MathR) (Fin 40) (Fin (-75)) sample_dt = Ok (sr, ss, tr) /\
  (240000000 <= dt_local ss - dt_local sr <= 86160000000)%Z /\
  forall t, t = sr \/ t = ss \/ t = tr -> exists ut, instant t ut /\ (dt_local t - ut = dt_local sample_dt - sample_u)%Z /\ (midnight 1901 1 1 <= ut < midnight 2100 1 1)%Z.
Proof.
  destruct sunrise_samples as (_ & _ & _ & _ & ([[sr ss] tr] & E) & _). exists sr, ss, tr. split; [exact E|].
  pose proof (sunrise_ordered _ _ _ _ _ _ E) as (_ & _ & T1 & T2 & T3).
  destruct (sunrise_solution sample_dt sample_u 173 12 0 40 (-75) sr ss tr sample_instant sample_local_clock ltac:(lra) E) as (H & HB & R & _ & A1 & A2 & A3). cbv zeta in A1, A2, A3.
  assert (HH : 0.5 <= H <= 11.5).
  { assert (D : 23 <= fourier_declination 173 <= 24) by (unfold fourier_declination, sind, cosd; cbv zeta; split; interval). unfold rises_at in R. set (de := fourier_declination (IZR 173)) in *. clearbody de.
    unfold dot, equatorial, up in R.
    assert (B : -0.9 <= cosd (15 * H) <= 0.9).
    { assert (0.69 <= cosd de * cosd 40 <= 0.71) by (unfold cosd; split; interval). assert (0.24 <= sind de * sind 40 <= 0.27) by (unfold sind; split; interval).
      assert (-0.015 <= sind (- (0.833)) <= -0.014) by (unfold sind; split; interval). set (c := cosd (15 * H)) in *. clearbody c.
      replace (cosd de * c * cosd 40 + - (cosd de * sind (15 * H)) * 0 + sind de * sind 40) with (cosd de * cosd 40 * c + sind de * sind 40) in R by ring. split; nra. }
    pose proof PI_RGT_0. split; apply Rnot_lt_le; intros N.
    - assert (0.95 <= cosd (15 * H)); [|lra]. unfold cosd. interval.
    - assert (cosd (15 * H) <= -0.95); [|lra]. unfold cosd. interval. }
  split.
  { unfold hours_after in A1, A2. apply Rabs_le_inv in A1, A2. split; apply le_IZR; rewrite minus_IZR; lra. }
  intros t [-> | [-> | ->]].
  - apply sample_after with (- H); [exact A1|lra|exact T1].
  - apply sample_after with H; [exact A2|lra|exact T2].
  - apply sample_after with 0; [rewrite Rplus_0_r; exact A3|lra|exact T3].
Qed.

(* ---------------------------------------------------------------- clocks put forward during the night *)
(* five hours behind UTC until 02:00 of 8 March 2020, then four: New York *)
Definition spring : Z := (midnight 2020 3 8 + 2 * 3600000000)%Z.
Definition spring_tz : tzinfo := {| tz_id := 1; tz_utcoffset := fun l _ => Some (if (l <? spring)%Z then -18000000000 else -14400000000)%Z |}.
Definition spring_dt : datetime := mk 2020 3 8 0 30 0 0 (Some spring_tz).
Definition spring_u : Z := (midnight 2020 3 8 + 5 * 3600000000 + 30 * 60000000)%Z.
Lemma spring_instant : instant spring_dt spring_u.
Proof. exists spring_tz, (-18000000000)%Z. split; [reflexivity|]. split; [vm_compute; reflexivity|]. split; vm_compute; reflexivity. Qed.
Lemma spring_clock : civil_clock (dt_local spring_dt) 68 0 30.
Proof. split; [exists 2020%Z; vm_compute; intuition discriminate|lia]. Qed.
Lemma spring_wrong el : -100000 <= el <= 100000 ->
  exists sr ss tr ut dec ha e, get_sunrise_sunset_transit (N := MathR) (Fin 40) (Fin (-75)) spring_dt = Ok (sr, ss, tr) /\
    instant sr ut /\ (midnight 2020 3 8 <= ut < midnight 2020 3 9)%Z /\
    get_topocentric_position (N := MathR) (Fin 40) (Fin (-75)) sr (Fin el) = Ok (Fin dec, Fin ha) /\
    get_topocentric_elevation_angle (N := MathR) (Fin 40) (Fin dec) (Fin ha) = Ok (Fin e) /\ e < -7.
Proof.
  intros Hel.
  assert (D : -6 <= fourier_declination (IZR 68) <= -4) by (unfold fourier_declination, sind, cosd; cbv zeta; split; interval).
  assert (S : exists r, get_sunrise_sunset_transit (N := MathR) (Fin 40) (Fin (-75)) spring_dt = Ok r).
  { apply (sunrise_raises_iff _ _ _ _ _ 40 (-75) spring_instant spring_clock ltac:(lra) ltac:(lra)); [vm_compute; intuition discriminate|].
    apply has_solution; [lra..|]. apply asin_ok_iff. unfold cos_H, tand, cosd, sind, rad.
    revert D. generalize (fourier_declination (IZR 68)). intros x D. split; interval. }
  destruct S as [[[sr ss] tr] E].
  pose proof (sunrise_ordered _ _ _ _ _ _ E) as (_ & _ & T1 & _ & _).
  destruct (sunrise_solution spring_dt spring_u 68 0 30 40 (-75) sr ss tr spring_instant spring_clock ltac:(lra) E) as (H & HB & R & _ & A1 & _ & _). cbv zeta in A1.
  assert (HH : 5.6 <= H <= 6).
  { unfold rises_at in R. set (de := fourier_declination (IZR 68)) in *. clearbody de. unfold dot, equatorial, up in R.
    assert (B : 0.03 <= cosd (15 * H) <= 0.09).
    { assert (0.76 <= cosd de * cosd 40 <= 0.7643) by (unfold cosd; split; interval). assert (-0.0673 <= sind de * sind 40 <= -0.0447) by (unfold sind; split; interval).
      assert (-0.01455 <= sind (- (0.833)) <= -0.01453) by (unfold sind; split; interval). set (c := cosd (15 * H)) in *. clearbody c.
      replace (cosd de * c * cosd 40 + - (cosd de * sind (15 * H)) * 0 + sind de * sind 40) with (cosd de * cosd 40 * c + sind de * sind 40) in R by ring. split; nra. }
    pose proof PI_RGT_0. split; apply Rnot_lt_le; intros N.
    - assert (0.1 <= cosd (15 * H)); [|lra]. unfold cosd. interval.
    - assert (cosd (15 * H) <= 0.01); [|lra]. unfold cosd. interval. }
  unfold hours_after, transit_hours in A1. apply Rabs_le_inv in A1. pose proof (fourier_eot_range (IZR 68)) as Q.
  assert (DS : day_start (dt_local spring_dt) = 63719222400000000%Z) by (vm_compute; reflexivity).
  assert (OF : (dt_local spring_dt - spring_u = -18000000000)%Z) by (vm_compute; reflexivity).
  assert (SB : (63719222400000000 + 19000000000 <= dt_local sr <= 63719222400000000 + 25000000000)%Z).
  { rewrite DS, OF in A1. set (q := fourier_eot (IZR 68)) in *. clearbody q. split; apply le_IZR; rewrite plus_IZR; lra. }
  set (ut := (dt_local sr + 14400000000)%Z).
  assert (I : instant sr ut).
  { exists spring_tz, (-14400000000)%Z. rewrite T1. split; [reflexivity|]. split; [|split; [reflexivity|unfold ut; lia]].
    cbn [tz_utcoffset spring_tz]. change spring with 63719229600000000%Z. destruct (Z.ltb_spec (dt_local sr) 63719229600000000); [lia|reflexivity]. }
  set (t2 := mkdt (ut - 18000000000) false (Some (fixed_tz (-18000000000)))).
  assert (I2 : instant t2 ut).
  { exists (fixed_tz (-18000000000)), (-18000000000)%Z. split; [reflexivity|]. split; [reflexivity|]. split; [reflexivity|]. cbn [dt_local t2]. lia. }
  assert (UT : (midnight 1901 1 1 <= ut < midnight 2100 1 1)%Z).
  { change (midnight 1901 1 1) with 59958144000000000%Z. change (midnight 2100 1 1) with 66238041600000000%Z. unfold ut. lia. }
  assert (LO : (midnight 1901 1 1 <= dt_local spring_dt < midnight 2100 1 1)%Z) by (vm_compute; intuition discriminate).
  assert (A2 : hours_after (dt_local spring_dt) (transit_hours (dt_local spring_dt - spring_u) (-75) (IZR 68) + - (H + 1)) (dt_local t2)).
  { unfold hours_after, transit_hours. cbn [dt_local t2]. unfold ut. rewrite minus_IZR, plus_IZR. apply Rabs_le. lra. }
  destruct (sun_clock spring_dt spring_u 68 0 30 40 (-75) el t2 ut (- (H + 1)) spring_instant spring_clock I2 ltac:(rewrite OF; cbn [dt_local t2]; lia) LO UT ltac:(lra) ltac:(lra) Hel ltac:(lra) A2) as (dec & ha & k & EP & K1 & K2).
  pose proof (near_direction _ _ _ _ k K1 K2) as C. pose proof (modern_in_range ut UT) as Hr.
  destruct (azimuth_total 40 (-75) t2 el ut I2 Hr ltac:(lra) ltac:(lra)) as (dec' & ha' & az & e & F1 & F2 & F3 & F4 & F5 & F6 & F7).
  rewrite EP in F1. apply Ok_inj in F1. injection F1 as <- <-.
  exists sr, ss, tr, ut, dec, ha, e. split; [exact E|]. split; [exact I|]. split.
  { change (midnight 2020 3 8) with 63719222400000000%Z. change (midnight 2020 3 9) with 63719308800000000%Z. unfold ut. lia. }
  split.
  { rewrite <- EP. apply (timezone_invariance MathR sr t2). exists ut. auto. }
  split; [exact F3|].
  set (v := equatorial (fourier_declination (IZR 68)) (15 * - (H + 1))) in *.
  assert (B : -1 <= dot v (up 40) <= -0.155).
  { unfold v, dot, equatorial, up. set (de := fourier_declination (IZR 68)) in *. clearbody de. unfold sind, cosd. split; interval. }
  set (g := deg (asin (dot v (up 40)))).
  assert (G1 : -90 <= g <= 90) by apply deg_asin_range. assert (G2 : sind g = dot v (up 40)) by (unfold g; rewrite sind_deg; apply sin_asin; lra).
  assert (K : Rabs (e - g) <= 1.34).
  { apply (elevation_within v (equatorial dec ha) (up 40) 1.34 e g (dot_eq _ _) (dot_eq _ _) (dot_up 40)); auto; [lra|]. symmetry. apply F5. }
  assert (G3 : g < -8.5).
  { apply Rnot_le_lt. intros N. assert (-0.15 <= sind g); [|lra].
    apply Rle_trans with (sind (-8.5)); [clear; unfold sind; interval|]. destruct N as [N|N]; [left; apply sind_incr; lra|rewrite N; lra]. }
  apply Rabs_le_inv in K. lra.
Qed.
Lemma sunrise_claim_false : ~ (forall d u lat lon el sr ss tr t ut dec ha e,
  instant d u -> -90 < lat < 90 -> -180 <= lon <= 180 -> -100000 <= el <= 100000 ->
  (midnight 1901 1 1 <= dt_local d < midnight 2100 1 1)%Z ->
  get_sunrise_sunset_transit (N := MathR) (Fin lat) (Fin lon) d = Ok (sr, ss, tr) ->
  (t = sr \/ t = ss) -> instant t ut -> (midnight 1901 1 1 <= ut < midnight 2100 1 1)%Z ->
  get_topocentric_position (N := MathR) (Fin lat) (Fin lon) t (Fin el) = Ok (Fin dec, Fin ha) ->
  get_topocentric_elevation_angle (N := MathR) (Fin lat) (Fin dec) (Fin ha) = Ok (Fin e) -> Rabs (e - -0.833) <= 1.34).
Proof.
  intros C. destruct (spring_wrong 0 ltac:(lra)) as (sr & ss & tr & ut & dec & ha & e & E1 & E2 & E3 & E4 & E5 & E6).
  assert (U : (midnight 1901 1 1 <= ut < midnight 2100 1 1)%Z).
  { change (midnight 1901 1 1) with 59958144000000000%Z. change (midnight 2100 1 1) with 66238041600000000%Z.
    change (midnight 2020 3 8) with 63719222400000000%Z in E3. change (midnight 2020 3 9) with 63719308800000000%Z in E3. lia. }
  assert (LO : (midnight 1901 1 1 <= dt_local spring_dt < midnight 2100 1 1)%Z) by (vm_compute; intuition discriminate).
  specialize (C spring_dt spring_u 40 (-75) 0 sr ss tr sr ut dec ha e spring_instant ltac:(lra) ltac:(lra) ltac:(lra) LO E1 (or_introl eq_refl) E2 U E4 E5).
  apply Rabs_le_inv in C. lra.
Qed.

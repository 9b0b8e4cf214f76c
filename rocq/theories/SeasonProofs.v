(* The seasons: where the sun stands on the days of the year, from 1901 to 2099. *)
From Coq Require Import Reals Qreals Lra Lia.
From Flocq Require Import Core.
From Interval Require Import Tactic.
From Verif Require Import Py Num Cal TzCheck Clock Constants SolarTime Solar RInst RTac SpecTime SpecDt SpecGeom SpecAstro SpecEng
  Trig GeoProofs SeriesProofs SolarTimeProofs JulianProofs PositionProofs SpaProofs FastProofs SpanProofs TopoProofs AngleLip B64Ranges B64Lift B64Final Samples ApproxNum ApproxProofs
  RefractionProofs MotionProofs.
Local Open Scope R_scope.

(* the sun's longitude q degrees into the year, et its small terms *)
Definition slon (q et : R) : R := let x := (280 + q) * (PI / 180) in x + cen 1 x + et.
Definition phase (day : Z) (s : R) : R := 0.98564736 * (IZR day - 1) + s.

Lemma dec_of_day d u day h m lat lon el : instant d u -> (midnight 1901 1 1 <= u < midnight 2100 1 1)%Z -> civil_clock u day h m ->
  -90 <= lat <= 90 -> -100000 <= el <= 100000 ->
  exists dec ha s et ep, get_topocentric_position (N := MathR) (Fin lat) (Fin lon) d (Fin el) = Ok (Fin dec, Fin ha) /\ (1 <= day <= 366)%Z /\
    -0.78 <= s <= 2.45 /\ -0.00155 <= et <= 0.00155 /\ 23.42 <= ep <= 23.46 /\
    Rabs (dec - deg (asin (sin (ep * (PI / 180)) * sin (slon (phase day s) et)))) <= 0.0067.
Proof.
  intros Hi Hu Hc Hlat Hel. pose proof (modern_in_range u Hu) as Hr.
  destruct (position_val lat lon d el u Hi Hr Hlat ltac:(lra)) as (x & y & jd & jde & x0 & y0 & E1 & E2 & B1 & B2 & EP & -> & -> & E & _).
  rewrite (jd_off d u Hi Hr) in E1. rewrite (jde_val d u Hi Hr) in E2. apply Ok_inj in E1, E2. injection E1 as E1. injection E2 as E2.
  destruct (observer_bounds lat el x0 y0 EP Hel) as [BX BY]. set (x := x0 + _) in *. set (y := y0 + _) in *. clearbody x y.
  pose proof (tai_range u) as [T1 T2]. apply IZR_le in T1, T2.
  pose proof (adj_ok (f_year (fields_of_us u)) (f_mon (fields_of_us u)) (fields_mon_range u)) as A.
  destruct (next_ym (f_year (fields_of_us u)) (f_mon (fields_of_us u))) as [y' m']. destruct A as (_ & A1 & A2).
  apply Qle_Rle in A1, A2. replace (Q2R (-34)) with (-34) in A1 by (unfold Q2R; simpl; lra).
  replace (Q2R (-30)) with (-30) in A2 by (unfold Q2R; simpl; lra).
  set (o := Q2R _ + 32.184) in E1. assert (Ho : -1.9 <= o <= 2.2) by (unfold o; lra). clearbody o.
  set (tt := IZR _ + 32.184) in E2. assert (Ht : 42 <= tt <= 69.2) by (unfold tt; lra). clearbody tt. clear A1 A2 T1 T2.
  destruct (calendar u day h m Hu Hc) as (yr & n & r & Yr & Hr' & Hd & Hh & Hm & EU & j & i & Ey & En & Hij).
  assert (UB : 2415385.5 <= jd_utc u < 2488069.5).
  { change (midnight 1901 1 1) with 59958144000000000%Z in Hu. change (midnight 2100 1 1) with 66238041600000000%Z in Hu.
    destruct Hu as [U1 U2]. apply IZR_le in U1. apply IZR_lt in U2. unfold jd_utc. lra. }
  assert (F : 0 <= (60 * IZR h + IZR m + r) / 1440 <= 1).
  { assert (0 <= IZR h <= 23) by (split; apply IZR_le; lia). assert (0 <= IZR m <= 59) by (split; apply IZR_le; lia). lra. }
  destruct (phase_gen u day ((60 * IZR h + IZR m + r) / 1440) yr n j i (tt / 86400) jde Yr Hd ltac:(lra) EU Ey En Hij (eq_sym E2) ltac:(lra)) as (s & Hs & EX).
  destruct (sun_at u lon x y jd jde o tt _ _ UB (eq_sym E1) Ho (eq_sym E2) Ht BX BY EX) as (et & k & Het & O & DD & _).
  do 2 eexists. exists s, et, (true_obl jde). split; [exact E|]. split; [exact Hd|]. split; [lra|]. split; [exact Het|]. split; [exact O|].
  set (ep := true_obl jde) in *.
  assert (SE : 0.39 <= sin (ep * (PI / 180)) <= 0.3982) by (clearbody ep; split; interval).
  assert (EX' : xm 0 (IZR day) s + cen 1 (xm 0 (IZR day) s) + et = slon (phase day s) et).
  { unfold slon, phase, xm. cbv zeta. replace (280 + 0 + 0.98564736 * (IZR day - 1) + s) with (280 + (0.98564736 * (IZR day - 1) + s)) by ring. reflexivity. }
  rewrite EX' in DD. set (S := sin (ep * (PI / 180)) * sin (slon (phase day s) et)) in *.
  assert (SB : -0.3982 <= S <= 0.3982).
  { unfold S. pose proof (SIN_bound (slon (phase day s) et)). pose proof (prod_le (sin (ep * (PI / 180))) (sin (slon (phase day s) et)) 0.3982 1 ltac:(lra) ltac:(lra)). lra. }
  clearbody S. assert (AS : -0.41 <= asin S <= 0.41).
  { assert (PI > 3) by interval. apply asin_between; try lra. split; interval. }
  pose proof (DD (asin S) 0 ltac:(lra) ltac:(lra)) as K.
  rewrite Rmult_0_l, Rminus_0_r, Rplus_0_r, sin_asin in K by lra. specialize (K ltac:(lra)). apply Rabs_le. lra.
Qed.

(* the same, whole and half turns away, where interval arithmetic evaluates it *)
Definition slonk (k c q et : R) : R := let x := (280 + c + q) * (PI / 180) in x + cen k x + et.
Lemma slon_first q et : sin (slon q et) = sin (slonk 1 (-360) q et).
Proof.
  unfold slon, slonk. cbv zeta. set (y := (280 + -360 + q) * (PI / 180)). replace ((280 + q) * (PI / 180)) with (y + 2 * PI) by (unfold y; field).
  rewrite cen_first. replace (y + 2 * PI + cen 1 y + et) with (y + cen 1 y + et + 2 * PI) by ring. apply sin_2.
Qed.
Lemma slon_second q et : sin (slon q et) = - sin (slonk (-1) (-540) q et).
Proof.
  unfold slon, slonk. cbv zeta. set (y := (280 + -540 + q) * (PI / 180)). replace ((280 + q) * (PI / 180)) with (y + 3 * PI) by (unfold y; field).
  rewrite cen_second. replace (y + 3 * PI + cen (-1) y + et) with (y + cen (-1) y + et + PI + 2 * PI) by ring. rewrite sin_2. apply sin_1.
Qed.
Lemma spring q et : 79.05 <= q <= 180 -> -0.00155 <= et <= 0.00155 -> 0.001 <= sin (slonk 1 (-360) q et).
Proof. intros. unfold slonk, cen. interval with (i_bisect q, i_prec 40, i_depth 30). Qed.
Lemma summer q et : 180 <= q <= 261.7 -> -0.00155 <= et <= 0.00155 -> sin (slonk (-1) (-540) q et) <= -0.001.
Proof. intros. unfold slonk, cen. interval with (i_bisect q, i_prec 40, i_depth 30). Qed.
Lemma autumn q et : 262.3 <= q <= 362.3 -> -0.00155 <= et <= 0.00155 -> 0.001 <= sin (slonk (-1) (-540) q et).
Proof. intros. unfold slonk, cen. interval with (i_bisect q, i_prec 40, i_depth 30). Qed.
Lemma winter q et : -0.8 <= q <= 77.4 -> -0.00155 <= et <= 0.00155 -> sin (slonk 1 (-360) q et) <= -0.001.
Proof. intros. unfold slonk, cen. interval with (i_bisect q, i_prec 40, i_depth 30). Qed.
Lemma june q et : 164.8 <= q <= 174.95 -> -0.00155 <= et <= 0.00155 -> 0.9955 <= sin (slonk 1 (-360) q et).
Proof. intros. unfold slonk, cen. interval with (i_bisect q, i_prec 40, i_depth 30). Qed.
Lemma december q et : 346.1 <= q <= 355.35 -> -0.00155 <= et <= 0.00155 -> 0.9955 <= sin (slonk (-1) (-540) q et).
Proof. intros. unfold slonk, cen. interval with (i_bisect q, i_prec 40, i_depth 30). Qed.

Lemma asin_above a lo : -1 <= a <= 1 -> - (PI / 2) <= lo <= PI / 2 -> sin lo <= a -> lo <= asin a.
Proof.
  intros A L H. pose proof (asin_bound a). destruct (Rle_dec lo (asin a)) as [|N]; [assumption|exfalso].
  assert (K : sin (asin a) < sin lo) by (apply sin_increasing_1; lra). rewrite sin_asin in K by exact A. lra.
Qed.
Lemma dec_above ep sl lo : 23.42 <= ep <= 23.46 -> -1 <= sl <= 1 -> - (PI / 2) <= rad lo <= PI / 2 -> sin (rad lo) <= sin (ep * (PI / 180)) * sl ->
  lo <= deg (asin (sin (ep * (PI / 180)) * sl)).
Proof.
  intros He Hs Hl H. assert (SE : 0.39 <= sin (ep * (PI / 180)) <= 0.3982) by (split; interval). set (se := sin (ep * (PI / 180))) in *. clearbody se.
  assert (B : -1 <= se * sl <= 1) by (pose proof (prod_le se sl 0.3982 1 ltac:(lra) Hs); lra).
  pose proof (asin_above (se * sl) (rad lo) B Hl H) as K. pose proof PI_RGT_0.
  replace lo with (deg (rad lo)) by (unfold deg, rad; field; lra). unfold deg. apply Rmult_le_compat_r; [|exact K]. apply Rlt_le, Rdiv_lt_0_compat; lra.
Qed.
Lemma dec_mirror ep sl : 23.42 <= ep <= 23.46 -> -1 <= sl <= 1 -> deg (asin (sin (ep * (PI / 180)) * sl)) = - deg (asin (sin (ep * (PI / 180)) * - sl)).
Proof. intros He Hs. replace (sin (ep * (PI / 180)) * - sl) with (- (sin (ep * (PI / 180)) * sl)) by ring. rewrite asin_opp. unfold deg. ring. Qed.
Lemma north_half ep sl : 23.42 <= ep <= 23.46 -> 0.001 <= sl <= 1 -> 0.02 <= deg (asin (sin (ep * (PI / 180)) * sl)).
Proof.
  intros He Hs. assert (P : 3 < PI < 3.2) by (split; interval). apply dec_above; [exact He|lra|unfold rad; lra|].
  assert (SE : 0.39 <= sin (ep * (PI / 180))) by interval. assert (sin (rad 0.02) <= 0.00036) by (unfold rad; interval). nra.
Qed.
Lemma north_end ep sl : 23.42 <= ep <= 23.46 -> 0.9955 <= sl <= 1 -> 23.3067 <= deg (asin (sin (ep * (PI / 180)) * sl)).
Proof.
  intros He Hs. assert (P : 3 < PI < 3.2) by (split; interval). apply dec_above; [exact He|lra|unfold rad; lra|].
  assert (SE : 0.39746 <= sin (ep * (PI / 180))) by interval. assert (sin (rad 23.3067) <= 0.395654) by (unfold rad; interval). nra.
Qed.

Lemma seasons d u day h m lat lon el dec ha : instant d u -> (midnight 1901 1 1 <= u < midnight 2100 1 1)%Z -> civil_clock u day h m ->
  -90 <= lat <= 90 -> -100000 <= el <= 100000 ->
  get_topocentric_position (N := MathR) (Fin lat) (Fin lon) d (Fin el) = Ok (Fin dec, Fin ha) ->
  ((82 <= day <= 264)%Z -> 0 < dec) /\ ((day <= 77 \/ 268 <= day)%Z -> dec < 0) /\
  ((169 <= day <= 176)%Z -> 23.3 <= dec) /\ ((353 <= day <= 359)%Z -> dec <= -23.3).
Proof.
  intros Hi Hu Hc Hlat Hel E.
  destruct (dec_of_day d u day h m lat lon el Hi Hu Hc Hlat Hel) as (dec' & ha' & s & et & ep & E' & Hd & Hs & Het & Hep & K).
  rewrite E' in E. apply Ok_inj in E. injection E as -> ->. clear E'. apply Rabs_le_inv in K.
  assert (QB : forall a b, (a <= day <= b)%Z -> 0.98564736 * (IZR a - 1) - 0.78 <= phase day s <= 0.98564736 * (IZR b - 1) + 2.45).
  { intros a b [A B]. apply IZR_le in A, B. unfold phase. lra. }
  set (q := phase day s) in *. clearbody q. pose proof (SIN_bound (slon q et)) as SB.
  pose proof (slon_first q et) as F1. pose proof (slon_second q et) as F2. set (sl := sin (slon q et)) in *.
  assert (North : 0.001 <= sl -> 0 < dec) by (intros L; pose proof (north_half ep sl Hep ltac:(lra)); lra).
  assert (South : sl <= -0.001 -> dec < 0) by (intros L; pose proof (dec_mirror ep sl Hep ltac:(lra)); pose proof (north_half ep (- sl) Hep ltac:(lra)); lra).
  split; [|split; [|split]].
  - intros D. apply North. pose proof (QB _ _ D) as Q. destruct (Rle_dec q 180) as [L|L].
    + rewrite F1. apply spring; lra.
    + rewrite F2. pose proof (summer q et ltac:(lra) Het). lra.
  - intros [D|D]; apply South.
    + pose proof (QB 1%Z 77%Z ltac:(lia)) as Q. rewrite F1. apply winter; lra.
    + pose proof (QB 268%Z 366%Z ltac:(lia)) as Q. rewrite F2. pose proof (autumn q et ltac:(lra) Het). lra.
  - intros D. pose proof (QB _ _ D) as Q. pose proof (june q et ltac:(lra) Het). pose proof (north_end ep sl Hep ltac:(lra)). lra.
  - intros D. pose proof (QB _ _ D) as Q. pose proof (december q et ltac:(lra) Het).
    pose proof (dec_mirror ep sl Hep ltac:(lra)). pose proof (north_end ep (- sl) Hep ltac:(lra)). lra.
Qed.

(* ---------------------------------------------------------------- high latitudes *)
Lemma altitude_of_day d u day h m lat lon el : instant d u -> (midnight 1901 1 1 <= u < midnight 2100 1 1)%Z -> civil_clock u day h m ->
  -90 <= lat <= 90 -> -100000 <= el <= 100000 ->
  exists dec ha e, get_topocentric_position (N := MathR) (Fin lat) (Fin lon) d (Fin el) = Ok (Fin dec, Fin ha) /\
    get_topocentric_elevation_angle (N := MathR) (Fin lat) (Fin dec) (Fin ha) = Ok (Fin e) /\
    Rabs (lat + dec) - 90 <= e <= 90 - Rabs (lat - dec) /\
    ((82 <= day <= 264)%Z -> 0 < dec) /\ ((day <= 77 \/ 268 <= day)%Z -> dec < 0) /\
    ((169 <= day <= 176)%Z -> 23.3 <= dec) /\ ((353 <= day <= 359)%Z -> dec <= -23.3) /\
    (forall T P, 0 < T -> 0 <= P -> 0 < e <= 89.89 -> exists a, e <= a /\ get_altitude (N := MathR) (Fin lat) (Fin lon) d (Fin el) (Fin T) (Fin P) = Ok (Fin a)) /\
    (forall T P a, e < -0.83337 -> get_altitude (N := MathR) (Fin lat) (Fin lon) d (Fin el) T P = Ok a -> a = Fin e).
Proof.
  intros Hi Hu Hc Hlat Hel. pose proof (modern_in_range u Hu) as Hr.
  destruct (azimuth_total lat lon d el u Hi Hr Hlat ltac:(lra)) as (dec & ha & az & e & H1 & B & H2 & H3 & H4 & H5 & H6).
  exists dec, ha, e. split; [exact H1|]. split; [exact H2|].
  split; [apply (tropics d u lat lon el dec ha e Hi Hu Hlat Hel H1 H2)|].
  destruct (seasons d u day h m lat lon el dec ha Hi Hu Hc Hlat Hel H1) as (S1 & S2 & S3 & S4). do 4 (split; [assumption|]).
  split.
  - intros T P HT HP He. destruct (refraction_nonneg P T e HP HT ltac:(lra) ltac:(lra)) as (r & Er & Hr0). exists (e + r). split; [lra|].
    unfold get_altitude. rewrite (instant_aware d u Hi), bind_Ok, H1, bind_Ok, H2, bind_Ok, Er, bind_Ok, add_R. reflexivity.
  - intros T P a He Ha. unfold get_altitude in Ha. rewrite (instant_aware d u Hi), bind_Ok, H1, bind_Ok, H2, bind_Ok in Ha.
    destruct (get_refraction_correction P T (Fin e)) as [r|x] eqn:Er; [|discriminate Ha].
    rewrite (refraction_returns_below P T e r He Er) in Ha. rewrite bind_Ok in Ha. apply Ok_inj in Ha. rewrite <- Ha, add_R, Rplus_0_r. reflexivity.
Qed.

Lemma midnight_sun d u day h m lat lon el T P : instant d u -> (midnight 1901 1 1 <= u < midnight 2100 1 1)%Z -> civil_clock u day h m ->
  -90 <= lat <= 90 -> -100000 <= el <= 100000 -> 0 < T -> 0 <= P ->
  (66.71 <= lat /\ (169 <= day <= 176)%Z \/ lat <= -66.71 /\ (353 <= day <= 359)%Z) ->
  exists a, 0 < a /\ get_altitude (N := MathR) (Fin lat) (Fin lon) d (Fin el) (Fin T) (Fin P) = Ok (Fin a).
Proof.
  intros Hi Hu Hc Hlat Hel HT HP HS.
  destruct (altitude_of_day d u day h m lat lon el Hi Hu Hc Hlat Hel) as (dec & ha & e & E1 & E2 & B & _ & _ & S3 & S4 & UP & _).
  pose proof (tropics d u lat lon el dec ha e Hi Hu Hlat Hel E1 E2) as (TD & _ & _). apply Rabs_le_inv in TD.
  assert (K : 0 < e <= 89.89).
  { destruct HS as [[L D]|[L D]]; [specialize (S3 D)|specialize (S4 D)]; unfold Rabs in B; destruct (Rcase_abs (lat + dec)), (Rcase_abs (lat - dec)); lra. }
  destruct (UP T P HT HP K) as (a & A & EA). exists a. split; [lra|exact EA].
Qed.
Lemma polar_night d u day h m lat lon el T P a : instant d u -> (midnight 1901 1 1 <= u < midnight 2100 1 1)%Z -> civil_clock u day h m ->
  -90 <= lat <= 90 -> -100000 <= el <= 100000 ->
  (67.6 <= lat /\ (353 <= day <= 359)%Z \/ lat <= -67.6 /\ (169 <= day <= 176)%Z) ->
  get_altitude (N := MathR) (Fin lat) (Fin lon) d (Fin el) T P = Ok a -> exists a', a = Fin a' /\ a' <= -0.9.
Proof.
  intros Hi Hu Hc Hlat Hel HS HA.
  destruct (altitude_of_day d u day h m lat lon el Hi Hu Hc Hlat Hel) as (dec & ha & e & E1 & E2 & B & _ & _ & S3 & S4 & _ & DN).
  exists e. assert (K : e <= -0.9).
  { destruct HS as [[L D]|[L D]]; [specialize (S4 D)|specialize (S3 D)]; unfold Rabs in B; destruct (Rcase_abs (lat + dec)), (Rcase_abs (lat - dec)); lra. }
  split; [apply (DN T P a ltac:(lra) HA)|exact K].
Qed.
(* at the poles the sun is up for half the year and its elevation is the declination *)
Lemma poles d u day h m lon el : instant d u -> (midnight 1901 1 1 <= u < midnight 2100 1 1)%Z -> civil_clock u day h m -> -100000 <= el <= 100000 ->
  (exists dec ha, get_topocentric_position (N := MathR) (Fin 90) (Fin lon) d (Fin el) = Ok (Fin dec, Fin ha) /\
    get_topocentric_elevation_angle (N := MathR) (Fin 90) (Fin dec) (Fin ha) = Ok (Fin dec) /\
    ((82 <= day <= 264)%Z -> 0 < dec) /\ ((day <= 77 \/ 268 <= day)%Z -> dec < 0)) /\
  (exists dec ha, get_topocentric_position (N := MathR) (Fin (-90)) (Fin lon) d (Fin el) = Ok (Fin dec, Fin ha) /\
    get_topocentric_elevation_angle (N := MathR) (Fin (-90)) (Fin dec) (Fin ha) = Ok (Fin (- dec)) /\
    ((82 <= day <= 264)%Z -> - dec < 0) /\ ((day <= 77 \/ 268 <= day)%Z -> 0 < - dec)).
Proof.
  intros Hi Hu Hc Hel. split.
  - destruct (altitude_of_day d u day h m 90 lon el Hi Hu Hc ltac:(lra) Hel) as (dec & ha & e & E1 & E2 & B & S1 & S2 & _).
    pose proof (tropics d u 90 lon el dec ha e Hi Hu ltac:(lra) Hel E1 E2) as (TD & _ & _). apply Rabs_le_inv in TD.
    exists dec, ha. split; [exact E1|]. split; [|split; assumption]. rewrite E2. do 2 f_equal.
    rewrite (Rabs_pos_eq (90 + dec)), (Rabs_pos_eq (90 - dec)) in B by lra. lra.
  - destruct (altitude_of_day d u day h m (-90) lon el Hi Hu Hc ltac:(lra) Hel) as (dec & ha & e & E1 & E2 & B & S1 & S2 & _).
    pose proof (tropics d u (-90) lon el dec ha e Hi Hu ltac:(lra) Hel E1 E2) as (TD & _ & _). apply Rabs_le_inv in TD.
    exists dec, ha. split; [exact E1|]. split; [|split; intros D; [pose proof (S1 D)|pose proof (S2 D)]; lra]. rewrite E2. do 2 f_equal.
    rewrite (Rabs_left1 (-90 + dec)), (Rabs_left1 (-90 - dec)) in B by lra. lra.
Qed.
(* cases: noon UTC of 25 March, 21 June, 30 September and 21 December 2000 *)
Definition noon2000 (m dd : Z) : Z := (midnight 2000 m dd + 43200000000)%Z.
Lemma season_days : (midnight 1901 1 1 <= noon2000 3 25 < midnight 2100 1 1)%Z /\ civil_clock (noon2000 3 25) 85 12 0 /\
  (midnight 1901 1 1 <= noon2000 6 21 < midnight 2100 1 1)%Z /\ civil_clock (noon2000 6 21) 173 12 0 /\
  (midnight 1901 1 1 <= noon2000 9 30 < midnight 2100 1 1)%Z /\ civil_clock (noon2000 9 30) 274 12 0 /\
  (midnight 1901 1 1 <= noon2000 12 21 < midnight 2100 1 1)%Z /\ civil_clock (noon2000 12 21) 356 12 0 /\
  forall u, instant (at_utc u) u.
Proof.
  do 4 (split; [vm_compute; intuition discriminate|]; split; [split; [exists 2000%Z; vm_compute; intuition discriminate|lia]|]). exact at_utc_instant.
Qed.

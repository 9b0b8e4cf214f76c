(* The fast functions of solar.py (lines 46-49, 133-142, 165-178, 197-203, 243-252) over the
   reals. *)
From Coq Require Import Reals Qreals Lra Lia ZifyBool.
From Interval Require Import Tactic.
From Verif Require Import Py Num Cal CalProofs TzCheck Clock Constants SolarTime Solar GenProofs
  SolarTimeProofs RInst RTac Trig GeoProofs Rel RelInst SpecTime SpecDt SpecGeom SpecEng.
Local Open Scope R_scope.

(* ---------------------------------------------------------------- civil time *)
Lemma hour_min_us u : f_hour (fields_of_us u) = ((u mod 86400000000) / 3600000000)%Z /\
  f_min (fields_of_us u) = ((u mod 3600000000) / 60000000)%Z.
Proof.
  unfold fields_of_us. destruct (ord2ymd _) as [[y' m'] d']. cbn [f_hour f_min].
  change us_per_day with 86400000000%Z. split; zlia.
Qed.

Lemma midnight_year y : (midnight y 1 1 = days_before_year y * 86400000000)%Z.
Proof.
  rewrite midnight_us by lia. unfold us_of_fields, ymd2ord, days_before_month.
  cbn [f_year f_mon f_day f_hour f_min f_sec f_us]. cbn. lia.
Qed.

Lemma civil_clock_fields u day h m : civil_clock u day h m ->
  f_yday (fields_of_us u) = day /\ f_hour (fields_of_us u) = h /\ f_min (fields_of_us u) = m.
Proof.
  intros ((y & (L & L') & S) & Hh & Hm). cbv zeta in S.
  assert (Ey : f_year (fields_of_us u) = y).
  { pose proof (midnight_le y 1 u ltac:(lia)) as E1. pose proof (midnight_le (y + 1) 1 u ltac:(lia)) as E2.
    pose proof (fields_mon_range u). lia. }
  rewrite fields_of_us_yday, Ey. destruct (hour_min_us u) as [-> ->]. clear Ey.
  rewrite midnight_year in *. clear L L'. change us_per_day with 86400000000%Z in *.
  set (k := days_before_year y) in *. clearbody k.
  repeat split; zlia.
Qed.

Lemma civil_clock_exists u : exists day h m, civil_clock u day h m.
Proof.
  exists (f_yday (fields_of_us u)), (f_hour (fields_of_us u)), (f_min (fields_of_us u)).
  rewrite fields_of_us_yday. destruct (hour_min_us u) as [-> ->].
  set (y := f_year (fields_of_us u)).
  pose proof (midnight_le y 1 u ltac:(lia)) as E1. pose proof (midnight_le (y + 1) 1 u ltac:(lia)) as E2.
  pose proof (fields_mon_range u).
  split.
  - exists y. split; [unfold y in *; lia|]. cbv zeta. rewrite midnight_year in *.
    change us_per_day with 86400000000%Z.
    clear E1 E2 H. set (k := days_before_year y). clearbody k. zlia.
  - zlia.
Qed.

Lemma clock_vals d u day h m : instant d u -> in_range u = true -> civil_clock u day h m ->
  tm_yday (clock_math MathR) d = Ok (Fin (IZR day)) /\
  tm_hour (clock_math MathR) d = Ok (Fin (IZR h)) /\
  tm_min (clock_math MathR) d = Ok (Fin (IZR m)).
Proof.
  intros Hi Hr Hc. apply civil_clock_fields in Hc as (<- & <- & <-).
  cbn [clock_math tm_yday tm_hour tm_min]. unfold tm_yday_math, tm_hour_math, tm_min_math.
  rewrite (instant_utctimetuple d u Hi), Hr. simpl. rewrite !Q2R_inject. auto.
Qed.

(* ---------------------------------------------------------------- formulas *)
Lemma declination_val day : get_declination (N := MathR) (Fin day) = Ok (Fin (masters_declination day)).
Proof.
  unfold get_declination, masters_declination, earth_axis_inclination. rx. do 3 f_equal.
  - unfold sind. f_equal. unfold Q2R; simpl. field.
Qed.

Lemma eot_val day : equation_of_time (N := MathR) (Fin day) = Ok (Fin (masters_eot day)).
Proof.
  unfold equation_of_time, masters_eot. rx. do 2 f_equal.
  unfold sind, cosd. replace (Q2R 364.0) with 364 by (unfold Q2R; simpl; lra).
  repeat match goal with |- context [sin ?a] => progress (ring_simplify a) end.
  f_equal; [f_equal|]; f_equal; f_equal; field.
Qed.

Lemma solar_time_val d u day h m lon : instant d u -> in_range u = true -> civil_clock u day h m ->
  get_solar_time (N := MathR) (C := clock_math MathR) (Fin lon) d =
  Ok (Fin (masters_solar_time (IZR day) (IZR h) (IZR m) lon)).
Proof.
  intros Hi Hr Hc. destruct (clock_vals d u day h m Hi Hr Hc) as (E1 & E2 & E3).
  unfold get_solar_time. rewrite E1, E2, E3. cbn [clock_math aware_check]. rewrite (instant_aware d u Hi).
  rewrite !bind_Ok, eot_val. rx. do 2 f_equal. unfold masters_solar_time. field.
Qed.

Lemma hour_angle_val d u day h m lon : instant d u -> in_range u = true -> civil_clock u day h m ->
  get_hour_angle (N := MathR) (C := clock_math MathR) d (Fin lon) =
  Ok (Fin (masters_hour_angle (IZR day) (IZR h) (IZR m) lon)).
Proof.
  intros Hi Hr Hc. unfold get_hour_angle. cbn [clock_math aware_check]. rewrite (instant_aware d u Hi).
  rewrite bind_Ok. rewrite (solar_time_val d u day h m) by assumption. rx. do 2 f_equal.
  unfold masters_hour_angle. unfold Q2R; simpl. lra.
Qed.

Lemma masters_declination_range n : -23.45 <= masters_declination n <= 23.45.
Proof. unfold masters_declination. pose proof (sind_bound (360 / 365 * (n - 81))). lra. Qed.

(* ---------------------------------------------------------------- fast altitude *)
Lemma altitude_fast_val d u day h m lat lon : instant d u -> in_range u = true -> civil_clock u day h m ->
  let v := equatorial (masters_declination (IZR day)) (masters_hour_angle (IZR day) (IZR h) (IZR m) lon) in
  -1 <= dot v (up lat) <= 1 /\
  get_altitude_fast (N := MathR) (C := clock_math MathR) (Fin lat) (Fin lon) d =
  Ok (Fin (deg (asin (dot v (up lat))))).
Proof.
  intros Hi Hr Hc v.
  pose proof (sincosd lat). 
  set (de := masters_declination (IZR day)) in *. set (ha := masters_hour_angle (IZR day) (IZR h) (IZR m) lon) in *.
  assert (Hb : -1 <= dot v (up lat) <= 1).
  { unfold v, dot, up, equatorial. pose proof (sincosd de). pose proof (sincosd lat). pose proof (cosd_bound ha).
    pose proof (unit_dot (sind de) (cosd de) (sind lat) (cosd lat) (cosd ha) ltac:(lra) ltac:(lra) ltac:(lra)). lra. }
  split; [exact Hb|].
  unfold get_altitude_fast. destruct (clock_vals d u day h m Hi Hr Hc) as (E1 & _ & _).
  rewrite E1. cbn [clock_math aware_check]. rewrite (instant_aware d u Hi). rewrite !bind_Ok, declination_val, bind_Ok.
  rewrite (hour_angle_val d u day h m) by assumption. fold de ha. rx.
  rewrite <- ?sind_rad, <- ?cosd_rad.
  match goal with |- context [nasin (Fin ?x)] => replace x with (dot v (up lat)) by (unfold v, dot, up, equatorial; ring) end.
  rx. reflexivity.
Qed.

(* ---------------------------------------------------------------- fast azimuth *)
Lemma frame_norm lat de ha : let v := equatorial de ha in
  dot v east * dot v east + dot v (north lat) * dot v (north lat) + dot v (up lat) * dot v (up lat) = 1.
Proof.
  cbv zeta. unfold dot, equatorial, east, north, up.
  pose proof (sincosd de) as H1. pose proof (sincosd ha) as H2. pose proof (sincosd lat) as H3.
  replace (_ + _ + _) with ((sind de * sind de + cosd de * cosd de * (cosd ha * cosd ha)) * (sind lat * sind lat + cosd lat * cosd lat)
     + cosd de * cosd de * (sind ha * sind ha)) by ring.
  rewrite H3. replace (_ + _) with (sind de * sind de + cosd de * cosd de * (sind ha * sind ha + cosd ha * cosd ha)) by ring.
  rewrite H2. lra.
Qed.

(* the azimuth computed from the arc sine and the quadrant test *)
Lemma azimuth_of_asin E N c : 0 < c -> E * E + N * N = c * c ->
  let a := deg (asin (E / c)) in
  let A := if Rbool_le N 0 then 180 - a else a + 360 * (if Rbool_lt (asin (E / c)) 0 then 1 else 0) in
  -1 <= E / c <= 1 /\ 0 <= A < 360 /\ sind A * c = E /\ cosd A * c = N.
Proof.
  intros Hc Hn a A. set (q := E / c) in *.
  assert (Eq : q * c = E) by (unfold q; field; lra).
  assert (Hq : -1 <= q <= 1).
  { assert (q * q <= 1); [|split; nra]. apply Rmult_le_reg_r with (c * c); [nra|].
    replace (q * q * (c * c)) with (E * E) by (rewrite <- Eq; ring). nra. }
  split; [exact Hq|].
  pose proof (deg_asin_range q) as Ra. fold a in Ra.
  assert (Sa : sind a = q) by (unfold a; rewrite sind_deg; apply sin_asin; lra).
  assert (Ca : cosd a * c = Rabs N).
  { apply sqr_eq_nonneg; [apply Rmult_le_pos; [apply cosd_nonneg; lra|lra]|apply Rabs_pos|].
    pose proof (sincosd a) as Hs. rewrite Sa in Hs.
    replace (cosd a * c * (cosd a * c)) with (cosd a * cosd a * (c * c)) by ring.
    replace (cosd a * cosd a) with (1 - q * q) by lra.
    replace ((1 - q * q) * (c * c)) with (c * c - (q * c) * (q * c)) by ring. rewrite Eq.
    rewrite <- Rabs_mult. rewrite Rabs_pos_eq by nra. lra. }
  assert (S360 : forall x, sind (x + 360) = sind x) by (intros x; apply same_angle_sin; exists 1%Z; lra).
  assert (C360 : forall x, cosd (x + 360) = cosd x) by (intros x; apply same_angle_cos; exists 1%Z; lra).
  unfold A. destruct (Rle_dec N 0) as [L|L].
  - rewrite Rbool_le_true by assumption. rewrite sind_supp, cosd_supp, Sa.
    rewrite Rabs_left1 in Ca by assumption. split; [lra|]. split; lra.
  - rewrite Rbool_le_false by lra. rewrite Rabs_pos_eq in Ca by lra.
    destruct (Rlt_dec (asin q) 0) as [La|La].
    + rewrite Rbool_lt_true by assumption. rewrite Rmult_1_r, S360, C360, Sa.
      assert (a < 0) by (unfold a; rewrite <- deg_0; now apply deg_lt). split; [lra|]. split; lra.
    + rewrite Rbool_lt_false by lra. rewrite Rmult_0_r, Rplus_0_r, Sa.
      assert (0 <= a) by (unfold a; rewrite <- deg_0; apply deg_le; lra). split; [lra|]. split; lra.
Qed.

Lemma azimuth_fast_cases d u day h m lat lon : instant d u -> in_range u = true -> civil_clock u day h m ->
  -90 < lat < 90 ->
  let v := equatorial (masters_declination (IZR day)) (masters_hour_angle (IZR day) (IZR h) (IZR m) lon) in
  let e := deg (asin (dot v (up lat))) in
  (cosd e = 0 /\ get_azimuth_fast (N := MathR) (C := clock_math MathR) (Fin lat) (Fin lon) d = Err ZeroDivisionError) \/
  (0 < cosd e /\ exists A, get_azimuth_fast (N := MathR) (C := clock_math MathR) (Fin lat) (Fin lon) d = Ok (Fin A) /\
     0 <= A < 360 /\ horizontal_coordinates lat v A e).
Proof.
  intros Hi Hr Hc Hlat v e.
  destruct (altitude_fast_val d u day h m lat lon Hi Hr Hc) as (Hb & Ea). fold v in Hb, Ea. fold e in Ea.
  pose proof (masters_declination_range (IZR day)) as Hde.
  pose proof (hour_angle_val d u day h m lon Hi Hr Hc) as Eh.
  destruct (clock_vals d u day h m Hi Hr Hc) as (E1 & _ & _).
  set (de := masters_declination (IZR day)) in *. set (ha := masters_hour_angle (IZR day) (IZR h) (IZR m) lon) in *.
  assert (Pd : 0 < cosd de) by (apply cosd_pos; lra). assert (Pl : 0 < cosd lat) by now apply cosd_pos.
  assert (Ce : cosd e * cosd e = 1 - dot v (up lat) * dot v (up lat)).
  { unfold e. rewrite cosd_deg. apply cos_asin_sqr. exact Hb. }
  assert (Pe : 0 <= cosd e) by (apply cosd_nonneg, deg_asin_range).
  assert (Hfast : get_azimuth_fast (N := MathR) (C := clock_math MathR) (Fin lat) (Fin lon) d =
    (q <- @div MathR (Fin (dot v east)) (Fin (cosd e)) ;;
     a <- @nasin MathR q ;;
     Ok (@where_ MathR (@le MathR (Fin (tand de)) (Fin (cosd ha * tand lat)))
        (@sub MathR (lit 180) (degrees a)) (@add MathR (degrees a) (@mul MathR (lit 360) (of_bool (lt a (lit 0)))))))).
  { unfold get_azimuth_fast. rewrite E1, bind_Ok, declination_val, bind_Ok. fold de. rewrite Eh, bind_Ok, Ea, bind_Ok. rx.
    rewrite <- ?sind_rad, <- ?cosd_rad.
    replace (- cosd de * sind ha) with (dot v east) by (unfold v, dot, equatorial, east; ring).
    destruct (@div MathR (Fin (dot v east)) (Fin (cosd e))) as [q|x]; [|reflexivity]. rewrite !bind_Ok.
    destruct (@nasin MathR q) as [a|x]; [|reflexivity]. rewrite !bind_Ok.
    rewrite !ntan_R by (rewrite <- cosd_rad; lra). rx. rewrite <- !tand_rad. reflexivity. }
  destruct (Req_dec (cosd e) 0) as [Z|Z]; [left|right].
  - split; [exact Z|]. rewrite Hfast, Z, div_R0. reflexivity.
  - assert (Pc : 0 < cosd e) by lra. split; [exact Pc|].
    pose proof (frame_norm lat de ha) as Hn. cbv zeta in Hn. fold v in Hn.
    destruct (azimuth_of_asin (dot v east) (dot v (north lat)) (cosd e) Pc ltac:(lra)) as (Q & R & P1 & P2).
    eexists. split; [|split; [exact R|]].
    + rewrite Hfast. rx.
      assert (Ec : Rbool_le (tand de) (cosd ha * tand lat) = Rbool_le (dot v (north lat)) 0).
      { assert (Ek : dot v (north lat) = (tand de - cosd ha * tand lat) * (cosd de * cosd lat)).
        { rewrite !tand_def. unfold v, dot, equatorial, north. field. lra. }
        assert (Pk : 0 < cosd de * cosd lat) by now apply Rmult_lt_0_compat.
        destruct (Rle_dec (tand de) (cosd ha * tand lat)).
        - rewrite Rbool_le_true by assumption. rewrite Rbool_le_true; [reflexivity|]. rewrite Ek. nra.
        - rewrite Rbool_le_false by lra. rewrite Rbool_le_false; [reflexivity|]. rewrite Ek. nra. }
      rewrite Ec. destruct (Rbool_le _ 0); [reflexivity|]. destruct (Rbool_lt _ 0); reflexivity.
    + split; [|split].
      * symmetry. exact P1.
      * symmetry. exact P2.
      * unfold e. rewrite sind_deg, sin_asin by exact Hb. reflexivity.
Qed.

Lemma fast_correct d u day h m lat lon : instant d u -> in_range u = true -> civil_clock u day h m ->
  -90 < lat < 90 ->
  let decl := masters_declination (IZR day) in
  let ha := masters_hour_angle (IZR day) (IZR h) (IZR m) lon in
  get_declination (N := MathR) (Fin (IZR day)) = Ok (Fin decl) /\
  get_hour_angle (N := MathR) (C := clock_math MathR) d (Fin lon) = Ok (Fin ha) /\
  exists e, get_altitude_fast (N := MathR) (C := clock_math MathR) (Fin lat) (Fin lon) d = Ok (Fin e) /\
    -90 <= e <= 90 /\ sind e = dot (equatorial decl ha) (up lat) /\
    (-90 < e < 90 -> exists A,
      get_azimuth_fast (N := MathR) (C := clock_math MathR) (Fin lat) (Fin lon) d = Ok (Fin A) /\
      0 <= A < 360 /\ horizontal_coordinates lat (equatorial decl ha) A e) /\
    (e = 90 \/ e = -90 ->
      get_azimuth_fast (N := MathR) (C := clock_math MathR) (Fin lat) (Fin lon) d = Err ZeroDivisionError).
Proof.
  intros Hi Hr Hc Hlat decl ha. split; [apply declination_val|]. split; [now apply hour_angle_val with u|].
  destruct (altitude_fast_val d u day h m lat lon Hi Hr Hc) as (Hb & Ea).
  pose proof (azimuth_fast_cases d u day h m lat lon Hi Hr Hc Hlat) as Hz. cbv zeta in Hb, Ea, Hz.
  fold decl ha in Hb, Ea, Hz. eexists. split; [exact Ea|]. split; [apply deg_asin_range|].
  split; [rewrite sind_deg; now apply sin_asin|].
  split; intros He.
  - destruct Hz as [[Hz _]|[_ Hz]]; [|exact Hz]. pose proof (cosd_pos _ He). lra.
  - destruct Hz as [[_ Hz]|[Hz _]]; [exact Hz|]. exfalso.
    destruct He as [E|E]; rewrite E in Hz; [|change (-90) with (- (90)) in Hz; rewrite cosd_opp in Hz]; rewrite cosd_90 in Hz; lra.
Qed.

(* ---------------------------------------------------------------- ranges (C32) *)
Lemma eot_bounds n : -14.7 <= masters_eot n <= 16.5.
Proof.
  unfold masters_eot. cbv zeta. set (B := 360 / 364 * (n - 81)).
  assert (E1 : sind (2 * B) = 2 * sind (Rfmod B 360) * cosd (Rfmod B 360)).
  { rewrite sind_fmod, cosd_fmod. unfold sind, cosd. rewrite <- sin_2a. f_equal. lra. }
  rewrite E1, <- (sind_fmod B), <- (cosd_fmod B).
  pose proof (Rfmod_range B 360 ltac:(lra)) as R. set (b := Rfmod B 360) in *. clearbody b. clear - R.
  unfold sind, cosd. split; interval with (i_bisect b, i_prec 40).
Qed.

Lemma ranges_correct :
  (forall day, exists x, get_declination (N := MathR) (Fin day) = Ok (Fin x) /\ -23.45 <= x <= 23.45) /\
  (forall k, get_declination (N := MathR) (Fin (81 + 365 / 2 * IZR k)) = Ok (Fin 0)) /\
  (forall day, get_declination (N := MathR) (Fin day) = Ok (Fin (masters_declination day))) /\
  (forall day, exists x, equation_of_time (N := MathR) (Fin day) = Ok (Fin x) /\
     x = masters_eot day /\ -14.7 <= x <= 16.5) /\
  (forall d u, instant d u -> in_range u = true -> forall lon dlon,
     exists t t', get_solar_time (N := MathR) (C := clock_math MathR) (Fin lon) d = Ok (Fin t) /\
       get_solar_time (N := MathR) (C := clock_math MathR) (Fin (lon + dlon)) d = Ok (Fin t') /\
       t' = t + 4 * dlon / 60 /\
       get_hour_angle (N := MathR) (C := clock_math MathR) d (Fin lon) = Ok (Fin (15 * (t - 12)))) /\
  (forall d u day h m lon, instant d u -> in_range u = true -> civil_clock u day h m ->
     get_solar_time (N := MathR) (C := clock_math MathR) (Fin lon) d =
       Ok (Fin (masters_solar_time (IZR day) (IZR h) (IZR m) lon))).
Proof.
  split; [|split; [|split; [|split; [|split]]]].
  - intros day. eexists. split; [apply declination_val|]. apply masters_declination_range.
  - intros k. rewrite declination_val. do 2 f_equal. unfold masters_declination.
    replace (360 / 365 * (81 + 365 / 2 * IZR k - 81)) with (180 * IZR k) by field.
    unfold sind. replace (180 * IZR k * PI / 180) with (IZR k * PI) by field.
    rewrite (sin_eq_0_1 (IZR k * PI)) by (now exists k). lra.
  - exact declination_val.
  - intros day. eexists. split; [apply eot_val|]. split; [reflexivity|]. apply eot_bounds.
  - intros d u Hi Hr lon dlon. destruct (civil_clock_exists u) as (day & h & m & Hc).
    do 2 eexists. split; [exact (solar_time_val d u day h m lon Hi Hr Hc)|]. split; [exact (solar_time_val d u day h m (lon + dlon) Hi Hr Hc)|].
    split; [unfold masters_solar_time; lra|]. exact (hour_angle_val d u day h m lon Hi Hr Hc).
  - exact (fun d u day h m lon Hi Hr Hc => solar_time_val d u day h m lon Hi Hr Hc).
Qed.

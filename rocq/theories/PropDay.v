(* Day length, the highest point of the day, and the beam over the day. *)
From Coq Require Import Reals Lra.
From Verif Require Import Py Num Cal TzCheck Clock Constants SolarTime Solar Util Radiation RInst SpecTime SpecDt SpecGeom SpecEng SpecDemo SpecB64 SpecRise Samples
  B64 B64Lemmas B64Lift B64Witness MotionProofs DayProofs PeakProofs.
Local Open Scope R_scope.

(* ------------------------------------------------------------------------------- C120 *)
(* the sun rises and sets every day up to 65 degrees from the equator *)
Theorem C120_rises_below_65 : forall d u day h m lat lon, instant d u -> civil_clock (dt_local d) day h m -> inside_calendar d -> -65 <= lat <= 65 -> -180 <= lon <= 180 ->
  exists r, get_sunrise_sunset_transit (N := MathR) (Fin lat) (Fin lon) d = Ok r.
Proof. exact rises_low. Qed.
Print Assumptions C120_rises_below_65.
(* lat2 lies north of lat1; between day 82 and day 264 of the year its day is the longer one at both ends *)
Theorem C120_poleward : forall d u day h m lat1 lat2 lon sr1 ss1 tr1 sr2 ss2 tr2, instant d u -> civil_clock (dt_local d) day h m -> -90 < lat1 -> lat1 < lat2 -> lat2 < 90 ->
  get_sunrise_sunset_transit (N := MathR) (Fin lat1) (Fin lon) d = Ok (sr1, ss1, tr1) ->
  get_sunrise_sunset_transit (N := MathR) (Fin lat2) (Fin lon) d = Ok (sr2, ss2, tr2) ->
  ((82 <= day <= 264)%Z -> (dt_local sr2 <= dt_local sr1 /\ dt_local ss1 <= dt_local ss2)%Z /\
    28000 * (lat2 - lat1) - 1 <= IZR (dt_local sr1 - dt_local sr2) /\ 28000 * (lat2 - lat1) - 1 <= IZR (dt_local ss2 - dt_local ss1)) /\
  ((day <= 77 \/ 269 <= day)%Z -> (dt_local sr1 <= dt_local sr2 /\ dt_local ss2 <= dt_local ss1)%Z /\
    28000 * (lat2 - lat1) - 1 <= IZR (dt_local sr2 - dt_local sr1) /\ 28000 * (lat2 - lat1) - 1 <= IZR (dt_local ss1 - dt_local ss2)).
Proof. exact summer_poleward. Qed.
Print Assumptions C120_poleward.
(* day' is nearer to the solstice of June than day; times in microseconds *)
Theorem C120_lengthens : forall d u day h m d' u' day' h' m' lat lon lon' sr ss tr sr' ss' tr', instant d u -> civil_clock (dt_local d) day h m -> instant d' u' -> civil_clock (dt_local d') day' h' m' -> -90 < lat < 90 ->
  get_sunrise_sunset_transit (N := MathR) (Fin lat) (Fin lon) d = Ok (sr, ss, tr) ->
  get_sunrise_sunset_transit (N := MathR) (Fin lat) (Fin lon') d' = Ok (sr', ss', tr') ->
  (1 <= day < day' /\ day' <= 172 \/ 174 <= day' < day /\ day <= 356)%Z ->
  let growth := 1920000 * (Rabs (sind lat) - 0.007) * Rabs (IZR (day' - day)) - 2 in
  (0.007 <= sind lat -> growth <= IZR ((dt_local ss' - dt_local sr') - (dt_local ss - dt_local sr))) /\
  (sind lat <= -0.007 -> growth <= IZR ((dt_local ss - dt_local sr) - (dt_local ss' - dt_local sr'))).
Proof. exact season_lengthens. Qed.
Print Assumptions C120_lengthens.
(* 12 h 6 min 39 s to 12 h 7 min 17 s *)
Theorem C120_equator : forall d u day h m lon sr ss tr, instant d u -> civil_clock (dt_local d) day h m ->
  get_sunrise_sunset_transit (N := MathR) (Fin 0) (Fin lon) d = Ok (sr, ss, tr) ->
  (43599000000 < (dt_local ss - dt_local sr) < 43637000000)%Z.
Proof. exact equator_length. Qed.
Print Assumptions C120_equator.
Theorem C120_rises_below_65_b64 : forall L, accurate L -> forall d u day h m lat lon x xo, instant d u -> civil_clock (dt_local d) day h m -> inside_calendar d -> val x lat -> val xo lon ->
  -65 <= lat <= 65 -> -180 <= lon <= 180 ->
  exists a b t a' b' t', get_sunrise_sunset_transit (N := B64 L) x xo d = Ok (a, b, t) /\ get_sunrise_sunset_transit (N := MathR) (Fin lat) (Fin lon) d = Ok (a', b', t') /\
    apart 1 a a' /\ apart 1 b b'.
Proof. exact rises64. Qed.
Print Assumptions C120_rises_below_65_b64.
Theorem C120_poleward_b64 : forall L, accurate L -> forall d u day h m lat1 lat2 lon x1 x2 xo, instant d u -> civil_clock (dt_local d) day h m -> inside_calendar d ->
  val x1 lat1 -> val x2 lat2 -> val xo lon -> -65 <= lat1 -> lat1 + 0.0002 <= lat2 -> lat2 <= 65 -> -180 <= lon <= 180 ->
  exists sr1 ss1 tr1 sr2 ss2 tr2,
    get_sunrise_sunset_transit (N := B64 L) x1 xo d = Ok (sr1, ss1, tr1) /\ get_sunrise_sunset_transit (N := B64 L) x2 xo d = Ok (sr2, ss2, tr2) /\
    ((82 <= day <= 264)%Z -> (dt_local sr2 < dt_local sr1 /\ dt_local ss1 < dt_local ss2)%Z) /\
    ((day <= 77 \/ 269 <= day)%Z -> (dt_local sr1 < dt_local sr2 /\ dt_local ss2 < dt_local ss1)%Z).
Proof. exact summer64. Qed.
Print Assumptions C120_poleward_b64.
Theorem C120_lengthens_b64 : forall L, accurate L -> forall d u day h m d' u' day' h' m' lat lon lon' x xo xo', instant d u -> civil_clock (dt_local d) day h m -> inside_calendar d -> instant d' u' -> civil_clock (dt_local d') day' h' m' -> inside_calendar d' ->
  val x lat -> val xo lon -> val xo' lon' -> -65 <= lat <= 65 -> -180 <= lon <= 180 -> -180 <= lon' <= 180 ->
  (1 <= day < day' /\ day' <= 172 \/ 174 <= day' < day /\ day <= 356)%Z ->
  exists sr ss tr sr' ss' tr',
    get_sunrise_sunset_transit (N := B64 L) x xo d = Ok (sr, ss, tr) /\ get_sunrise_sunset_transit (N := B64 L) x xo' d' = Ok (sr', ss', tr') /\
    (0.5 <= lat -> ((dt_local ss - dt_local sr) < (dt_local ss' - dt_local sr'))%Z) /\ (lat <= -0.5 -> ((dt_local ss' - dt_local sr') < (dt_local ss - dt_local sr))%Z).
Proof. exact season64. Qed.
Print Assumptions C120_lengthens_b64.
Example C120_case : accurate exact_libm /\ val (flit 50) 50 /\
  instant sample_dt sample_u /\ civil_clock (dt_local sample_dt) 173 12 0 /\ inside_calendar sample_dt /\
  instant march_dt (midnight 2020 3 1 + 17 * 3600000000) /\ civil_clock (dt_local march_dt) 61 12 0 /\ inside_calendar march_dt /\
  instant spring_dt (midnight 2021 5 1 + 17 * 3600000000) /\ civil_clock (dt_local spring_dt) 121 12 0 /\ inside_calendar spring_dt /\
  exists sr1 ss1 tr1 sr2 ss2 tr2 sr3 ss3 tr3 sr4 ss4 tr4,
    get_sunrise_sunset_transit (N := MathR) (Fin 20) (Fin (-75)) sample_dt = Ok (sr1, ss1, tr1) /\
    get_sunrise_sunset_transit (N := MathR) (Fin 50) (Fin (-75)) sample_dt = Ok (sr2, ss2, tr2) /\
    get_sunrise_sunset_transit (N := MathR) (Fin 50) (Fin (-75)) march_dt = Ok (sr3, ss3, tr3) /\
    get_sunrise_sunset_transit (N := MathR) (Fin 50) (Fin (-75)) spring_dt = Ok (sr4, ss4, tr4).
Proof.
  exact (conj (cr_accurate _ exact_libm_correct) (conj (val_int 50 ltac:(vm_compute; discriminate)) (conj sample_instant (conj sample_local_clock (conj sample_inside
    (conj march_instant (conj march_clock (conj march_inside (conj spring_instant (conj spring_clock (conj spring_inside day_case))))))))))).
Qed.

(* ------------------------------------------------------------------------------- C121 *)
(* e is the elevation at the transit returned, e' that at any instant within twelve hours of it *)
Theorem C121_highest_at_transit : forall d u lat lon el sr ss tr ut d' u' dec ha e dec' ha' e', instant d u -> -84 <= lat <= 84 -> -180 <= lon <= 180 -> -100000 <= el <= 100000 ->
  (midnight 1901 1 1 <= dt_local d < midnight 2100 1 1)%Z ->
  get_sunrise_sunset_transit (N := MathR) (Fin lat) (Fin lon) d = Ok (sr, ss, tr) ->
  instant tr ut -> (dt_local tr - ut = dt_local d - u)%Z -> (midnight 1901 1 1 <= ut < midnight 2100 1 1)%Z ->
  instant d' u' -> in_range u' = true -> (Z.abs (u' - ut) <= 43200000000)%Z ->
  get_topocentric_position (N := MathR) (Fin lat) (Fin lon) tr (Fin el) = Ok (Fin dec, Fin ha) ->
  get_topocentric_elevation_angle (N := MathR) (Fin lat) (Fin dec) (Fin ha) = Ok (Fin e) ->
  get_topocentric_position (N := MathR) (Fin lat) (Fin lon) d' (Fin el) = Ok (Fin dec', Fin ha') ->
  get_topocentric_elevation_angle (N := MathR) (Fin lat) (Fin dec') (Fin ha') = Ok (Fin e') ->
  sind e' <= sind e + 4.8e-4 /\ (same_month ut u' -> sind e' <= sind e + 6e-5).
Proof. exact peak. Qed.
Print Assumptions C121_highest_at_transit.
Theorem C121_altitude : forall d u lat lon el sr ss tr ut d' u' dec ha e T P a a', instant d u -> -84 <= lat <= 84 -> -180 <= lon <= 180 -> -100000 <= el <= 100000 ->
  180 <= T <= 340 -> 0 <= P <= 110000 ->
  (midnight 1901 1 1 <= dt_local d < midnight 2100 1 1)%Z ->
  get_sunrise_sunset_transit (N := MathR) (Fin lat) (Fin lon) d = Ok (sr, ss, tr) ->
  instant tr ut -> (dt_local tr - ut = dt_local d - u)%Z -> (midnight 1901 1 1 <= ut < midnight 2100 1 1)%Z ->
  instant d' u' -> in_range u' = true -> (Z.abs (u' - ut) <= 43200000000)%Z ->
  get_topocentric_position (N := MathR) (Fin lat) (Fin lon) tr (Fin el) = Ok (Fin dec, Fin ha) ->
  get_topocentric_elevation_angle (N := MathR) (Fin lat) (Fin dec) (Fin ha) = Ok (Fin e) -> 0 <= e <= 80 ->
  get_altitude (N := MathR) (Fin lat) (Fin lon) tr (Fin el) (Fin T) (Fin P) = Ok (Fin a) ->
  get_altitude (N := MathR) (Fin lat) (Fin lon) d' (Fin el) (Fin T) (Fin P) = Ok (Fin a') ->
  a' <= a + 0.17 /\ (same_month ut u' -> a' <= a + 0.021).
Proof. exact peak_altitude. Qed.
Print Assumptions C121_altitude.
Example C121_case : exists sr ss tr ut dec ha e a, get_sunrise_sunset_transit (N := MathR) (Fin 40) (Fin (-75)) sample_dt = Ok (sr, ss, tr) /\
  instant tr ut /\ (dt_local tr - ut = dt_local sample_dt - sample_u)%Z /\ (midnight 1901 1 1 <= ut < midnight 2100 1 1)%Z /\
  get_topocentric_position (N := MathR) (Fin 40) (Fin (-75)) tr (Fin 0) = Ok (Fin dec, Fin ha) /\
  get_topocentric_elevation_angle (N := MathR) (Fin 40) (Fin dec) (Fin ha) = Ok (Fin e) /\ 0 <= e <= 80 /\
  get_altitude (N := MathR) (Fin 40) (Fin (-75)) tr (Fin 0) (Fin 288) (Fin 101325) = Ok (Fin a).
Proof. exact peak_case. Qed.

(* ------------------------------------------------------------------------------- C122 *)
(* one place, one day of the year on the UTC clock, the sun up at both instants *)
Theorem C122_irradiance_climbs : forall d u d' u' day h m h' m' lat lon el T P dec ha dec' ha' a a', instant d u -> instant d' u' -> in_range u = true -> in_range u' = true ->
  same_month u u' -> (u < u' < u + 43200000000)%Z -> civil_clock u day h m -> civil_clock u' day h' m' ->
  -90 <= lat <= 90 -> -100000 <= el <= 100000 -> 180 <= T <= 340 -> 0 <= P <= 110000 ->
  get_topocentric_position (N := MathR) (Fin lat) (Fin lon) d (Fin el) = Ok (Fin dec, Fin ha) ->
  get_topocentric_position (N := MathR) (Fin lat) (Fin lon) d' (Fin el) = Ok (Fin dec', Fin ha') ->
  get_altitude (N := MathR) (Fin lat) (Fin lon) d (Fin el) (Fin T) (Fin P) = Ok (Fin a) ->
  get_altitude (N := MathR) (Fin lat) (Fin lon) d' (Fin el) (Fin T) (Fin P) = Ok (Fin a') ->
  0 < a <= 90 -> 0 < a' <= 90 ->
  exists r r', get_radiation_direct (N := MathR) (C := clock_math MathR) d (Fin a) = Ok (Fin r) /\
    get_radiation_direct (N := MathR) (C := clock_math MathR) d' (Fin a') = Ok (Fin r') /\
    (cosd lat * sind ha <= -0.0015 -> cosd lat * sind ha' <= -0.0015 -> r < r') /\
    (0.0015 <= cosd lat * sind ha -> 0.0015 <= cosd lat * sind ha' -> r' < r).
Proof. exact radiation_climbs. Qed.
Print Assumptions C122_irradiance_climbs.
Example C122_case : exists u u' day h m h' m' dec ha dec' ha' a a', (u < u' < u + 43200000000)%Z /\ same_month u u' /\ in_range u = true /\ in_range u' = true /\
  civil_clock u day h m /\ civil_clock u' day h' m' /\
  get_topocentric_position (N := MathR) (Fin 0) (Fin 0) (at_utc u) (Fin 0) = Ok (Fin dec, Fin ha) /\
  get_topocentric_position (N := MathR) (Fin 0) (Fin 0) (at_utc u') (Fin 0) = Ok (Fin dec', Fin ha') /\
  get_altitude (N := MathR) (Fin 0) (Fin 0) (at_utc u) (Fin 0) (Fin 288) (Fin 101325) = Ok (Fin a) /\
  get_altitude (N := MathR) (Fin 0) (Fin 0) (at_utc u') (Fin 0) (Fin 288) (Fin 101325) = Ok (Fin a') /\
  0 < a <= 90 /\ 0 < a' <= 90 /\ cosd 0 * sind ha <= -0.0015 /\ cosd 0 * sind ha' <= -0.0015.
Proof. exact morning_case. Qed.

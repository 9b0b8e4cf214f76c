(* The order of altitudes, and how they change over the day. *)
From Coq Require Import Reals Lra.
From Verif Require Import Py Num Cal TzCheck Clock Constants SolarTime Solar RInst SpecTime SpecDt SpecGeom SpecDemo SpecB64 Samples
  B64 B64Lemmas B64Lift B64Witness MotionProofs RefrOrder ClimbProofs.
Local Open Scope R_scope.

(* ------------------------------------------------------------------------------- C118 *)
(* two observations in the same air; E1, E2 are the unrefracted elevations, a1, a2 the altitudes *)
Theorem C118_altitude_order : forall T P lat1 lon1 d1 el1 u1 dec1 ha1 E1 a1 lat2 lon2 d2 el2 u2 dec2 ha2 E2 a2,
  180 <= T <= 340 -> 0 <= P <= 110000 ->
  instant d1 u1 -> in_range u1 = true -> -90 <= lat1 <= 90 -> -100000 <= el1 <= 100000 ->
  instant d2 u2 -> in_range u2 = true -> -90 <= lat2 <= 90 -> -100000 <= el2 <= 100000 ->
  get_topocentric_position (N := MathR) (Fin lat1) (Fin lon1) d1 (Fin el1) = Ok (Fin dec1, Fin ha1) ->
  get_topocentric_elevation_angle (N := MathR) (Fin lat1) (Fin dec1) (Fin ha1) = Ok (Fin E1) ->
  get_topocentric_position (N := MathR) (Fin lat2) (Fin lon2) d2 (Fin el2) = Ok (Fin dec2, Fin ha2) ->
  get_topocentric_elevation_angle (N := MathR) (Fin lat2) (Fin dec2) (Fin ha2) = Ok (Fin E2) ->
  get_altitude (N := MathR) (Fin lat1) (Fin lon1) d1 (Fin el1) (Fin T) (Fin P) = Ok (Fin a1) ->
  get_altitude (N := MathR) (Fin lat2) (Fin lon2) d2 (Fin el2) (Fin T) (Fin P) = Ok (Fin a2) ->
  E1 < E2 ->
  0.7 * (E2 - E1) <= a2 - a1 /\ (-0.83337 <= E1 \/ E2 < -0.83337 -> a2 - a1 <= E2 - E1).
Proof. exact altitude_order. Qed.
Print Assumptions C118_altitude_order.
Theorem C118_altitude_order64 : forall L, accurate L -> forall T P xT xP lat1 lon1 d1 el1 u1 x1 y1 h1 dec1 ha1 E1 lat2 lon2 d2 el2 u2 x2 y2 h2 dec2 ha2 E2,
  180 <= T <= 340 -> 0 <= P <= 110000 -> val xT T -> val xP P ->
  instant d1 u1 -> in_range u1 = true -> val x1 lat1 -> val y1 lon1 -> val h1 el1 ->
  -90 <= lat1 <= 90 -> -360 <= lon1 <= 360 -> -100000 <= el1 <= 100000 ->
  instant d2 u2 -> in_range u2 = true -> val x2 lat2 -> val y2 lon2 -> val h2 el2 ->
  -90 <= lat2 <= 90 -> -360 <= lon2 <= 360 -> -100000 <= el2 <= 100000 ->
  get_topocentric_position (N := MathR) (Fin lat1) (Fin lon1) d1 (Fin el1) = Ok (Fin dec1, Fin ha1) ->
  get_topocentric_elevation_angle (N := MathR) (Fin lat1) (Fin dec1) (Fin ha1) = Ok (Fin E1) ->
  get_topocentric_position (N := MathR) (Fin lat2) (Fin lon2) d2 (Fin el2) = Ok (Fin dec2, Fin ha2) ->
  get_topocentric_elevation_angle (N := MathR) (Fin lat2) (Fin dec2) (Fin ha2) = Ok (Fin E2) ->
  ~ (-5.21 < E1 < -4.99) -> 1e-5 <= Rabs (E1 + 0.83337) -> Rabs E1 <= 89 ->
  ~ (-5.21 < E2 < -4.99) -> 1e-5 <= Rabs (E2 + 0.83337) -> Rabs E2 <= 89 ->
  E1 + 8.1e-6 <= E2 ->
  exists q1 a1 q2 a2,
    get_altitude (N := B64 L) x1 y1 d1 h1 xT xP = Ok q1 /\ val q1 a1 /\
    get_altitude (N := B64 L) x2 y2 d2 h2 xT xP = Ok q2 /\ val q2 a2 /\ a1 < a2.
Proof. exact altitude_order64. Qed.
Print Assumptions C118_altitude_order64.
(* the two poles on 21 June 2020 *)
Example C118_case : accurate exact_libm /\ instant sample_dt sample_u /\ in_range sample_u = true /\ val (flit 90) 90 /\ val (flit (-90)) (-90) /\
  exists dec ha E a dec' ha' E' a',
  get_topocentric_position (N := MathR) (Fin (-90)) (Fin 0) sample_dt (Fin 0) = Ok (Fin dec, Fin ha) /\
  get_topocentric_elevation_angle (N := MathR) (Fin (-90)) (Fin dec) (Fin ha) = Ok (Fin E) /\
  get_altitude (N := MathR) (Fin (-90)) (Fin 0) sample_dt (Fin 0) (Fin 288) (Fin 101325) = Ok (Fin a) /\
  get_topocentric_position (N := MathR) (Fin 90) (Fin 0) sample_dt (Fin 0) = Ok (Fin dec', Fin ha') /\
  get_topocentric_elevation_angle (N := MathR) (Fin 90) (Fin dec') (Fin ha') = Ok (Fin E') /\
  get_altitude (N := MathR) (Fin 90) (Fin 0) sample_dt (Fin 0) (Fin 288) (Fin 101325) = Ok (Fin a') /\
  -24 < E < -6 /\ 6 < E' < 24.
Proof.
  exact (conj (cr_accurate _ exact_libm_correct) (conj sample_instant (conj sample_in_range
    (conj (val_int 90 ltac:(discriminate)) (conj (val_int (-90) ltac:(discriminate)) order_case))))).
Qed.

(* ------------------------------------------------------------------------------- C119 *)
(* e, e': elevations less than twelve hours apart; the sun stands east of the meridian when sin H < 0.  Any
   two instants of one morning have a c: 0.0015 is reached 21 seconds from the meridian at 10 degrees of
   latitude, 49 seconds at 65 *)
Theorem C119_elevation_climbs : forall d u d' u' lat lon el dec ha e dec' ha' e' c,
  instant d u -> instant d' u' -> in_range u = true -> in_range u' = true -> same_month u u' ->
  (u < u' < u + 43200000000)%Z -> -90 <= lat <= 90 -> -100000 <= el <= 100000 ->
  get_topocentric_position (N := MathR) (Fin lat) (Fin lon) d (Fin el) = Ok (Fin dec, Fin ha) ->
  get_topocentric_elevation_angle (N := MathR) (Fin lat) (Fin dec) (Fin ha) = Ok (Fin e) ->
  get_topocentric_position (N := MathR) (Fin lat) (Fin lon) d' (Fin el) = Ok (Fin dec', Fin ha') ->
  get_topocentric_elevation_angle (N := MathR) (Fin lat) (Fin dec') (Fin ha') = Ok (Fin e') -> 0.0015 <= c ->
  (cosd lat * sind ha <= - c -> cosd lat * sind ha' <= - c -> (328 * c - 0.475) * (IZR (u' - u) / 86400000000) <= e' - e) /\
  (c <= cosd lat * sind ha -> c <= cosd lat * sind ha' -> (328 * c - 0.475) * (IZR (u' - u) / 86400000000) <= e - e').
Proof. exact climbs. Qed.
Print Assumptions C119_elevation_climbs.
Theorem C119_altitude_climbs : forall d u d' u' lat lon el T P dec ha dec' ha' a a' c,
  instant d u -> instant d' u' -> in_range u = true -> in_range u' = true -> same_month u u' ->
  (u < u' < u + 43200000000)%Z -> -90 <= lat <= 90 -> -100000 <= el <= 100000 -> 180 <= T <= 340 -> 0 <= P <= 110000 ->
  get_topocentric_position (N := MathR) (Fin lat) (Fin lon) d (Fin el) = Ok (Fin dec, Fin ha) ->
  get_topocentric_position (N := MathR) (Fin lat) (Fin lon) d' (Fin el) = Ok (Fin dec', Fin ha') ->
  get_altitude (N := MathR) (Fin lat) (Fin lon) d (Fin el) (Fin T) (Fin P) = Ok (Fin a) ->
  get_altitude (N := MathR) (Fin lat) (Fin lon) d' (Fin el) (Fin T) (Fin P) = Ok (Fin a') -> 0.0015 <= c ->
  (cosd lat * sind ha <= - c -> cosd lat * sind ha' <= - c -> 0.7 * (328 * c - 0.475) * (IZR (u' - u) / 86400000000) <= a' - a) /\
  (c <= cosd lat * sind ha -> c <= cosd lat * sind ha' -> 0.7 * (328 * c - 0.475) * (IZR (u' - u) / 86400000000) <= a - a').
Proof. exact altitude_climbs. Qed.
Print Assumptions C119_altitude_climbs.
Theorem C119_altitude_climbs64 : forall L, accurate L -> forall d u d' u' lat lon el T P xT xP x y h dec ha E dec' ha' E' c,
  180 <= T <= 340 -> 0 <= P <= 110000 -> val xT T -> val xP P -> val x lat -> val y lon -> val h el ->
  -90 <= lat <= 90 -> -360 <= lon <= 360 -> -100000 <= el <= 100000 ->
  instant d u -> instant d' u' -> in_range u = true -> in_range u' = true -> same_month u u' -> (u < u' < u + 43200000000)%Z ->
  get_topocentric_position (N := MathR) (Fin lat) (Fin lon) d (Fin el) = Ok (Fin dec, Fin ha) ->
  get_topocentric_elevation_angle (N := MathR) (Fin lat) (Fin dec) (Fin ha) = Ok (Fin E) ->
  get_topocentric_position (N := MathR) (Fin lat) (Fin lon) d' (Fin el) = Ok (Fin dec', Fin ha') ->
  get_topocentric_elevation_angle (N := MathR) (Fin lat) (Fin dec') (Fin ha') = Ok (Fin E') ->
  ~ (-5.21 < E < -4.99) -> 1e-5 <= Rabs (E + 0.83337) -> Rabs E <= 89 ->
  ~ (-5.21 < E' < -4.99) -> 1e-5 <= Rabs (E' + 0.83337) -> Rabs E' <= 89 ->
  0.0015 <= c -> 8.1e-6 <= (328 * c - 0.475) * (IZR (u' - u) / 86400000000) ->
  exists q a q' a', get_altitude (N := B64 L) x y d h xT xP = Ok q /\ val q a /\ get_altitude (N := B64 L) x y d' h xT xP = Ok q' /\ val q' a' /\
    (cosd lat * sind ha <= - c -> cosd lat * sind ha' <= - c -> a < a') /\
    (c <= cosd lat * sind ha -> c <= cosd lat * sind ha' -> a' < a).
Proof. exact altitude_climbs64. Qed.
Print Assumptions C119_altitude_climbs64.
Example C119_case : accurate exact_libm /\ exists u u' dec ha dec' ha', (u < u' < u + 43200000000)%Z /\ same_month u u' /\ in_range u = true /\ in_range u' = true /\
  get_topocentric_position (N := MathR) (Fin 0) (Fin 0) (at_utc u) (Fin 0) = Ok (Fin dec, Fin ha) /\
  get_topocentric_position (N := MathR) (Fin 0) (Fin 0) (at_utc u') (Fin 0) = Ok (Fin dec', Fin ha') /\
  cosd 0 * sind ha <= -0.0015 /\ cosd 0 * sind ha' <= -0.0015.
Proof. exact (conj (cr_accurate _ exact_libm_correct) climb_case). Qed.

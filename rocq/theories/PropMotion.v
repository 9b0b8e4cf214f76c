(* How what the position functions return changes with the place and with time (C86 - C91). *)
From Coq Require Import Reals Lra ZArith.
From Verif Require Import Py Num Cal Clock SolarTime Solar RInst Constants SpecTime SpecDt SpecGeom Samples MoveProofs MotionProofs ApproxProofs.
Local Open Scope R_scope.

(* ------------------------------------------------------------------------------- C86 *)
Theorem C86_antipodes : forall d u lat lon el el' e e' dec ha dec' ha', instant d u -> in_range u = true -> -90 <= lat <= 90 ->
  -100000 <= el <= 100000 -> -100000 <= el' <= 100000 ->
  get_topocentric_position (N := MathR) (Fin lat) (Fin lon) d (Fin el) = Ok (Fin dec, Fin ha) ->
  get_topocentric_elevation_angle (N := MathR) (Fin lat) (Fin dec) (Fin ha) = Ok (Fin e) ->
  get_topocentric_position (N := MathR) (Fin (- lat)) (Fin (lon + 180)) d (Fin el') = Ok (Fin dec', Fin ha') ->
  get_topocentric_elevation_angle (N := MathR) (Fin (- lat)) (Fin dec') (Fin ha') = Ok (Fin e') ->
  Rabs (e + e') <= 0.016.
Proof. exact antipode. Qed.
Print Assumptions C86_antipodes.
(* the hypotheses hold at every place at the sample instant *)
Example C86_case : instant sample_dt sample_u /\ in_range sample_u = true /\ forall lat lon el, -90 <= lat <= 90 -> -100000 <= el <= 100000 -> exists dec ha e,
  get_topocentric_position (N := MathR) (Fin lat) (Fin lon) sample_dt (Fin el) = Ok (Fin dec, Fin ha) /\
  get_topocentric_elevation_angle (N := MathR) (Fin lat) (Fin dec) (Fin ha) = Ok (Fin e).
Proof. exact (conj sample_instant (conj sample_in_range sample_position)). Qed.

(* ------------------------------------------------------------------------------- C87 *)
(* g: the angle between the two verticals, the great-circle distance of the places *)
Theorem C87_moving_observer : forall d u lat lon el lat' lon' el' e e' dec ha dec' ha' g, instant d u -> in_range u = true ->
  -90 <= lat <= 90 -> -90 <= lat' <= 90 -> -100000 <= el <= 100000 -> -100000 <= el' <= 100000 ->
  0 <= g <= 180 -> cosd g = dot (spherical lon lat) (spherical lon' lat') ->
  get_topocentric_position (N := MathR) (Fin lat) (Fin lon) d (Fin el) = Ok (Fin dec, Fin ha) ->
  get_topocentric_elevation_angle (N := MathR) (Fin lat) (Fin dec) (Fin ha) = Ok (Fin e) ->
  get_topocentric_position (N := MathR) (Fin lat') (Fin lon') d (Fin el') = Ok (Fin dec', Fin ha') ->
  get_topocentric_elevation_angle (N := MathR) (Fin lat') (Fin dec') (Fin ha') = Ok (Fin e') ->
  Rabs (e - e') <= g + 0.016.
Proof. exact moved. Qed.
Print Assumptions C87_moving_observer.
Example C87_case : 0 <= 90 <= 180 /\ cosd 90 = dot (spherical 0 0) (spherical 90 0).
Proof. split; [lra|exact quarter_turn]. Qed.

(* ------------------------------------------------------------------------------- C88 *)
(* days between the instants: 15.007 degrees an hour at most for the hour angle, 15.03 for the elevation *)
Theorem C88_motion : forall d d' u u' lat lon el el' dec ha dec' ha' e e', instant d u -> instant d' u' -> in_range u = true -> in_range u' = true ->
  -90 <= lat <= 90 -> -100000 <= el <= 100000 -> -100000 <= el' <= 100000 ->
  get_topocentric_position (N := MathR) (Fin lat) (Fin lon) d (Fin el) = Ok (Fin dec, Fin ha) ->
  get_topocentric_elevation_angle (N := MathR) (Fin lat) (Fin dec) (Fin ha) = Ok (Fin e) ->
  get_topocentric_position (N := MathR) (Fin lat) (Fin lon) d' (Fin el') = Ok (Fin dec', Fin ha') ->
  get_topocentric_elevation_angle (N := MathR) (Fin lat) (Fin dec') (Fin ha') = Ok (Fin e') ->
  (exists k : Z, Rabs (ha' - ha - 360 * (IZR (u' - u) / 86400000000) - 360 * IZR k) <= 0.16 * Rabs (IZR (u' - u) / 86400000000) + 0.052) /\
  Rabs (dec' - dec) <= 0.466 * Rabs (IZR (u' - u) / 86400000000) + 0.024 /\
  Rabs (e' - e) <= 360.63 * Rabs (IZR (u' - u) / 86400000000) + 0.076.
Proof. exact motion. Qed.
Print Assumptions C88_motion.
(* 21 June 2020 17:00 UTC and an hour later, anywhere *)
Example C88_case : forall lat lon el, -90 <= lat <= 90 -> -100000 <= el <= 100000 -> exists d d' dec ha e dec' ha' e',
  instant d sample_u /\ instant d' (sample_u + 3600000000) /\ in_range sample_u = true /\ in_range (sample_u + 3600000000) = true /\
  get_topocentric_position (N := MathR) (Fin lat) (Fin lon) d (Fin el) = Ok (Fin dec, Fin ha) /\
  get_topocentric_elevation_angle (N := MathR) (Fin lat) (Fin dec) (Fin ha) = Ok (Fin e) /\
  get_topocentric_position (N := MathR) (Fin lat) (Fin lon) d' (Fin el) = Ok (Fin dec', Fin ha') /\
  get_topocentric_elevation_angle (N := MathR) (Fin lat) (Fin dec') (Fin ha') = Ok (Fin e').
Proof.
  intros lat lon el Hl He. destruct (sample_position lat lon el Hl He) as (dec & ha & e & P1 & P2).
  destruct (sky (at_utc (sample_u + 3600000000)) _ (at_utc_instant _) eq_refl) as (jd & j & o & s & _ & _ & _ & _ & _ & _ & S).
  destruct (S lat lon el Hl He) as (dec' & ha' & e' & _ & P3 & P4 & _).
  exists sample_dt, (at_utc (sample_u + 3600000000)), dec, ha, e, dec', ha', e'.
  exact (conj sample_instant (conj (at_utc_instant _) (conj sample_in_range (conj eq_refl (conj P1 (conj P2 (conj P3 P4))))))).
Qed.

(* ------------------------------------------------------------------------------- C89 *)
Theorem C89_tropics : forall d u lat lon el dec ha e, instant d u -> (midnight 1901 1 1 <= u < midnight 2100 1 1)%Z ->
  -90 <= lat <= 90 -> -100000 <= el <= 100000 ->
  get_topocentric_position (N := MathR) (Fin lat) (Fin lon) d (Fin el) = Ok (Fin dec, Fin ha) ->
  get_topocentric_elevation_angle (N := MathR) (Fin lat) (Fin dec) (Fin ha) = Ok (Fin e) ->
  Rabs dec <= 23.467 /\ Rabs e <= 113.467 - Rabs lat /\ Rabs (lat + dec) - 90 <= e <= 90 - Rabs (lat - dec).
Proof. exact tropics. Qed.
Print Assumptions C89_tropics.
Example C89_case : instant sample_dt sample_u /\ (midnight 1901 1 1 <= sample_u < midnight 2100 1 1)%Z /\
  exists dec ha e, get_topocentric_position (N := MathR) (Fin 52) (Fin 5) sample_dt (Fin 0) = Ok (Fin dec, Fin ha) /\
    get_topocentric_elevation_angle (N := MathR) (Fin 52) (Fin dec) (Fin ha) = Ok (Fin e).
Proof. exact (conj sample_instant (conj sample_1901 (sample_position 52 5 0 ltac:(lra) ltac:(lra)))). Qed.

(* ------------------------------------------------------------------------------- C90 *)
(* n: days since 1 January of the year 1; g: any hour angle *)
Theorem C90_every_hour_angle_every_day : forall (n : Z) lat lon el g, (0 <= n < 3652059)%Z -> -90 <= lat <= 90 -> -100000 <= el <= 100000 ->
  exists u, (n * 86400000000 <= u < (n + 1) * 86400000000)%Z /\
    forall d, instant d u -> exists dec ha (k : Z), get_topocentric_position (N := MathR) (Fin lat) (Fin lon) d (Fin el) = Ok (Fin dec, Fin ha) /\
      Rabs (ha - g - 360 * IZR k) <= 0.213.
Proof. exact passes_angle. Qed.
Print Assumptions C90_every_hour_angle_every_day.
Example C90_case : forall u, instant (at_utc u) u.
Proof. exact at_utc_instant. Qed.

(* ------------------------------------------------------------------------------- C91 *)
Theorem C91_day_and_night : forall (n : Z) lat lon el, (0 <= n < 3652059)%Z -> -65.5 <= lat <= 65.5 -> -100000 <= el <= 100000 ->
  exists u u', (n * 86400000000 <= u < (n + 1) * 86400000000)%Z /\ (n * 86400000000 <= u' < (n + 1) * 86400000000)%Z /\
    (forall d, instant d u -> exists dec ha e, get_topocentric_position (N := MathR) (Fin lat) (Fin lon) d (Fin el) = Ok (Fin dec, Fin ha) /\
      get_topocentric_elevation_angle (N := MathR) (Fin lat) (Fin dec) (Fin ha) = Ok (Fin e) /\ 0.2 < e) /\
    (forall d, instant d u' -> exists dec ha e, get_topocentric_position (N := MathR) (Fin lat) (Fin lon) d (Fin el) = Ok (Fin dec, Fin ha) /\
      get_topocentric_elevation_angle (N := MathR) (Fin lat) (Fin dec) (Fin ha) = Ok (Fin e) /\ e < -0.2).
Proof. exact day_and_night. Qed.
Print Assumptions C91_day_and_night.
(* 21 June 2020, the day of the sample, at 52 N *)
Example C91_case : (0 <= 737596 < 3652059)%Z /\ (737596 * 86400000000 <= sample_u < (737596 + 1) * 86400000000)%Z /\ -65.5 <= 52 <= 65.5.
Proof. split; [split; reflexivity || discriminate|split; [split; [discriminate|reflexivity]|lra]]. Qed.

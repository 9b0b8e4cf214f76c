(* From the place and the time to the irradiance, in binary64. *)
From Coq Require Import Reals Lra Lia ZArith.
From Flocq Require Import Core IEEE754.BinarySingleNaN.
From Interval Require Import Tactic.
From Verif Require Import Py Num Cal TzCheck Clock Constants SolarTime Solar Radiation RInst RTac SpecTime SpecDt SpecGeom SpecEng Trig GeoProofs RefractionProofs PositionProofs
  B64 SpecB64 B64Lemmas B64Ranges B64Lift B64FastAz B64Final B64Rad Samples MotionProofs SeasonProofs.
Local Open Scope R_scope.

(* refraction stays below 1.3 degrees, and vanishes towards the zenith *)
Lemma lift_low P T e : 0 <= P <= 110000 -> 180 <= T <= 340 -> 0 <= e <= 45 -> 0 <= refraction_formula P T e <= 1.3.
Proof.
  intros HP HT He. unfold refraction_formula.
  assert (K : 0 <= P / 101000 * (283 / T) * (1.02 / 60) <= 0.0292) by (split; [|interval]; apply Rmult_le_pos; [apply Rmult_le_pos; [lra|left; apply Rdiv_lt_0_compat; lra]|lra]).
  assert (A : 0 <= cosd (refraction_argument e) / sind (refraction_argument e) <= 30).
  { unfold refraction_argument, cosd, sind. split; interval with (i_bisect e). }
  set (k := P / 101000 * (283 / T) * (1.02 / 60)) in *. set (c := cosd _ / _) in *. clearbody k c. split; nra.
Qed.
Lemma lift_high P T e : 0 <= P <= 110000 -> 180 <= T <= 340 -> 45 <= e <= 89 -> 0 <= refraction_formula P T e <= 0.04.
Proof.
  intros HP HT He. unfold refraction_formula.
  assert (K : 0 <= P / 101000 * (283 / T) * (1.02 / 60) <= 0.0292) by (split; [|interval]; apply Rmult_le_pos; [apply Rmult_le_pos; [lra|left; apply Rdiv_lt_0_compat; lra]|lra]).
  assert (A : 0 <= cosd (refraction_argument e) / sind (refraction_argument e) <= 1.1).
  { unfold refraction_argument, cosd, sind. split; interval with (i_bisect e). }
  set (k := P / 101000 * (283 / T) * (1.02 / 60)) in *. set (c := cosd _ / _) in *. clearbody k c. split; nra.
Qed.
Lemma apparent_up P T e : 0 <= P <= 110000 -> 180 <= T <= 340 -> 0 <= e <= 89 -> e <= e + refraction_formula P T e <= 89.1.
Proof.
  intros HP HT He. destruct (Rle_dec e 45) as [L|L]; [pose proof (lift_low P T e HP HT ltac:(lra))|pose proof (lift_high P T e HP HT ltac:(lra))]; lra.
Qed.

Lemma irradiance64 L (HL : accurate L) lat lon el x xo xe dt u xT T xP P dec ha E : instant dt u -> in_range u = true ->
  val x lat -> val xo lon -> val xe el -> -90 <= lat <= 90 -> -360 <= lon <= 360 -> -100000 <= el <= 100000 ->
  val xT T -> val xP P -> 180 <= T <= 340 -> 0 <= P <= 110000 ->
  get_topocentric_position (N := MathR) (Fin lat) (Fin lon) dt (Fin el) = Ok (Fin dec, Fin ha) ->
  get_topocentric_elevation_angle (N := MathR) (Fin lat) (Fin dec) (Fin ha) = Ok (Fin E) -> 0.00001 <= E <= 89 ->
  exists q a' p r r', get_altitude (N := B64 L) x xo dt xe xT xP = Ok q /\ get_radiation_direct (N := B64 L) (C := clock_math (B64 L)) dt q = Ok p /\ val p r /\
    get_altitude (N := MathR) (Fin lat) (Fin lon) dt (Fin el) (Fin T) (Fin P) = Ok (Fin a') /\
    get_radiation_direct (N := MathR) (C := clock_math MathR) dt (Fin a') = Ok (Fin r') /\
    Rabs (r - r') <= 2.4e-4 /\ ((midnight 1834 1 1 <= u < midnight 2106 1 1)%Z -> Rabs (r - r') <= 3.9e-5).
Proof.
  intros Hi Hr Vx Vo Ve Hlat Hlon Hel VT VP HT HP E1 E2 HE.
  assert (W : ~ (-5.21 < E < -4.99)) by lra. assert (G : 1e-5 <= Rabs (E + 0.83337)) by (rewrite Rabs_pos_eq; lra).
  assert (A89 : Rabs E <= 89) by (rewrite Rabs_pos_eq; lra).
  destruct (altitude_accuracy64 L HL lat lon el x xo xe dt u xT T xP P dec ha E Hi Hr Vx Vo Ve Hlat Hlon Hel VT VP HT HP E1 E2 W G)
    as [(q & a & a' & Q1 & V & Q2 & _ & B1 & B2)|(_ & N)]; [|rewrite Rabs_pos_eq in N; lra].
  specialize (B1 A89). specialize (B2 A89).
  assert (HA : a' = E + refraction_formula P T E).
  { unfold get_altitude in Q2. rewrite (instant_aware dt u Hi), bind_Ok, E1, bind_Ok, E2, bind_Ok, refraction_above, bind_Ok, add_R in Q2 by lra.
    now apply Ok_inj, Fin_inj in Q2. }
  pose proof (apparent_up P T E HP HT ltac:(lra)) as UP. rewrite <- HA in UP. pose proof (Rabs_le_inv _ _ B1) as BB.
  destruct (radiation_near64 L HL dt u q a a' 2.8e-6 Hi Hr V ltac:(lra) ltac:(lra) B1) as (p & r & r' & R1 & R2 & R3 & R4).
  exists q, a', p, r, r'. do 5 (split; [assumption|]). split; [lra|]. intros Hm.
  destruct (radiation_near64 L HL dt u q a a' 4.6e-7 Hi Hr V ltac:(lra) ltac:(lra) (B2 Hm)) as (p2 & r2 & r2' & S1 & S2 & S3 & S4).
  rewrite R1 in S1. apply Ok_inj in S1. subst p2. rewrite R3 in S3. apply Ok_inj, Fin_inj in S3. subst r2'.
  destruct R2 as [_ R2]. destruct S2 as [_ S2]. rewrite R2 in S2. subst r2. lra.
Qed.
(* with the sun a degree or more below the horizon both give zero *)
Lemma dark64 L (HL : accurate L) lat lon el x xo xe dt u xT T xP P dec ha E : instant dt u -> in_range u = true ->
  val x lat -> val xo lon -> val xe el -> -90 <= lat <= 90 -> -360 <= lon <= 360 -> -100000 <= el <= 100000 ->
  val xT T -> val xP P -> 180 <= T <= 340 -> 0 <= P <= 110000 ->
  get_topocentric_position (N := MathR) (Fin lat) (Fin lon) dt (Fin el) = Ok (Fin dec, Fin ha) ->
  get_topocentric_elevation_angle (N := MathR) (Fin lat) (Fin dec) (Fin ha) = Ok (Fin E) -> E <= -0.8334 -> ~ (-5.21 < E < -4.99) -> -89.9 <= E ->
  exists q p, get_altitude (N := B64 L) x xo dt xe xT xP = Ok q /\ get_radiation_direct (N := B64 L) (C := clock_math (B64 L)) dt q = Ok p /\ val p 0.
Proof.
  intros Hi Hr Vx Vo Ve Hlat Hlon Hel VT VP HT HP E1 E2 HE W H89.
  assert (G : 1e-5 <= Rabs (E + 0.83337)) by (rewrite Rabs_left1; lra).
  destruct (altitude_accuracy64 L HL lat lon el x xo xe dt u xT T xP P dec ha E Hi Hr Vx Vo Ve Hlat Hlon Hel VT VP HT HP E1 E2 W G)
    as [(q & a & a' & Q1 & V & Q2 & B & _)|(_ & N)]; [|rewrite Rabs_left1 in N; lra].
  assert (HA : a' = E).
  { unfold get_altitude in Q2. rewrite (instant_aware dt u Hi), bind_Ok, E1, bind_Ok, E2, bind_Ok in Q2.
    destruct (get_refraction_correction (N := MathR) (Fin P) (Fin T) (Fin E)) as [r|ex] eqn:Er; [|discriminate Q2].
    rewrite (refraction_returns_below (Fin P) (Fin T) E r ltac:(lra) Er), bind_Ok, add_R, Rplus_0_r in Q2. now apply Ok_inj, Fin_inj in Q2. }
  rewrite HA in B. apply Rabs_le_inv in B.
  destruct (radiation_night64 L HL dt u q a Hi Hr V ltac:(lra)) as (p & R1 & R2 & _). now exists q, p.
Qed.
(* a case: the north pole on 21 June 2020 *)
Lemma june_pole : exists dec ha, get_topocentric_position (N := MathR) (Fin 90) (Fin 0) sample_dt (Fin 0) = Ok (Fin dec, Fin ha) /\
  get_topocentric_elevation_angle (N := MathR) (Fin 90) (Fin dec) (Fin ha) = Ok (Fin dec) /\ 0.00001 <= dec <= 89.
Proof.
  pose proof ApproxProofs.sample_1901 as U.
  destruct (poles sample_dt sample_u 173 17 0 0 0 sample_instant U sample_clock ltac:(lra)) as ((dec & ha & E1 & E2 & _) & _).
  exists dec, ha. split; [exact E1|]. split; [exact E2|].
  destruct (seasons sample_dt sample_u 173 17 0 90 0 0 dec ha sample_instant U sample_clock ltac:(lra) ltac:(lra) E1) as (_ & _ & S & _). specialize (S ltac:(lia)).
  destruct (tropics sample_dt sample_u 90 0 0 dec ha dec sample_instant U ltac:(lra) ltac:(lra) E1 E2) as (TD & _). apply Rabs_le_inv in TD. lra.
Qed.

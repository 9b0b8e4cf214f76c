(* test/query_usno.py: requests, comparisons and the log (C113 - C115). *)
From Coq Require Import Reals Lra ZArith List.
From Verif Require Import Py Num Cal Constants SolarTime Solar RInst B64 Demo ScriptText SpecPyText Usno UsnoLog SpecUsno Samples UsnoProofs UsnoLogProofs.
Import ListNotations.
Local Open Scope R_scope.

(* ------------------------------------------------------------------------------- C113 *)
(* "the degrees, minutes and seconds requested denote the coordinate" is false *)
Theorem C113_request_refuted :
  (exists d m s, encode_coordinate (N := MathR) divmod_R int_R (Fin (-0.5)) = Ok (mkdms (N := MathR) true d m (Fin s)) /\ denoted true d m s = -1.5) /\
  (forall L, proj_dms (encode_coordinate (N := B64 L) divmod_64 int_64 (flit (-71.112828))) = Some (true, 72%Z, 53%Z)).
Proof. exact (conj half_degree cambridge64). Qed.
Print Assumptions C113_request_refuted.
(* exactly when they do; missing: every other coordinate *)
Theorem C113_request_partial : forall x, exists w d m s,
  encode_coordinate (N := MathR) divmod_R int_R (Fin x) = Ok (mkdms (N := MathR) w d m (Fin s)) /\ (0 <= d)%Z /\ (0 <= m < 60)%Z /\ 0 <= s < 1 / 60 /\
  (denoted w d m s = x <-> exists k : Z, x = IZR k \/ 0 <= x /\ x * 60 = IZR k) /\
  (0 <= x -> x - 1 / 60 < denoted w d m s <= x) /\ (x < 0 -> -2 < denoted w d m s - x <= 0).
Proof. exact coordinates. Qed.
Print Assumptions C113_request_partial.
(* the coordinates GatherRandomEphemeris draws are whole *)
Example C113_case : exists k : Z, -71 = IZR k \/ 0 <= -71 /\ -71 * 60 = IZR k.
Proof. exists (-71)%Z. left. lra. Qed.

(* ------------------------------------------------------------------------------- C114 *)
(* "a datum that agrees with pysolar has errors 0" is false: sun due south *)
Theorem C114_comparison_refuted : exists lon alt, -180 <= lon < 180 /\
  get_altitude (N := MathR) (Fin 45) (Fin lon) sample_dt (Fin 0) standard_temperature standard_pressure = Ok (Fin alt) /\
  get_azimuth (N := MathR) (Fin 45) (Fin lon) sample_dt (Fin 0) = Ok (Fin 180) /\
  exists c, compare_to_usno (N := MathR) abs_R (mkeph (N := MathR) sample_dt (Fin 45) (Fin lon) (Fin 0) (Fin 180) (Fin (90 - alt))) = Ok c /\
    cmp_alt_error c = Fin 0 /\ cmp_az_error c = Fin 180.
Proof. exact agreeing_datum. Qed.
Print Assumptions C114_comparison_refuted.
(* z: zenith distance of the datum, A: its azimuth.  The altitude is compared rightly; the azimuth error
   is taken from 180 - az and is not reduced to [0, 180] *)
Theorem C114_comparison_partial : forall d lat lon el A z alt az, 0 <= az < 360 -> 0 <= A < 360 ->
  get_altitude (N := MathR) (Fin lat) (Fin lon) d (Fin el) standard_temperature standard_pressure = Ok (Fin alt) ->
  get_azimuth (N := MathR) (Fin lat) (Fin lon) d (Fin el) = Ok (Fin az) ->
  exists c da, compare_to_usno (N := MathR) abs_R (mkeph (N := MathR) d (Fin lat) (Fin lon) (Fin el) (Fin A) (Fin z)) = Ok c /\
    cmp_alt_error c = Fin (Rabs (alt - (90 - z))) /\ cmp_az_error c = Fin da /\
    (A = az -> (da = 0 <-> az = 90 \/ az = 270)) /\
    compass_difference (180 - az) A (if Rle_dec da 180 then da else 360 - da).
Proof. exact comparison. Qed.
Print Assumptions C114_comparison_partial.
(* the angles of a datum are those of the answer *)
Theorem C114_answer : forall (d m : Z) s, answer_angle (N := MathR) (Fin (IZR d)) (Fin (IZR m)) (Fin s) = Ok (Fin (denoted false d m s)).
Proof. exact answer_val. Qed.
Print Assumptions C114_answer.
(* the hypotheses of C114_comparison_partial are met by the datum of C114_comparison_refuted *)
Example C114_case : exists lon alt, get_altitude (N := MathR) (Fin 45) (Fin lon) sample_dt (Fin 0) standard_temperature standard_pressure = Ok (Fin alt) /\
  get_azimuth (N := MathR) (Fin 45) (Fin lon) sample_dt (Fin 0) = Ok (Fin 180).
Proof. destruct agreeing_datum as (lon & alt & _ & A & B & _). now exists lon, alt. Qed.

(* ------------------------------------------------------------------------------- C115 *)
(* "a log that was written can be read" is false: one datum with a UTC offset (as every datum read from a
   log has) or with a fraction of a second makes the whole log unreadable *)
Theorem C115_log_refuted : forall ds rs d off rest, Forall2 reads_as ds rs ->
  utcoffset (w_when d) = Ok off -> valid_dt (w_when d) -> worded d -> off <> None \/ (dt_local (w_when d) mod 1000000)%Z <> 0%Z ->
  exists ls l, Forall2 (fun d l => log_line d = Ok l) ds ls /\ log_line d = Ok l /\ read_log (List.concat ls ++ l ++ rest) = Err ValueError.
Proof. exact log_unreadable. Qed.
Print Assumptions C115_log_refuted.
(* missing: data with an offset or a fraction of a second *)
Theorem C115_log_partial : forall ds rs, Forall2 reads_as ds rs ->
  exists ls, Forall2 (fun d l => log_line d = Ok l) ds ls /\ read_log (List.concat ls) = Ok rs.
Proof. exact log_round_trip_all. Qed.
Print Assumptions C115_log_partial.
Example C115_case : exists r, reads_as sample_datum r.
Proof. exact sample_datum_reads. Qed.

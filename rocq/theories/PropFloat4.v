(* Properties of sunrise and sunset in binary64. *)
From Coq Require Import Reals Lra QArith.QArith_base.
From Verif Require Import Py Num Cal Clock Constants Solar Util RInst B64 SpecTime SpecDt SpecGeom SpecEng SpecB64 SpecRise Samples B64Lemmas B64Sunrise.
Local Open Scope R_scope.

(* ------------------------------------------------------------------------------- C96 *)
(* the sun rises (|cos H| < 1): both calls return, sunrise and sunset within 50 ms of each other
   and, away from the days when the sun barely rises or sets, within a microsecond; transit always
   within a microsecond *)
Theorem C96_sunrise64 : forall L, accurate L -> forall d u day h m, instant d u -> civil_clock (dt_local d) day h m -> inside_calendar d ->
  forall x xo lat lon, val x lat -> val xo lon -> Rabs lat <= 89 -> Rabs lon <= 180 ->
  let c := rising_cosine lat (fourier_declination (IZR day)) in
  (Rabs c <= 1 - 2e-12 -> exists a b t a' b' t',
     get_sunrise_sunset_transit (N := B64 L) x xo d = Ok (a, b, t) /\ get_sunrise_sunset_transit (N := MathR) (Fin lat) (Fin lon) d = Ok (a', b', t') /\
     apart 50000 a a' /\ apart 50000 b b' /\ apart 1 t t' /\ (Rabs c <= 0.99 -> apart 1 a a' /\ apart 1 b b')) /\
  (1 + 2e-12 <= Rabs c -> get_sunrise_sunset_transit (N := B64 L) x xo d = Err ValueError /\ get_sunrise_sunset_transit (N := MathR) (Fin lat) (Fin lon) d = Err ValueError).
Proof. exact sunrise64_both. Qed.
Print Assumptions C96_sunrise64.
Example C96_case : instant sample_dt sample_u /\ civil_clock (dt_local sample_dt) 173 12 0 /\ inside_calendar sample_dt /\
  val (flit 40) 40 /\ val (flit 80) 80 /\ val (flit (-75)) (-75) /\
  Rabs (rising_cosine 40 (fourier_declination 173)) <= 0.99 /\ 1 + 2e-12 <= Rabs (rising_cosine 80 (fourier_declination 173)).
Proof.
  split; [exact sample_instant|]. split; [exact sample_local_clock|]. split; [exact sample_inside|].
  split; [|split; [|split; [|exact sunrise64_case]]];
    [apply (val_int 40)|apply (val_int 80)|apply (val_int (-75))]; discriminate.
Qed.

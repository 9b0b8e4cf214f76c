(* The direct irradiance of arrays of places and times, in binary64 (C125). *)
From Coq Require Import Reals QArith Qreals Lra Lia List.
From Flocq Require Import Core IEEE754.BinarySingleNaN.
From Interval Require Import Tactic.
From Verif Require Import Py Num Cal TzCheck Clock RInst Rel RelInst Constants SolarTime Solar Radiation SpecTime SpecDt SpecEng SpecGeom GenProofs FastProofs RadiationProofs
  B64 SpecB64 B64Lemmas B64Fast B64Rad B64Np SpecNp NpProofs64 NpCases64 B64Ranges Trig.
Local Open Scope R_scope.

Section L.
Variable L : libm.
Hypothesis HL : accurate L.
Hypothesis HP : pow_std L.
Context {I : Type} (i : I).
Notation R_ := (b64_arr L HP I i).

Lemma air_mass_arr64 (x : I -> f64) : is_zero (l_sin L (radians (n := B64 L) (x i))) = false ->
  relres (rT _ _ R_) (get_air_mass_ratio (N := B64 L) (x i)) (get_air_mass_ratio (N := Arr64 I L) x).
Proof.
  intros Z v Hv. unfold get_air_mass_ratio in *. cbn [nsin B64 Arr64 bind radians] in *.
  destruct (math_1 ValueError (l_sin L) (Bmult mode_NE (x i) deg_to_rad)) as [s|e] eqn:E; cbn [bind] in Hv.
  2:{ destruct e; try discriminate. now apply math_1_zde in E. }
  apply math_1_np in E. cbn [radians B64] in Z. rewrite E in *. cbn [div B64] in Hv. rewrite Z in Hv.
  eexists. split; [reflexivity|]. cbn [rT b64_arr]. apply Ok_inj in Hv. rewrite <- Hv. cbn [lit Arr64 radians B64]. rewrite E. reflexivity.
Qed.
Lemma radiation_arr64 (alt : I -> f64) d w : instant d (w i) -> in_range (w i) = true ->
  is_zero (l_sin L (radians (n := B64 L) (alt i))) = false ->
  elt64 i (get_radiation_direct (C := clock_math (B64 L)) d (alt i)) (get_radiation_direct (C := clock_array64 I L) w alt).
Proof.
  intros H1 H2 Z. assert (C : instant d (w i) /\ in_range (w i) = true) by auto. apply (elt64_of L HP). unfold get_radiation_direct.
  eapply relres_bind; [exact (r_yday _ _ _ (clock_elt64 L HP I i) d w C)|]. intros y y' Hy.
  eapply relres_bind; [exact (get_apparent_extraterrestrial_flux_rel R_ y y' Hy)|]. intros f f' Hf.
  eapply relres_bind; [exact (get_optical_depth_rel R_ y y' Hy)|]. intros o o' Ho.
  eapply relres_bind; [exact (air_mass_arr64 alt Z)|]. intros m m' Hm.
  eapply relres_bind.
  - apply (r_exp _ _ R_). apply (r_mul _ _ R_); [|exact Hm]. apply (r_mul _ _ R_); [|exact Ho]. apply (r_neg _ _ R_). apply (r_lit _ _ R_).
  - intros e e' He. apply relres_Ok. apply (r_mul _ _ R_).
    + apply (r_mul _ _ R_); [exact Hf|exact He].
    + apply (r_of_bool _ _ R_). apply (r_lt _ _ R_); [apply (r_lit _ _ R_)|reflexivity].
Qed.

Variables (x xo : I -> f64) (w : I -> Z) (lat lon E : R) (dt : datetime).
Hypothesis (Hi : instant dt (w i)) (Hr : in_range (w i) = true) (Vx : val (x i) lat) (Vo : val (xo i) lon).
Hypothesis (Bx : -90 <= lat <= 90) (Bo : -360 <= lon <= 360).
Hypothesis HE : get_altitude_fast (N := MathR) (C := clock_math MathR) (Fin lat) (Fin lon) dt = Ok (Fin E).

Lemma alt_arr64 : Rabs E <= 89 -> exists alt a, get_altitude_fast (C := clock_array64 I L) x xo w = Ok alt /\ val (alt i) a /\ Rabs (a - E) <= 1.2e-10.
Proof.
  intros B. destruct (altitude_fast64 L HL lat lon (x i) (xo i) dt (w i) Hi Hr Vx Vo Bx Bo) as (E' & H & K).
  rewrite HE in H. apply Ok_inj in H. assert (EE : E' = E) by (now inversion H). subst E'.
  destruct K as [(q & a & Q & V & _ & A)|(_ & A)]; [|lra].
  destruct (proj1 (fast_arr64 L HP i x xo dt w Hi Hr) q Q) as (alt & HA & EA). exists alt, a. rewrite EA. auto.
Qed.
Lemma beam_night64 : -89 <= E <= -0.0176 -> exists alt r, get_altitude_fast (C := clock_array64 I L) x xo w = Ok alt /\
  get_radiation_direct (C := clock_array64 I L) w alt = Ok r /\ val (r i) 0.
Proof.
  intros B. destruct alt_arr64 as (alt & a & HA & V & A). { apply Rabs_le. lra. }
  apply Rabs_le_inv in A.
  destruct (radiation_night64 L HL dt (w i) (alt i) a Hi Hr V ltac:(lra)) as (q & Q & V0 & _).
  assert (Z : is_zero (l_sin L (radians (n := B64 L) (alt i))) = false).
  { apply (sine_not_zero L HL (alt i) a V). rewrite Rabs_left by lra. lra. }
  destruct (radiation_arr64 alt dt w Hi Hr Z q Q) as (r & HR & ER). exists alt, r. rewrite ER. auto.
Qed.
Lemma beam_day64 : 0.0001 <= E <= 89 -> exists alt r b b', get_altitude_fast (C := clock_array64 I L) x xo w = Ok alt /\
  get_radiation_direct (C := clock_array64 I L) w alt = Ok r /\ val (r i) b /\
  get_radiation_direct (N := MathR) (C := clock_math MathR) dt (Fin E) = Ok (Fin b') /\ Rabs (b - b') <= 1.1e-8.
Proof.
  intros B. destruct alt_arr64 as (alt & a & HA & V & A). { apply Rabs_le. lra. }
  pose proof (Rabs_le_inv _ _ A) as A'.
  destruct (radiation_near64 L HL dt (w i) (alt i) a E 1.2e-10 Hi Hr V ltac:(lra) ltac:(lra) A) as (q & b & b' & Q & Vb & M & D).
  assert (Z : is_zero (l_sin L (radians (n := B64 L) (alt i))) = false).
  { apply (sine_not_zero L HL (alt i) a V). rewrite Rabs_pos_eq by lra. lra. }
  destruct (radiation_arr64 alt dt w Hi Hr Z q Q) as (r & HR & ER). exists alt, r, b, b'. rewrite ER. repeat split; auto; try apply Vb. lra.
Qed.
End L.

(* test/test_numpy.py 97-115, test_numpy_radiation: the third place and time *)
Definition radiation_test_u : Z := (midnight 2018 5 8 + 3 * 3600000000)%Z.
Lemma radiation_test_clock : civil_clock radiation_test_u 128 3 0.
Proof. split; [exists 2018%Z; vm_compute; intuition discriminate|lia]. Qed.
Lemma radiation_test_altitude dt : instant dt radiation_test_u -> exists E,
  get_altitude_fast (N := MathR) (C := clock_math MathR) (Fin 40) (Fin 3) dt = Ok (Fin E) /\ -89 <= E <= -0.0176.
Proof.
  intros Hi. destruct (fast_correct dt radiation_test_u 128 3 0 40 3 Hi ltac:(vm_compute; reflexivity) radiation_test_clock ltac:(lra)) as (_ & _ & e & H & B & S & _).
  exists e. split; [exact H|].
  assert (K : -0.5 <= sind e <= -0.1).
  { rewrite S. unfold dot, equatorial, up, masters_hour_angle, masters_solar_time, masters_eot, masters_declination, sind, cosd. cbv zeta. interval. }
  assert (S1 : sind (-89) < -0.5) by (unfold sind; interval).
  assert (S2 : -0.1 < sind (-0.0176)) by (unfold sind; interval).
  split.
  - destruct (Rle_or_lt (-89) e) as [|W]; [assumption|]. pose proof (sind_incr e (-89) ltac:(lra) W ltac:(lra)). lra.
  - destruct (Rle_or_lt e (-0.0176)) as [|W]; [assumption|]. pose proof (sind_incr (-0.0176) e ltac:(lra) W ltac:(lra)). lra.
Qed.

Definition radiation_test_dt : datetime := mkdt radiation_test_u false (Some {| tz_id := 0; tz_utcoffset := fun _ _ => Some 0%Z |}).
Lemma radiation_test_instant : instant radiation_test_dt radiation_test_u.
Proof. eexists. exists 0%Z. split; [reflexivity|]. split; [reflexivity|]. split; [reflexivity|]. unfold radiation_test_dt. cbn [dt_local]. lia. Qed.
Lemma radiation_test64 L : accurate L -> pow_std L -> forall (x xo : nat -> f64) (w : nat -> Z),
  val (x 2%nat) 40 -> val (xo 2%nat) 3 -> w 2%nat = (midnight 2018 5 8 + 3 * 3600000000)%Z ->
  exists alt r, get_altitude_fast (C := clock_array64 nat L) x xo w = Ok alt /\
    get_radiation_direct (C := clock_array64 nat L) w alt = Ok r /\ val (r 2%nat) 0.
Proof.
  intros HL HP x xo w V1 V2 W. fold radiation_test_u in W.
  destruct (radiation_test_altitude _ radiation_test_instant) as (E & HE & B).
  apply (beam_night64 L HL HP 2%nat x xo w 40 3 E radiation_test_dt); try assumption; try lra.
  - rewrite W. exact radiation_test_instant.
  - rewrite W. vm_compute. reflexivity.
Qed.
Lemma radiation_case : accurate std_libm /\ pow_std std_libm /\ val (flit 40) 40 /\ val (flit 3) 3 /\
  exists d E, instant d radiation_test_u /\ in_range radiation_test_u = true /\
    get_altitude_fast (N := MathR) (C := clock_math MathR) (Fin 40) (Fin 3) d = Ok (Fin E) /\ -89 <= E <= -0.0176.
Proof.
  split; [exact std_accurate|]. split; [exact std_pow|]. split; [exact (val_int 40 ltac:(discriminate))|]. split; [exact (val_int 3 ltac:(discriminate))|].
  destruct (radiation_test_altitude _ radiation_test_instant) as (E & HE & B). exists radiation_test_dt, E.
  split; [exact radiation_test_instant|]. split; [vm_compute; reflexivity|]. auto.
Qed.

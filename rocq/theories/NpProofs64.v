(* The numpy back end in binary64. *)
From Coq Require Import QArith.
From Flocq Require Import Core IEEE754.BinarySingleNaN.
From Verif Require Import Py Num Cal TzCheck Clock RInst Rel Constants SolarTime Solar Radiation Util Simulate Elevation SpecTime SpecDt Arr GenProofs SolarTimeProofs BackendProofs
  B64 B64Np SpecNp.

Lemma Ok_eq {A} (a b : A) : Ok a = Ok b -> a = b.
Proof. congruence. Qed.
Lemma math_1_np ex f x r : math_1 ex f x = Ok r -> f x = r.
Proof. unfold math_1. destruct (_ && _); [discriminate|]. destruct (_ && _); [discriminate|]. congruence. Qed.
Lemma math_2_np f x y r : math_2 f x y = Ok r -> f x y = r.
Proof. unfold math_2. destruct (_ && _ && _); [discriminate|]. destruct (_ && _ && _); [discriminate|]. congruence. Qed.
Lemma div_np (L : libm) x y r : div (n := B64 L) x y = Ok r -> Bdiv mode_NE x y = r.
Proof. cbn. destruct (is_zero y); [discriminate|]. congruence. Qed.
Lemma fmod_np x y r : py_fmod x y = Ok r -> np_fmod x y = r.
Proof. unfold np_fmod. now intros ->. Qed.
Lemma math_1_zde f x : math_1 ValueError f x <> Err ZeroDivisionError.
Proof. unfold math_1. destruct (_ && _); [discriminate|]. destruct (_ && _); discriminate. Qed.
Lemma py_or_np_ok p n a b r : (forall x y z, p x y = Ok z -> n x y = z) -> p (vf a) (vf b) = Ok r -> exists q, py_or_np p n a b = Ok q /\ r = vf q.
Proof.
  intros A H. unfold py_or_np. destruct (is_npf a || is_npf b).
  - eexists. split; [reflexivity|]. symmetry. now apply A.
  - rewrite H. eexists. split; reflexivity.
Qed.

Section L.
Variable L : libm.
Hypothesis HP : pow_std L.

Definition b64_np : NumRel (B64 L) (Np64 L).
Proof.
  refine {| rT := (fun x y => x = vf y) : T (B64 L) -> T (Np64 L) -> Prop; rB := (fun b c => b = c) : B (B64 L) -> B (Np64 L) -> Prop; r_scalar := True; r_recip := False |}.
  - intros q. reflexivity.
  - reflexivity.
  - intros a a' b b' Ha Hb. rewrite Ha, Hb. reflexivity.
  - intros a a' b b' Ha Hb. rewrite Ha, Hb. reflexivity.
  - intros a a' b b' Ha Hb. rewrite Ha, Hb. reflexivity.
  - intros a a' Ha. rewrite Ha. reflexivity.
  - intros a a' b b' Ha Hb r Hr. rewrite Ha, Hb in Hr. exact (py_or_np_ok _ _ _ _ _ (div_np L) Hr).
  - intros b b' [].
  - intros a. exact (math_1_zde _ a).
  - intros a a' b b' Ha Hb r Hr. rewrite Ha, Hb in Hr. exact (py_or_np_ok _ _ _ _ _ fmod_np Hr).
  - intros a a' n Ha r Hr. rewrite Ha in Hr. exact (py_or_np_ok _ _ a' (mknf false (flit (inject_Z (Z.of_nat n)))) _ HP Hr).
  - intros a a' b b' Ha Hb r Hr. rewrite Ha, Hb in Hr. exact (py_or_np_ok _ _ _ _ _ HP Hr).
  - intros a a' Ha r Hr. rewrite Ha in Hr. eexists. split; [reflexivity|]. symmetry. exact (math_1_np _ _ _ _ Hr).
  - intros a a' Ha r Hr. rewrite Ha in Hr. eexists. split; [reflexivity|]. symmetry. exact (math_1_np _ _ _ _ Hr).
  - intros a a' Ha r Hr. rewrite Ha in Hr. eexists. split; [reflexivity|]. symmetry. exact (math_1_np _ _ _ _ Hr).
  - intros a a' Ha r Hr. rewrite Ha in Hr. eexists. split; [reflexivity|]. symmetry. exact (math_1_np _ _ _ _ Hr).
  - intros a a' Ha r Hr. rewrite Ha in Hr. eexists. split; [reflexivity|]. symmetry. exact (math_1_np _ _ _ _ Hr).
  - intros a a' Ha r Hr. rewrite Ha in Hr. eexists. split; [reflexivity|]. symmetry. exact (math_1_np _ _ _ _ Hr).
  - intros a a' b b' Ha Hb r Hr. rewrite Ha, Hb in Hr. eexists. split; [reflexivity|]. symmetry. exact (math_2_np _ _ _ _ Hr).
  - intros a a' Ha r Hr. rewrite Ha in Hr. eexists. split; [reflexivity|]. symmetry. exact (math_1_np _ _ _ _ Hr).
  - intros a a' Ha. rewrite Ha. reflexivity.
  - intros a a' Ha. rewrite Ha. reflexivity.
  - reflexivity.
  - reflexivity.
  - intros a a' b b' Ha Hb. rewrite Ha, Hb. reflexivity.
  - intros a a' b b' Ha Hb. rewrite Ha, Hb. reflexivity.
  - intros b b' Hb. rewrite Hb. reflexivity.
  - intros b b' _ Hb. rewrite Hb. apply relres_refl.
  - intros c c' x x' y y' Hc Hx Hy. rewrite Hc, Hx, Hy. destruct c'; reflexivity.
  - intros a a' _ Ha. rewrite Ha. apply relres_refl.
  - intros a a' _ Ha. rewrite Ha. apply relres_refl.
Defined.

Definition b64_arr (I : Type) (i : I) : NumRel (B64 L) (Arr64 I L).
Proof.
  refine {| rT := (fun x y => x = y i) : T (B64 L) -> T (Arr64 I L) -> Prop; rB := (fun b c => b = c i) : B (B64 L) -> B (Arr64 I L) -> Prop; r_scalar := False; r_recip := False |}.
  - intros q. reflexivity.
  - reflexivity.
  - intros a a' b b' Ha Hb. rewrite Ha, Hb. reflexivity.
  - intros a a' b b' Ha Hb. rewrite Ha, Hb. reflexivity.
  - intros a a' b b' Ha Hb. rewrite Ha, Hb. reflexivity.
  - intros a a' Ha. rewrite Ha. reflexivity.
  - intros a a' b b' Ha Hb r Hr. rewrite Ha, Hb in Hr. eexists. split; [reflexivity|]. symmetry. exact (div_np _ _ _ _ Hr).
  - intros b b' [].
  - intros a. exact (math_1_zde _ a).
  - intros a a' b b' Ha Hb r Hr. rewrite Ha, Hb in Hr. eexists. split; [reflexivity|]. symmetry. exact (fmod_np _ _ _ Hr).
  - intros a a' n Ha r Hr. rewrite Ha in Hr. eexists. split; [reflexivity|]. symmetry. exact (HP _ _ _ Hr).
  - intros a a' b b' Ha Hb r Hr. rewrite Ha, Hb in Hr. eexists. split; [reflexivity|]. symmetry. exact (HP _ _ _ Hr).
  - intros a a' Ha r Hr. rewrite Ha in Hr. eexists. split; [reflexivity|]. symmetry. exact (math_1_np _ _ _ _ Hr).
  - intros a a' Ha r Hr. rewrite Ha in Hr. eexists. split; [reflexivity|]. symmetry. exact (math_1_np _ _ _ _ Hr).
  - intros a a' Ha r Hr. rewrite Ha in Hr. eexists. split; [reflexivity|]. symmetry. exact (math_1_np _ _ _ _ Hr).
  - intros a a' Ha r Hr. rewrite Ha in Hr. eexists. split; [reflexivity|]. symmetry. exact (math_1_np _ _ _ _ Hr).
  - intros a a' Ha r Hr. rewrite Ha in Hr. eexists. split; [reflexivity|]. symmetry. exact (math_1_np _ _ _ _ Hr).
  - intros a a' Ha r Hr. rewrite Ha in Hr. eexists. split; [reflexivity|]. symmetry. exact (math_1_np _ _ _ _ Hr).
  - intros a a' b b' Ha Hb r Hr. rewrite Ha, Hb in Hr. eexists. split; [reflexivity|]. symmetry. exact (math_2_np _ _ _ _ Hr).
  - intros a a' Ha r Hr. rewrite Ha in Hr. eexists. split; [reflexivity|]. symmetry. exact (math_1_np _ _ _ _ Hr).
  - intros a a' Ha. rewrite Ha. reflexivity.
  - intros a a' Ha. rewrite Ha. reflexivity.
  - reflexivity.
  - reflexivity.
  - intros a a' b b' Ha Hb. rewrite Ha, Hb. reflexivity.
  - intros a a' b b' Ha Hb. rewrite Ha, Hb. reflexivity.
  - intros b b' Hb. rewrite Hb. reflexivity.
  - intros b b' [].
  - intros c c' x x' y y' Hc Hx Hy. rewrite Hc, Hx, Hy. reflexivity.
  - intros a a' [].
  - intros a a' [].
Defined.

Definition clock_np64 : ClockRel b64_np (clock_math (B64 L)) (clock_numpy (Np64 L)).
Proof.
  refine {| rD := fun (d : D (clock_math (B64 L))) (d' : D (clock_numpy (Np64 L))) => d = d' /\ civil d |}.
  1: intros d ? (<- & _); apply relres_refl.
  all: intros d ? (<- & u & H1 & H2 & H3);
    destruct (date_decompositions_agree d u H1 H3 H2) as (y & h & m & E1 & E2 & E3 & E4 & E5 & E6 & _);
    cbn [clock_math clock_numpy tm_yday tm_hour tm_min]; rewrite ?E1, ?E2, ?E3, ?E4, ?E5, ?E6; apply relres_Ok; reflexivity.
Defined.

Definition clock_one64 (I : Type) (i : I) : ClockRel (b64_arr I i) (clock_math (B64 L)) (clock_numpy (Arr64 I L)).
Proof.
  refine {| rD := fun (d : D (clock_math (B64 L))) (d' : D (clock_numpy (Arr64 I L))) => d = d' /\ civil d |}.
  1: intros d ? (<- & _); apply relres_refl.
  all: intros d ? (<- & u & H1 & H2 & H3);
    destruct (date_decompositions_agree d u H1 H3 H2) as (y & h & m & E1 & E2 & E3 & E4 & E5 & E6 & _);
    cbn [clock_math clock_numpy tm_yday tm_hour tm_min]; rewrite ?E1, ?E2, ?E3, ?E4, ?E5, ?E6; apply relres_Ok; reflexivity.
Defined.

Definition clock_elt64 (I : Type) (i : I) : ClockRel (b64_arr I i) (clock_math (B64 L)) (clock_array64 I L).
Proof.
  refine {| rD := fun (d : D (clock_math (B64 L))) (w : D (clock_array64 I L)) => instant d (w i) /\ in_range (w i) = true |}.
  1: intros d w _ a _; exists tt; split; [reflexivity|now destruct a].
  all: intros d w (H1 & H2); cbn [clock_math clock_array64 tm_yday tm_hour tm_min];
    unfold tm_yday_math, tm_hour_math, tm_min_math; rewrite (instant_utctimetuple d _ H1), H2; cbn [bind rmap].
  all: apply relres_Ok; cbn [rT b64_arr]; unfold ofZ; cbn [lit B64].
  - now rewrite tm_yday_dt64_spec.
  - now rewrite tm_hour_dt64_spec.
  - now rewrite tm_min_dt64_spec.
Defined.

Lemma same64_of m n : relres (rT _ _ b64_np) m n -> same64 m n.
Proof. intros H x Hx. destruct (H x Hx) as ([b y] & -> & E). cbn in E. subst. eauto. Qed.
Lemma same64_pair_of m n : relres (relprod (rT _ _ b64_np) (rT _ _ b64_np)) m n -> same64_pair m n.
Proof. intros H x y Hx. destruct (H _ Hx) as ([[b u] [c v]] & -> & E1 & E2). cbn in E1, E2. subst. eauto. Qed.
Lemma elt64_of I (i : I) m n : relres (rT _ _ (b64_arr I i)) m n -> elt64 i m n.
Proof. intros H x Hx. destruct (H x Hx) as (v & -> & E). cbn in E. eauto. Qed.

Section P.
Context (fl : nat -> bool).
Notation n i x := (mknf (fl i) x).

Lemma position_np64 lat lon d el t p :
  same64_pair (get_topocentric_position (N := B64 L) lat lon d el) (get_topocentric_position (N := Np64 L) (n 0 lat) (n 1 lon) d (n 2 el)) /\
  same64 (get_azimuth (N := B64 L) lat lon d el) (get_azimuth (N := Np64 L) (n 0 lat) (n 1 lon) d (n 2 el)) /\
  same64 (get_altitude (N := B64 L) lat lon d el t p) (get_altitude (N := Np64 L) (n 0 lat) (n 1 lon) d (n 2 el) (n 3 t) (n 4 p)) /\
  same64_pair (get_position (N := B64 L) lat lon d el t p) (get_position (N := Np64 L) (n 0 lat) (n 1 lon) d (n 2 el) (n 3 t) (n 4 p)).
Proof.
  split; [|split; [|split]].
  - apply same64_pair_of. exact (get_topocentric_position_rel b64_np lat (n 0 lat) lon (n 1 lon) d el (n 2 el) eq_refl eq_refl eq_refl).
  - apply same64_of. exact (get_azimuth_rel b64_np lat (n 0 lat) lon (n 1 lon) d el (n 2 el) eq_refl eq_refl eq_refl).
  - apply same64_of. exact (get_altitude_rel b64_np lat (n 0 lat) lon (n 1 lon) d el (n 2 el) t (n 3 t) p (n 4 p) eq_refl eq_refl eq_refl eq_refl eq_refl).
  - apply same64_pair_of. exact (get_position_rel b64_np lat (n 0 lat) lon (n 1 lon) d el (n 2 el) t (n 3 t) p (n 4 p) eq_refl eq_refl eq_refl eq_refl eq_refl).
Qed.

Lemma fast_np64 lat lon d u : instant d u -> in_range u = true -> whole_minute_offset d ->
  same64 (get_solar_time (C := clock_math (B64 L)) lon d) (get_solar_time (C := clock_numpy (Np64 L)) (n 1 lon) d) /\
  same64 (get_hour_angle (C := clock_math (B64 L)) d lon) (get_hour_angle (C := clock_numpy (Np64 L)) d (n 1 lon)) /\
  same64 (get_altitude_fast (C := clock_math (B64 L)) lat lon d) (get_altitude_fast (C := clock_numpy (Np64 L)) (n 0 lat) (n 1 lon) d) /\
  same64 (get_azimuth_fast (C := clock_math (B64 L)) lat lon d) (get_azimuth_fast (C := clock_numpy (Np64 L)) (n 0 lat) (n 1 lon) d).
Proof.
  intros H1 H2 H3. assert (C : d = d /\ civil d) by (split; [reflexivity|exists u; auto]).
  split; [|split; [|split]]; apply same64_of.
  - exact (get_solar_time_rel b64_np clock_np64 lon (n 1 lon) d d eq_refl C).
  - exact (get_hour_angle_rel b64_np clock_np64 lon (n 1 lon) d d eq_refl C).
  - exact (get_altitude_fast_rel b64_np clock_np64 lat (n 0 lat) lon (n 1 lon) d d eq_refl eq_refl C).
  - exact (get_azimuth_fast_rel b64_np clock_np64 lat (n 0 lat) lon (n 1 lon) d d eq_refl eq_refl C).
Qed.

Lemma sunrise_np64 lat lon d x :
  get_sunrise_sunset_transit (N := B64 L) lat lon d = Ok x -> get_sunrise_sunset_transit (N := Np64 L) (n 0 lat) (n 1 lon) d = Ok x.
Proof.
  intros H. destruct (get_sunrise_sunset_transit_rel b64_np lat (n 0 lat) lon (n 1 lon) d Logic.I eq_refl eq_refl x H) as (? & ? & <-). assumption.
Qed.

(* the irradiance: the two back ends divide 1 by the sine *)
Lemma air_mass_np64 x : is_zero (l_sin L (radians (n := B64 L) x)) = false ->
  relres (rT _ _ b64_np) (get_air_mass_ratio (N := B64 L) x) (get_air_mass_ratio (N := Np64 L) (n 2 x)).
Proof.
  intros Z v Hv. unfold get_air_mass_ratio in *. cbn [nsin B64 Np64 npf64 bind radians vf] in *.
  destruct (math_1 ValueError (l_sin L) (Bmult mode_NE x deg_to_rad)) as [s|e] eqn:E; cbn [bind] in Hv.
  2:{ destruct e; try discriminate. now apply math_1_zde in E. }
  apply math_1_np in E. cbn [radians B64] in Z. rewrite E in *. cbn [div B64] in Hv. rewrite Z in Hv.
  eexists. split.
  - cbn [div Np64]. unfold py_or_np. cbn [is_npf vf lit Np64 orb]. reflexivity.
  - cbn [rT b64_np vf]. apply Ok_eq in Hv. symmetry. exact Hv.
Qed.
Lemma radiation_np64 d u alt : instant d u -> in_range u = true -> whole_minute_offset d ->
  is_zero (l_sin L (radians (n := B64 L) alt)) = false ->
  same64 (get_radiation_direct (C := clock_math (B64 L)) d alt) (get_radiation_direct (C := clock_numpy (Np64 L)) d (n 2 alt)).
Proof.
  intros H1 H2 H3 Z. assert (C : d = d /\ civil d) by (split; [reflexivity|exists u; auto]). apply same64_of. unfold get_radiation_direct.
  eapply relres_bind; [exact (r_yday _ _ _ clock_np64 d d C)|]. intros y y' Hy.
  eapply relres_bind; [exact (get_apparent_extraterrestrial_flux_rel b64_np y y' Hy)|]. intros f f' Hf.
  eapply relres_bind; [exact (get_optical_depth_rel b64_np y y' Hy)|]. intros o o' Ho.
  eapply relres_bind; [exact (air_mass_np64 alt Z)|]. intros m m' Hm.
  eapply relres_bind.
  - apply (r_exp _ _ b64_np). apply (r_mul _ _ b64_np); [|exact Hm]. apply (r_mul _ _ b64_np); [|exact Ho]. apply (r_neg _ _ b64_np). apply (r_lit _ _ b64_np).
  - intros e e' He. apply relres_Ok. apply (r_mul _ _ b64_np).
    + apply (r_mul _ _ b64_np); [exact Hf|exact He].
    + apply (r_of_bool _ _ b64_np). apply (r_lt _ _ b64_np); [apply (r_lit _ _ b64_np)|reflexivity].
Qed.
End P.

(* arrays *)
Section A.
Context {I : Type} (i : I).
Lemma position_arr64 (lat lon el t p : I -> f64) d :
  elt64 i (get_azimuth (N := B64 L) (lat i) (lon i) d (el i)) (get_azimuth (N := Arr64 I L) lat lon d el) /\
  elt64 i (get_altitude (N := B64 L) (lat i) (lon i) d (el i) (t i) (p i)) (get_altitude (N := Arr64 I L) lat lon d el t p).
Proof.
  split; apply elt64_of.
  - exact (get_azimuth_rel (b64_arr I i) (lat i) lat (lon i) lon d (el i) el eq_refl eq_refl eq_refl).
  - exact (get_altitude_rel (b64_arr I i) (lat i) lat (lon i) lon d (el i) el (t i) t (p i) p eq_refl eq_refl eq_refl eq_refl eq_refl).
Qed.
Lemma fast_arr64 (lat lon : I -> f64) d w : instant d (w i) -> in_range (w i) = true ->
  elt64 i (get_altitude_fast (C := clock_math (B64 L)) (lat i) (lon i) d) (get_altitude_fast (C := clock_array64 I L) lat lon w) /\
  elt64 i (get_azimuth_fast (C := clock_math (B64 L)) (lat i) (lon i) d) (get_azimuth_fast (C := clock_array64 I L) lat lon w).
Proof.
  intros H1 H2. assert (C : instant d (w i) /\ in_range (w i) = true) by auto. split; apply elt64_of.
  - exact (get_altitude_fast_rel (b64_arr I i) (clock_elt64 I i) (lat i) lat (lon i) lon d w eq_refl eq_refl C).
  - exact (get_azimuth_fast_rel (b64_arr I i) (clock_elt64 I i) (lat i) lat (lon i) lon d w eq_refl eq_refl C).
Qed.
Lemma fast_one64 (lat lon : I -> f64) d u : instant d u -> in_range u = true -> whole_minute_offset d ->
  elt64 i (get_altitude_fast (C := clock_math (B64 L)) (lat i) (lon i) d) (get_altitude_fast (C := clock_numpy (Arr64 I L)) lat lon d) /\
  elt64 i (get_azimuth_fast (C := clock_math (B64 L)) (lat i) (lon i) d) (get_azimuth_fast (C := clock_numpy (Arr64 I L)) lat lon d).
Proof.
  intros H1 H2 H3. assert (C : d = d /\ civil d) by (split; [reflexivity|exists u; auto]). split; apply elt64_of.
  - exact (get_altitude_fast_rel (b64_arr I i) (clock_one64 I i) (lat i) lat (lon i) lon d d eq_refl eq_refl C).
  - exact (get_azimuth_fast_rel (b64_arr I i) (clock_one64 I i) (lat i) lat (lon i) lon d d eq_refl eq_refl C).
Qed.
End A.
End L.

(* C57: the two back ends give the same numbers. *)
From Coq Require Import Reals Qreals Lra.
From Verif Require Import Py Num Cal TzCheck Clock RInst Rel RelInst Constants SolarTime Solar Radiation Util
  Simulate Elevation SpecTime SpecDt SpecEng Arr GenProofs SolarTimeProofs.
Local Open Scope R_scope.

Notation mp := math_numpy.

Definition civil (d : datetime) : Prop := exists u, instant d u /\ in_range u = true /\ whole_minute_offset d.

Definition clock_mn : ClockRel math_numpy (clock_math MathR) (clock_numpy NumpyR).
Proof.
  refine {| rD := fun (d : D (clock_math MathR)) (d' : D (clock_numpy NumpyR)) => d = d' /\ civil d |};
    simpl; intros d ? (<- & u & H1 & H2 & H3).
  { apply relres_refl. }
  all: destruct (date_decompositions_agree d u H1 H3 H2) as (y & h & m & E1 & E2 & E3 & E4 & E5 & E6 & _);
    rewrite ?E1, ?E2, ?E3, ?E4, ?E5, ?E6; simpl; intros a [= <-]; eexists; (split; [reflexivity|]); reflexivity.
Defined.

Lemma same_of m n : relres (rT _ _ mp) m n -> same_value m n.
Proof. intros H x Hx. destruct (H x Hx) as ([b y] & -> & E). simpl in E. subst. eauto. Qed.
Lemma same_pair_of m n : relres (relprod (rT _ _ mp) (rT _ _ mp)) m n -> same_pair m n.
Proof. intros H x y Hx. destruct (H _ Hx) as ([[b u] [c v]] & -> & E1 & E2). simpl in E1, E2. subst. eauto. Qed.

Section P.
Context (fl : nat -> bool).   (* which arguments are numpy.float64 *)
Notation n i x := (mknx (fl i) x).

Lemma backend_position lat lon d el t p :
  same_pair (get_topocentric_position (N := MathR) lat lon d el) (get_topocentric_position (N := NumpyR) (n 0 lat) (n 1 lon) d (n 2 el)) /\
  same_value (get_azimuth (N := MathR) lat lon d el) (get_azimuth (N := NumpyR) (n 0 lat) (n 1 lon) d (n 2 el)) /\
  same_value (get_altitude (N := MathR) lat lon d el t p) (get_altitude (N := NumpyR) (n 0 lat) (n 1 lon) d (n 2 el) (n 3 t) (n 4 p)) /\
  same_pair (get_position (N := MathR) lat lon d el t p) (get_position (N := NumpyR) (n 0 lat) (n 1 lon) d (n 2 el) (n 3 t) (n 4 p)).
Proof.
  repeat split.
  - apply same_pair_of. exact (get_topocentric_position_rel mp lat (n 0 lat) lon (n 1 lon) d el (n 2 el) eq_refl eq_refl eq_refl).
  - apply same_of. exact (get_azimuth_rel mp lat (n 0 lat) lon (n 1 lon) d el (n 2 el) eq_refl eq_refl eq_refl).
  - apply same_of. exact (get_altitude_rel mp lat (n 0 lat) lon (n 1 lon) d el (n 2 el) t (n 3 t) p (n 4 p) eq_refl eq_refl eq_refl eq_refl eq_refl).
  - apply same_pair_of. exact (get_position_rel mp lat (n 0 lat) lon (n 1 lon) d el (n 2 el) t (n 3 t) p (n 4 p) eq_refl eq_refl eq_refl eq_refl eq_refl).
Qed.

Lemma backend_clock lat lon d alt sc ghi u : instant d u -> in_range u = true -> whole_minute_offset d ->
  same_value (get_solar_time (C := clock_math MathR) lon d) (get_solar_time (C := clock_numpy NumpyR) (n 1 lon) d) /\
  same_value (get_hour_angle (C := clock_math MathR) d lon) (get_hour_angle (C := clock_numpy NumpyR) d (n 1 lon)) /\
  same_value (get_altitude_fast (C := clock_math MathR) lat lon d) (get_altitude_fast (C := clock_numpy NumpyR) (n 0 lat) (n 1 lon) d) /\
  same_value (get_azimuth_fast (C := clock_math MathR) lat lon d) (get_azimuth_fast (C := clock_numpy NumpyR) (n 0 lat) (n 1 lon) d) /\
  same_value (get_radiation_direct (C := clock_math MathR) d alt) (get_radiation_direct (C := clock_numpy NumpyR) d (n 2 alt)) /\
  same_value (extraterrestrial_irrad (C := clock_math MathR) (fun d => d) lat lon d sc)
    (extraterrestrial_irrad (C := clock_numpy NumpyR) (fun d => d) (n 0 lat) (n 1 lon) d (n 2 sc)) /\
  same_value (clear_index (C := clock_math MathR) (fun d => d) ghi lat lon d)
    (clear_index (C := clock_numpy NumpyR) (fun d => d) (n 2 ghi) (n 0 lat) (n 1 lon) d).
Proof.
  intros H1 H2 H3. assert (C : d = d /\ civil d) by (split; [reflexivity|exists u; auto]).
  assert (S : r_scalar _ _ mp) by exact Logic.I.
  repeat split; apply same_of.
  - exact (get_solar_time_rel mp clock_mn lon (n 1 lon) d d eq_refl C).
  - exact (get_hour_angle_rel mp clock_mn lon (n 1 lon) d d eq_refl C).
  - exact (get_altitude_fast_rel mp clock_mn lat (n 0 lat) lon (n 1 lon) d d eq_refl eq_refl C).
  - exact (get_azimuth_fast_rel mp clock_mn lat (n 0 lat) lon (n 1 lon) d d eq_refl eq_refl C).
  - exact (get_radiation_direct_rel mp clock_mn alt (n 2 alt) d d Logic.I eq_refl C).
  - exact (extraterrestrial_irrad_rel mp clock_mn (fun d => d) (fun d => d) lat (n 0 lat) lon (n 1 lon) d sc (n 2 sc) S C eq_refl eq_refl eq_refl).
  - exact (clear_index_rel mp clock_mn (fun d => d) (fun d => d) ghi (n 2 ghi) lat (n 0 lat) lon (n 1 lon) d S C eq_refl eq_refl eq_refl).
Qed.

Lemma backend_sunrise lat lon d x :
  get_sunrise_sunset_transit (N := MathR) lat lon d = Ok x -> get_sunrise_sunset_transit (N := NumpyR) (n 0 lat) (n 1 lon) d = Ok x.
Proof.
  intros H. destruct (get_sunrise_sunset_transit_rel mp lat (n 0 lat) lon (n 1 lon) d Logic.I eq_refl eq_refl x H) as (? & ? & <-). assumption.
Qed.
End P.

(* ... and the arrays of the full position functions are those values *)
Lemma arrays_math {I} (lat lon el t p : I -> Rx) d i :
  (forall x, get_azimuth (N := MathR) (lat i) (lon i) d (el i) = Ok x ->
     exists v, get_azimuth (N := ArrR I) lat lon d el = Ok v /\ v i = x) /\
  (forall x, get_altitude (N := MathR) (lat i) (lon i) d (el i) (t i) (p i) = Ok x ->
     exists v, get_altitude (N := ArrR I) lat lon d el t p = Ok v /\ v i = x).
Proof.
  split; intros x Hx.
  - destruct (get_azimuth_rel mp _ (elt lat i) _ (elt lon i) d _ (elt el i) eq_refl eq_refl eq_refl x Hx) as (y & Hy & E).
    destruct (get_azimuth_rel (numpy_array I i) (elt lat i) lat (elt lon i) lon d (elt el i) el eq_refl eq_refl eq_refl y Hy) as (v & Hv & E').
    exists v. simpl in E, E'. split; congruence.
  - destruct (get_altitude_rel mp _ (elt lat i) _ (elt lon i) d _ (elt el i) _ (elt t i) _ (elt p i) eq_refl eq_refl eq_refl eq_refl eq_refl x Hx) as (y & Hy & E).
    destruct (get_altitude_rel (numpy_array I i) (elt lat i) lat (elt lon i) lon d (elt el i) el (elt t i) t (elt p i) p eq_refl eq_refl eq_refl eq_refl eq_refl y Hy) as (v & Hv & E').
    exists v. simpl in E, E'. split; congruence.
Qed.

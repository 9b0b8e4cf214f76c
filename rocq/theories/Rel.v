(* Relating two arithmetic instances: a relation on numbers preserved by every operation is
   preserved by every function of the library.  [relres R r r'] reads: if the first
   computation returns a value, so does the second, and the values are related.  Nothing is
   claimed when the first one raises (the two back ends raise in different situations). *)
From Verif Require Import Py Num Cal TzCheck Clock Tables Constants SolarTime Solar Radiation
  Elevation Util Simulate Rest.

Definition relres {A A'} (R : A -> A' -> Prop) (r : res A) (r' : res A') : Prop :=
  forall a, r = Ok a -> exists a', r' = Ok a' /\ R a a'.

Definition relprod {A A' B B'} (R : A -> A' -> Prop) (S : B -> B' -> Prop) (p : A * B) (p' : A' * B') : Prop :=
  R (fst p) (fst p') /\ S (snd p) (snd p').

(* radiation.py 25-29: 1 / x with ZeroDivisionError turned into float("inf") *)
Definition div_or_inf {N : Num} (a b : T N) : res (T N) :=
  match div a b with Err ZeroDivisionError => Ok inf | r => r end.

Record NumRel (N M : Num) := {
  rT : T N -> T M -> Prop;
  rB : B N -> B M -> Prop;
  r_lit q : rT (lit q) (lit q);
  r_inf : rT inf inf;
  r_add a a' b b' : rT a a' -> rT b b' -> rT (add a b) (add a' b');
  r_sub a a' b b' : rT a a' -> rT b b' -> rT (sub a b) (sub a' b');
  r_mul a a' b b' : rT a a' -> rT b b' -> rT (mul a b) (mul a' b');
  r_neg a a' : rT a a' -> rT (neg a) (neg a');
  r_div a a' b b' : rT a a' -> rT b b' -> relres rT (div a b) (div a' b');
  r_recip : Prop;    (* 1 / x agrees, with ZeroDivisionError turned into inf *)
  r_div1 b b' : r_recip -> rT b b' -> relres rT (div_or_inf (lit 1) b) (div_or_inf (lit 1) b');
  r_sin_catch a : nsin (n := N) a <> Err ZeroDivisionError;
  r_fmod a a' b b' : rT a a' -> rT b b' -> relres rT (fmod a b) (fmod a' b');
  r_powi a a' n : rT a a' -> relres rT (powi a n) (powi a' n);
  r_powf a a' b b' : rT a a' -> rT b b' -> relres rT (powf a b) (powf a' b');
  r_sin a a' : rT a a' -> relres rT (nsin a) (nsin a');
  r_cos a a' : rT a a' -> relres rT (ncos a) (ncos a');
  r_tan a a' : rT a a' -> relres rT (ntan a) (ntan a');
  r_asin a a' : rT a a' -> relres rT (nasin a) (nasin a');
  r_acos a a' : rT a a' -> relres rT (nacos a) (nacos a');
  r_atan a a' : rT a a' -> relres rT (natan a) (natan a');
  r_atan2 a a' b b' : rT a a' -> rT b b' -> relres rT (natan2 a b) (natan2 a' b');
  r_exp a a' : rT a a' -> relres rT (nexp a) (nexp a');
  r_radians a a' : rT a a' -> rT (radians a) (radians a');
  r_degrees a a' : rT a a' -> rT (degrees a) (degrees a');
  r_pi : rT npi npi;
  r_e : rT ne ne;
  r_lt a a' b b' : rT a a' -> rT b b' -> rB (lt a b) (lt a' b');
  r_le a a' b b' : rT a a' -> rT b b' -> rB (le a b) (le a' b');
  r_of_bool b b' : rB b b' -> rT (of_bool b) (of_bool b');
  r_scalar : Prop;   (* single numbers (as opposed to arrays) on both sides *)
  r_truth b b' : r_scalar -> rB b b' -> relres eq (truth b) (truth b');
  r_where c c' x x' y y' : rB c c' -> rT x x' -> rT y y' -> rT (where_ c x y) (where_ c' x' y');
  r_round a a' : r_scalar -> rT a a' -> relres eq (round_int a) (round_int a');
  r_hours a a' : r_scalar -> rT a a' -> relres eq (timedelta_hours a) (timedelta_hours a')
}.

Record ClockRel {N M : Num} (R : NumRel N M) (C : Clock N) (C' : Clock M) := {
  rD : D C -> D C' -> Prop;
  r_aware d d' : rD d d' -> relres eq (aware_check C d) (aware_check C' d');
  r_yday d d' : rD d d' -> relres (rT _ _ R) (tm_yday C d) (tm_yday C' d');
  r_hour d d' : rD d d' -> relres (rT _ _ R) (tm_hour C d) (tm_hour C' d');
  r_min d d' : rD d d' -> relres (rT _ _ R) (tm_min C d) (tm_min C' d')
}.

Lemma relres_Ok {A A'} (R : A -> A' -> Prop) a a' : R a a' -> relres R (Ok a) (Ok a').
Proof. intros H x [= <-]. eauto. Qed.

Lemma relres_Err {A A'} (R : A -> A' -> Prop) e r : relres R (Err e) r.
Proof. intros x [=]. Qed.

Lemma relres_refl {A} (r : res A) : relres eq r r.
Proof. intros a ->. eauto. Qed.

Lemma relres_bind {A A' B B'} (R : A -> A' -> Prop) (S : B -> B' -> Prop) r r' f f' :
  relres R r r' -> (forall a a', R a a' -> relres S (f a) (f' a')) ->
  relres S (bind r f) (bind r' f').
Proof.
  intros H1 H2 b Hb. apply bind_eq_Ok in Hb as (a & -> & Hf).
  destruct (H1 a eq_refl) as (a' & -> & Ha). simpl. exact (H2 a a' Ha b Hf).
Qed.

Lemma relres_bind_eq {A B B'} (S : B -> B' -> Prop) (r : res A) f f' :
  (forall a, relres S (f a) (f' a)) -> relres S (bind r f) (bind r f').
Proof. intros H. eapply relres_bind with (R := eq). apply relres_refl. intros a ? <-. apply H. Qed.

Lemma relres_rmap {A A' B B'} (R : A -> A' -> Prop) (S : B -> B' -> Prop) r r' f f' :
  relres R r r' -> (forall a a', R a a' -> S (f a) (f' a')) ->
  relres S (rmap f r) (rmap f' r').
Proof. intros H1 H2. eapply relres_bind; eauto. intros. apply relres_Ok; auto. Qed.

Section Rel.
Context {N M : Num} (R : NumRel N M).
Notation r := (rT N M R).
Notation rr := (relres (rT N M R)).

Create HintDb rel discriminated.
Hint Resolve r_lit r_inf r_add r_sub r_mul r_neg r_div r_fmod r_powi r_powf r_sin r_cos r_tan
  r_asin r_acos r_atan r_atan2 r_exp r_radians r_degrees r_pi r_e r_lt r_le r_of_bool r_truth
  r_where r_round r_hours : rel.

Ltac rel_pure := solve [ eauto 25 with rel nocore ].
Ltac rel_step :=
  match goal with
  | |- relres _ (Ok _) (Ok _) => apply relres_Ok
  | |- relres _ (Err _) _ => apply relres_Err
  | |- relres _ (bind (aware ?d) _) (bind (aware ?d) _) => apply relres_bind_eq; intros ?
  | |- relres _ (bind _ _) (bind _ _) => eapply relres_bind; [ solve [eauto 25 with rel nocore] | intros ? ? ? ]
  | |- relres _ (let '(_, _) := ?p in _) (let '(_, _) := ?p' in _) => destruct p, p'
  | |- relres _ _ _ => solve [ eauto 25 with rel nocore ]
  | |- relprod _ _ _ _ => split; cbn [fst snd]
  | |- _ /\ _ => split
  | |- rT _ _ _ _ _ => solve [ eauto 25 with rel nocore ]
  | H : relprod _ _ _ _ |- _ => destruct H; cbn [fst snd] in *
  end.
Ltac rel := intros; cbv zeta; repeat rel_step.

Lemma ofZ_rel z : r (ofZ z) (ofZ z).
Proof. apply r_lit. Qed.
Hint Resolve ofZ_rel : rel.

(* ---- constants.py, solartime.py *)
Lemma cubic_rel p x x' : r x x' -> rr (cubic p x) (cubic p x').
Proof. destruct p as [[[a b] c] d]. unfold cubic. rel. Qed.

Lemma timestamp_rel d : rr (timestamp d) (timestamp d).
Proof. unfold timestamp. apply relres_bind_eq. rel. Qed.

Lemma get_delta_t_rel d : rr (get_delta_t d) (get_delta_t d).
Proof. unfold get_delta_t. eapply relres_rmap. apply relres_refl. intros ? ? <-. apply r_lit. Qed.
Hint Resolve timestamp_rel get_delta_t_rel : rel.

Lemma get_julian_solar_day_rel d : rr (get_julian_solar_day d) (get_julian_solar_day d).
Proof.
  unfold get_julian_solar_day, tt_offset, seconds_per_day, gregorian_day_offset, julian_day_offset.
  rel. apply relres_bind_eq. rel.
Qed.
Lemma get_julian_ephemeris_day_rel d : rr (get_julian_ephemeris_day d) (get_julian_ephemeris_day d).
Proof.
  unfold get_julian_ephemeris_day, tt_offset, seconds_per_day, gregorian_day_offset, julian_day_offset.
  rel. apply relres_bind_eq. rel.
Qed.
Lemma get_julian_century_rel x x' : r x x' -> rr (get_julian_century x) (get_julian_century x').
Proof. unfold get_julian_century. rel. Qed.
Lemma get_julian_ephemeris_century_rel x x' : r x x' -> rr (get_julian_ephemeris_century x) (get_julian_ephemeris_century x').
Proof. unfold get_julian_ephemeris_century. rel. Qed.
Lemma get_julian_ephemeris_millennium_rel x x' : r x x' -> rr (get_julian_ephemeris_millennium x) (get_julian_ephemeris_millennium x').
Proof. unfold get_julian_ephemeris_millennium. rel. Qed.
Hint Resolve get_julian_solar_day_rel get_julian_ephemeris_day_rel get_julian_century_rel
  get_julian_ephemeris_century_rel get_julian_ephemeris_millennium_rel cubic_rel : rel.

(* ---- solar.py *)
Lemma equation_of_time_rel x x' : r x x' -> rr (equation_of_time x) (equation_of_time x').
Proof. unfold equation_of_time. rel. Qed.
Lemma get_aberration_correction_rel x x' : r x x' -> rr (get_aberration_correction x) (get_aberration_correction x').
Proof. unfold get_aberration_correction. rel. Qed.

Lemma coeff_line_rel line x x' : r x x' -> rr (coeff_line x line) (coeff_line x' line).
Proof.
  intros Hx. unfold coeff_line.
  assert (H : rr (Ok (lit 0.0)) (Ok (lit 0.0))) by rel. revert H.
  generalize (Ok (lit (n := N) 0.0)) (Ok (lit (n := M) 0.0)).
  induction line as [|[[l0 l1] l2] line IH]; simpl; intros i i' H; [exact H|].
  apply IH. eapply relres_bind; [exact H|]. rel.
Qed.
Lemma get_coeff_rel cs x x' : r x x' -> rr (get_coeff x cs) (get_coeff x' cs).
Proof.
  intros Hx. unfold get_coeff. eapply relres_bind with (R := relprod r r).
  - assert (H : relres (relprod r r) (Ok (lit 0.0, lit 1.0)) (Ok (lit 0.0, lit 1.0))) by rel. revert H.
    generalize (Ok (lit (n := N) 0.0, lit (n := N) 1.0)) (Ok (lit (n := M) 0.0, lit (n := M) 1.0)).
    induction cs as [|line cs IH]; simpl; intros i i' H; [exact H|].
    apply IH. eapply relres_bind; [exact H|]. intros [? ?] [? ?] [? ?]; cbn [fst snd] in *.
    eapply relres_bind; [apply coeff_line_rel; exact Hx|]. rel.
  - intros [? ?] [? ?] [? ?]; cbn [fst snd] in *. apply relres_Ok. assumption.
Qed.
Hint Resolve equation_of_time_rel get_aberration_correction_rel get_coeff_rel : rel.

Lemma get_declination_rel x x' : r x x' -> rr (get_declination x) (get_declination x').
Proof. unfold get_declination, earth_axis_inclination. rel. Qed.
Lemma get_equatorial_horizontal_parallax_rel x x' : r x x' ->
  rr (get_equatorial_horizontal_parallax x) (get_equatorial_horizontal_parallax x').
Proof. unfold get_equatorial_horizontal_parallax. rel. Qed.
Lemma get_flattened_latitude_rel x x' : r x x' -> rr (get_flattened_latitude x) (get_flattened_latitude x').
Proof. unfold get_flattened_latitude. rel. Qed.
Lemma get_heliocentric_latitude_rel x x' : r x x' -> rr (get_heliocentric_latitude x) (get_heliocentric_latitude x').
Proof. unfold get_heliocentric_latitude. rel. Qed.
Lemma get_heliocentric_longitude_rel x x' : r x x' -> rr (get_heliocentric_longitude x) (get_heliocentric_longitude x').
Proof. unfold get_heliocentric_longitude. rel. Qed.
Hint Resolve get_declination_rel get_equatorial_horizontal_parallax_rel get_flattened_latitude_rel
  get_heliocentric_latitude_rel get_heliocentric_longitude_rel : rel.
Lemma get_geocentric_latitude_rel x x' : r x x' -> rr (get_geocentric_latitude x) (get_geocentric_latitude x').
Proof. unfold get_geocentric_latitude. rel. Qed.
Lemma get_geocentric_longitude_rel x x' : r x x' -> rr (get_geocentric_longitude x) (get_geocentric_longitude x').
Proof. unfold get_geocentric_longitude. rel. Qed.
Lemma get_geocentric_sun_declination_rel x x' y y' z z' : r x x' -> r y y' -> r z z' ->
  rr (get_geocentric_sun_declination x y z) (get_geocentric_sun_declination x' y' z').
Proof. unfold get_geocentric_sun_declination. rel. Qed.
Lemma get_geocentric_sun_right_ascension_rel x x' y y' z z' : r x x' -> r y y' -> r z z' ->
  rr (get_geocentric_sun_right_ascension x y z) (get_geocentric_sun_right_ascension x' y' z').
Proof. unfold get_geocentric_sun_right_ascension. rel. Qed.
Lemma get_incidence_angle_rel x x' y y' z z' w w' : r x x' -> r y y' -> r z z' -> r w w' ->
  rr (get_incidence_angle x y z w) (get_incidence_angle x' y' z' w').
Proof. unfold get_incidence_angle. rel. Qed.
Lemma get_local_hour_angle_rel x x' y y' z z' : r x x' -> r y y' -> r z z' ->
  rr (get_local_hour_angle x y z) (get_local_hour_angle x' y' z').
Proof. unfold get_local_hour_angle. rel. Qed.
Lemma get_mean_sidereal_time_rel x x' : r x x' -> rr (get_mean_sidereal_time x) (get_mean_sidereal_time x').
Proof. unfold get_mean_sidereal_time. rel. Qed.
Hint Resolve get_geocentric_latitude_rel get_geocentric_longitude_rel get_geocentric_sun_declination_rel
  get_geocentric_sun_right_ascension_rel get_incidence_angle_rel get_local_hour_angle_rel get_mean_sidereal_time_rel : rel.

Definition rnut (n : nutation (T N)) (n' : nutation (T M)) : Prop :=
  r (n_longitude n) (n_longitude n') /\ r (n_obliquity n) (n_obliquity n').

Lemma nutation_args_rel p x x' : r x x' -> relres (Forall2 r) (nutation_args p x) (nutation_args p x').
Proof.
  intros Hx. unfold nutation_args.
  match goal with |- context [fold_right _ _ ?l0] => generalize l0 end. intros l. induction l as [|k l IH]; simpl.
  - apply relres_Ok. constructor.
  - apply relres_bind_eq; intros f. eapply relres_bind; [apply cubic_rel; exact Hx|]. intros v v' Hv.
    eapply relres_bind; [exact IH|]. intros. apply relres_Ok. constructor; assumption.
Qed.

Lemma sigmaxy_rel x x' y : Forall2 r x x' -> r (sigmaxy x y) (sigmaxy x' y).
Proof.
  intros H. unfold sigmaxy. destruct y as [[[[y0 y1] y2] y3] y4].
  assert (Hi : r (lit 0.0) (lit 0.0)) by rel. revert Hi.
  generalize (lit (n := N) 0.0) (lit (n := M) 0.0). generalize [y0; y1; y2; y3; y4].
  clear y0 y1 y2 y3 y4.
  induction H as [|a a' x x' Ha H IH]; intros l i i' Hi; destruct l; simpl; try assumption.
  apply IH. rel.
Qed.
Hint Resolve sigmaxy_rel : rel.

Lemma nutation_terms_rel x x' j j' : Forall2 r x x' -> r j j' ->
  relres (Forall2 (relprod r r)) (nutation_terms x j) (nutation_terms x' j').
Proof.
  intros Hx Hj. unfold nutation_terms.
  induction (combine nutation_coefficients aberration_sin_terms) as [|row l IH]; simpl.
  - apply relres_Ok. constructor.
  - eapply relres_bind with (R := relprod r r).
    + unfold nutation_term. destruct row as [[[[a0 a1] a2] a3] yi]. rel.
    + intros. eapply relres_bind; [exact IH|]. intros. apply relres_Ok. constructor; assumption.
Qed.

Lemma py_sum_rel l l' : Forall2 r l l' -> r (py_sum l) (py_sum l').
Proof.
  intros H. unfold py_sum.
  assert (Hi : r (lit 0) (lit 0)) by rel. revert Hi.
  generalize (lit (n := N) 0) (lit (n := M) 0).
  induction H; simpl; intros i i' Hi; [assumption|]. apply IHForall2. rel.
Qed.

Lemma Forall2_fst l l' : Forall2 (relprod r r) l l' -> Forall2 r (map fst l) (map fst l').
Proof. induction 1 as [|? ? ? ? []]; constructor; assumption. Qed.
Lemma Forall2_snd l l' : Forall2 (relprod r r) l l' -> Forall2 r (map snd l) (map snd l').
Proof. induction 1 as [|? ? ? ? []]; constructor; assumption. Qed.
Hint Resolve py_sum_rel Forall2_fst Forall2_snd : rel.

Lemma get_nutation_rel x x' : r x x' -> relres rnut (get_nutation x) (get_nutation x').
Proof.
  intros Hx. unfold get_nutation, get_nutation_st. simpl. unfold get_nutation_from.
  eapply relres_bind; [apply nutation_args_rel; exact Hx|]. intros a a' Ha.
  eapply relres_bind; [apply nutation_terms_rel; eassumption|]. intros t t' Ht.
  rel. split; assumption.
Qed.
Hint Resolve get_nutation_rel : rel.

Lemma get_parallax_sun_right_ascension_rel a a' b b' c c' d d' : r a a' -> r b b' -> r c c' -> r d d' ->
  rr (get_parallax_sun_right_ascension a b c d) (get_parallax_sun_right_ascension a' b' c' d').
Proof. unfold get_parallax_sun_right_ascension. rel. Qed.
Lemma get_projected_radial_distance_rel a a' b b' : r a a' -> r b b' ->
  rr (get_projected_radial_distance a b) (get_projected_radial_distance a' b').
Proof. unfold get_projected_radial_distance, earth_radius. rel. Qed.
Lemma get_projected_axial_distance_rel a a' b b' : r a a' -> r b b' ->
  rr (get_projected_axial_distance a b) (get_projected_axial_distance a' b').
Proof. unfold get_projected_axial_distance, earth_radius. rel. Qed.
Lemma get_sun_earth_distance_rel x x' : r x x' -> rr (get_sun_earth_distance x) (get_sun_earth_distance x').
Proof. unfold get_sun_earth_distance. rel. Qed.
Lemma get_refraction_correction_rel a a' b b' c c' : r a a' -> r b b' -> r c c' ->
  rr (get_refraction_correction a b c) (get_refraction_correction a' b' c').
Proof. unfold get_refraction_correction. rel. Qed.
Lemma get_true_ecliptic_obliquity_rel a a' n n' : r a a' -> rnut n n' ->
  rr (get_true_ecliptic_obliquity a n) (get_true_ecliptic_obliquity a' n').
Proof. intros Ha [Hl Ho]. unfold get_true_ecliptic_obliquity. rel. Qed.
Hint Resolve get_parallax_sun_right_ascension_rel get_projected_radial_distance_rel
  get_projected_axial_distance_rel get_sun_earth_distance_rel get_refraction_correction_rel
  get_true_ecliptic_obliquity_rel : rel.
Lemma get_apparent_sidereal_time_rel a a' b b' n n' : r a a' -> r b b' -> rnut n n' ->
  rr (get_apparent_sidereal_time a b n) (get_apparent_sidereal_time a' b' n').
Proof. intros Ha Hb Hn. pose proof Hn as [Hl Ho]. unfold get_apparent_sidereal_time. rel. Qed.
Lemma get_apparent_sun_longitude_rel a a' b b' n n' : r a a' -> r b b' -> rnut n n' ->
  r (get_apparent_sun_longitude a n b) (get_apparent_sun_longitude a' n' b').
Proof. intros Ha Hb [Hl Ho]. unfold get_apparent_sun_longitude. rel. Qed.
Lemma get_topocentric_azimuth_angle_rel a a' b b' c c' : r a a' -> r b b' -> r c c' ->
  rr (get_topocentric_azimuth_angle a b c) (get_topocentric_azimuth_angle a' b' c').
Proof. unfold get_topocentric_azimuth_angle. rel. Qed.
Lemma get_topocentric_elevation_angle_rel a a' b b' c c' : r a a' -> r b b' -> r c c' ->
  rr (get_topocentric_elevation_angle a b c) (get_topocentric_elevation_angle a' b' c').
Proof. unfold get_topocentric_elevation_angle. rel. Qed.
Lemma get_topocentric_local_hour_angle_rel a a' b b' : r a a' -> r b b' ->
  r (get_topocentric_local_hour_angle a b) (get_topocentric_local_hour_angle a' b').
Proof. unfold get_topocentric_local_hour_angle. rel. Qed.
Lemma get_topocentric_sun_declination_rel a a' b b' c c' d d' e e' : r a a' -> r b b' -> r c c' -> r d d' -> r e e' ->
  rr (get_topocentric_sun_declination a b c d e) (get_topocentric_sun_declination a' b' c' d' e').
Proof. unfold get_topocentric_sun_declination. rel. Qed.
Hint Resolve get_apparent_sidereal_time_rel get_apparent_sun_longitude_rel get_topocentric_azimuth_angle_rel
  get_topocentric_elevation_angle_rel get_topocentric_local_hour_angle_rel get_topocentric_sun_declination_rel : rel.
Lemma get_topocentric_sun_right_ascension_rel a a' b b' c c' d d' e e' f f' :
  r a a' -> r b b' -> r c c' -> r d d' -> r e e' -> r f f' ->
  rr (get_topocentric_sun_right_ascension a b c d e f) (get_topocentric_sun_right_ascension a' b' c' d' e' f').
Proof. unfold get_topocentric_sun_right_ascension. rel. Qed.
Lemma get_topocentric_zenith_angle_rel a a' b b' c c' d d' e e' :
  r a a' -> r b b' -> r c c' -> r d d' -> r e e' ->
  rr (get_topocentric_zenith_angle a b c d e) (get_topocentric_zenith_angle a' b' c' d' e').
Proof. unfold get_topocentric_zenith_angle. rel. Qed.

Lemma topocentric_position_at_rel a a' b b' c c' d d' e e' f f' g g' :
  r a a' -> r b b' -> r c c' -> r d d' -> r e e' -> r f f' -> r g g' ->
  relres (relprod r r) (topocentric_position_at a b c d e f g) (topocentric_position_at a' b' c' d' e' f' g').
Proof. unfold topocentric_position_at. rel. Qed.
Hint Resolve topocentric_position_at_rel : rel.
Lemma get_topocentric_position_rel a a' b b' w c c' : r a a' -> r b b' -> r c c' ->
  relres (relprod r r) (get_topocentric_position a b w c) (get_topocentric_position a' b' w c').
Proof. unfold get_topocentric_position. rel. Qed.
Hint Resolve get_topocentric_position_rel : rel.
Lemma get_position_rel a a' b b' w c c' d d' e e' : r a a' -> r b b' -> r c c' -> r d d' -> r e e' ->
  relres (relprod r r) (get_position a b w c d e) (get_position a' b' w c' d' e').
Proof. unfold get_position. rel. Qed.
Lemma get_altitude_rel a a' b b' w c c' d d' e e' : r a a' -> r b b' -> r c c' -> r d d' -> r e e' ->
  rr (get_altitude a b w c d e) (get_altitude a' b' w c' d' e').
Proof. unfold get_altitude. rel. Qed.
Lemma get_azimuth_rel a a' b b' w c c' : r a a' -> r b b' -> r c c' ->
  rr (get_azimuth a b w c) (get_azimuth a' b' w c').
Proof. unfold get_azimuth. rel. Qed.
Hint Resolve get_position_rel get_altitude_rel get_azimuth_rel : rel.

(* ---- functions of a clock *)
Section Clk.
Context {C : Clock N} {C' : Clock M} (RC : ClockRel R C C').
Notation rd := (rD R C C' RC).
Hint Resolve r_aware r_yday r_hour r_min : rel.

Lemma get_solar_time_rel a a' d d' : r a a' -> rd d d' -> rr (get_solar_time a d) (get_solar_time a' d').
Proof. unfold get_solar_time. rel. Qed.
Hint Resolve get_solar_time_rel : rel.
Lemma get_hour_angle_rel a a' d d' : r a a' -> rd d d' -> rr (get_hour_angle d a) (get_hour_angle d' a').
Proof. unfold get_hour_angle. rel. Qed.
Hint Resolve get_hour_angle_rel : rel.
Lemma get_altitude_fast_rel a a' b b' d d' : r a a' -> r b b' -> rd d d' ->
  rr (get_altitude_fast a b d) (get_altitude_fast a' b' d').
Proof. unfold get_altitude_fast. rel. Qed.
Hint Resolve get_altitude_fast_rel : rel.
Lemma get_azimuth_fast_rel a a' b b' d d' : r a a' -> r b b' -> rd d d' ->
  rr (get_azimuth_fast a b d) (get_azimuth_fast a' b' d').
Proof. unfold get_azimuth_fast. rel. Qed.

Lemma get_apparent_extraterrestrial_flux_rel x x' : r x x' ->
  rr (get_apparent_extraterrestrial_flux x) (get_apparent_extraterrestrial_flux x').
Proof. unfold get_apparent_extraterrestrial_flux. rel. Qed.
Lemma get_optical_depth_rel x x' : r x x' -> rr (get_optical_depth x) (get_optical_depth x').
Proof. unfold get_optical_depth. rel. Qed.

Lemma get_air_mass_ratio_rel x x' : r_recip N M R -> r x x' -> rr (get_air_mass_ratio x) (get_air_mass_ratio x').
Proof.
  intros Hq Hx. unfold get_air_mass_ratio.
  assert (Hs : rr (nsin (radians x)) (nsin (radians x'))) by rel.
  intros v Hv. pose proof (r_sin_catch _ _ R (radians x)) as Hz.
  destruct (nsin (radians x)) as [s|e]; simpl in Hv.
  2:{ destruct e; try discriminate. contradiction. }
  destruct (Hs s eq_refl) as (s' & -> & Hss). simpl.
  exact (r_div1 _ _ R s s' Hq Hss v Hv).
Qed.
Hint Resolve get_apparent_extraterrestrial_flux_rel get_optical_depth_rel get_air_mass_ratio_rel : rel.

Lemma get_radiation_direct_rel a a' d d' : r_recip N M R -> r a a' -> rd d d' ->
  rr (get_radiation_direct d a) (get_radiation_direct d' a').
Proof. unfold get_radiation_direct. rel. Qed.
Hint Resolve get_radiation_direct_rel : rel.

(* ---- util.py, simulate.py, functions of a single datetime and a clock *)
Context (toD : datetime -> D C) (toD' : datetime -> D C').

Lemma utc_yday_rel d : rr (utc_yday d) (utc_yday d).
Proof. unfold utc_yday. apply relres_bind_eq. rel. Qed.
Hint Resolve utc_yday_rel : rel.

Lemma extraterrestrial_irrad_rel a a' b b' w c c' : r_scalar N M R -> rd (toD w) (toD' w) -> r a a' -> r b b' -> r c c' ->
  rr (extraterrestrial_irrad toD a b w c) (extraterrestrial_irrad toD' a' b' w c').
Proof.
  unfold extraterrestrial_irrad. rel.
  match goal with H : ?u = ?u' |- relres _ (if ?u then _ else _) (if ?u' then _ else _) => subst u; destruct u' end; rel.
Qed.
Hint Resolve extraterrestrial_irrad_rel : rel.
Lemma clear_index_rel g g' a a' b b' w : r_scalar N M R -> rd (toD w) (toD' w) -> r g g' -> r a a' -> r b b' ->
  rr (clear_index toD g a b w) (clear_index toD' g' a' b' w).
Proof. unfold clear_index, SC_default. rel. Qed.

Definition rsim (p : datetime * T N * T N * T N * T N) (p' : datetime * T M * T M * T M * T M) : Prop :=
  let '(t, a, b, c, d) := p in let '(t', a', b', c', d') := p' in
  t = t' /\ r a a' /\ r b b' /\ r c c' /\ r d d'.

Lemma py_index_rel l l' i : Forall2 r l l' -> rr (py_index l i) (py_index l' i).
Proof.
  intros H. unfold py_index.
  assert (Hl : Datatypes.length l = Datatypes.length l') by (clear i; induction H; simpl; congruence).
  rewrite Hl.
    destruct (_ <? _)%Z; [apply relres_Err|].
  generalize (Z.to_nat (if i <? 0 then i + Z.of_nat (Datatypes.length l') else i))%Z. clear Hl.
  induction H as [|a a' l l' Ha H IH]; intros [|n]; simpl; try (intros ? [=]; fail).
  - rel.
  - apply IH.
Qed.

Lemma simulate_one_rel a a' b b' h h' c c' d d' e e' t : r_recip N M R -> r_scalar N M R -> rd (toD t) (toD' t) ->
  r a a' -> r b b' -> Forall2 r h h' -> r c c' -> r d d' -> r e e' ->
  relres rsim (simulate_one toD a b h c d e t) (simulate_one toD' a' b' h' c' d' e' t).
Proof.
  intros. unfold simulate_one.
  eapply relres_bind; [rel|]. intros alt alt' Halt.
  eapply relres_bind; [rel|]. intros azi azi' Hazi.
  eapply relres_bind; [rel|]. intros i i' <-.
  eapply relres_bind; [apply py_index_rel; eassumption|]. intros sh sh' Hsh.
  eapply relres_bind; [rel|]. intros s s' Hs.
  eapply relres_bind; [rel|]. intros ro ro' <-.
  eapply relres_bind; [rel|]. intros up up' <-.
  eapply relres_bind with (R := r). { destruct up; rel. }
  intros. apply relres_Ok. red. auto.
Qed.

End Clk.

(* ---- util.py *)
Hint Resolve utc_yday_rel : rel.
Lemma sunrise_declination_rel x x' : r x x' -> rr (sunrise_declination x) (sunrise_declination x').
Proof. unfold sunrise_declination. rel. Qed.
Lemma sunrise_time_adjustment_rel x x' : r x x' -> rr (sunrise_time_adjustment x) (sunrise_time_adjustment x').
Proof. unfold sunrise_time_adjustment. rel. Qed.
Lemma sunrise_half_day_rel x x' y y' : r x x' -> r y y' -> rr (sunrise_half_day x y) (sunrise_half_day x' y').
Proof. unfold sunrise_half_day. rel. Qed.
Hint Resolve sunrise_declination_rel sunrise_time_adjustment_rel sunrise_half_day_rel : rel.
Lemma sunrise_hours_rel x x' y y' o d : r x x' -> r y y' ->
  relres (relprod r r) (sunrise_hours x y o d) (sunrise_hours x' y' o d).
Proof. unfold sunrise_hours. rel. Qed.
Hint Resolve sunrise_hours_rel : rel.

Lemma get_sunrise_sunset_transit_rel x x' y y' w : r_scalar N M R -> r x x' -> r y y' ->
  relres eq (get_sunrise_sunset_transit x y w) (get_sunrise_sunset_transit x' y' w).
Proof.
  intros. unfold get_sunrise_sunset_transit. rel. apply relres_bind_eq; intros off.
  eapply relres_bind; [rel|]. intros [t h] [t' h'] [Ht Hh]; cbn [fst snd] in *.
  eapply relres_bind; [rel|]. intros ? ? <-. apply relres_bind_eq; intros.
  eapply relres_bind; [rel|]. intros ? ? <-. apply relres_bind_eq; intros.
  eapply relres_bind; [rel|]. intros ? ? <-. apply relres_bind_eq; intros.
  apply relres_refl.
Qed.

Lemma mean_earth_sun_distance_rel w : rr (mean_earth_sun_distance w) (mean_earth_sun_distance w).
Proof. unfold mean_earth_sun_distance. rel. Qed.
Lemma declination_degree_rel w a a' : r a a' -> rr (declination_degree w a) (declination_degree w a').
Proof. unfold declination_degree, earth_axis_inclination. rel. Qed.
Hint Resolve mean_earth_sun_distance_rel declination_degree_rel : rel.
Lemma solarelevation_function_clear_rel a a' b b' w c c' d d' e e' :
  r a a' -> r b b' -> r c c' -> r d d' -> r e e' ->
  rr (solarelevation_function_clear a b w c d e) (solarelevation_function_clear a' b' w c' d' e').
Proof. unfold solarelevation_function_clear. rel. Qed.
Lemma solarelevation_function_overcast_rel a a' b b' w c c' d d' e e' :
  r a a' -> r b b' -> r c c' -> r d d' -> r e e' ->
  rr (solarelevation_function_overcast a b w c d e) (solarelevation_function_overcast a' b' w c' d' e').
Proof. unfold solarelevation_function_overcast. rel. Qed.
Lemma diffuse_underclear_rel a a' b b' w c c' d d' e e' f f' :
  r a a' -> r b b' -> r c c' -> r d d' -> r e e' -> r f f' ->
  rr (diffuse_underclear a b w c d e f) (diffuse_underclear a' b' w c' d' e' f').
Proof. unfold diffuse_underclear. rel. Qed.
Lemma diffuse_underovercast_rel a a' b b' w c c' d d' e e' f f' :
  r a a' -> r b b' -> r c c' -> r d d' -> r e e' -> r f f' ->
  rr (diffuse_underovercast a b w c d e f) (diffuse_underovercast a' b' w c' d' e' f').
Proof. unfold diffuse_underovercast. rel. Qed.
Lemma direct_underclear_rel a a' b b' w c c' d d' e e' f f' g g' h h' :
  r a a' -> r b b' -> r c c' -> r d d' -> r e e' -> r f f' -> r g g' -> r h h' ->
  rr (direct_underclear a b w c d e f g h) (direct_underclear a' b' w c' d' e' f' g' h').
Proof. unfold direct_underclear. rel. Qed.
Hint Resolve diffuse_underclear_rel direct_underclear_rel : rel.
Lemma global_irradiance_clear_rel a a' b b' w c c' d d' e e' f f' g g' h h' :
  r a a' -> r b b' -> r c c' -> r d d' -> r e e' -> r f f' -> r g g' -> r h h' ->
  rr (global_irradiance_clear a b w c d e f g h) (global_irradiance_clear a' b' w c' d' e' f' g' h').
Proof. unfold global_irradiance_clear, standard_temperature, standard_pressure, TL_default. rel. Qed.
Lemma global_irradiance_overcast_rel a a' b b' w c c' d d' e e' :
  r a a' -> r b b' -> r c c' -> r d d' -> r e e' ->
  rr (global_irradiance_overcast a b w c d e) (global_irradiance_overcast a' b' w c' d' e').
Proof. unfold global_irradiance_overcast. rel. Qed.

(* ---- elevation.py *)
Lemma pressure_default_rel h h' : r_scalar N M R -> r h h' -> rr (pressure_default h) (pressure_default h').
Proof.
  intros. unfold pressure_default, get_pressure_with_elevation, get_pressure_with_elevation_w,
    standard_pressure, standard_temperature, earth_temperature_lapse_rate, air_gas_constant,
    earth_gravity, earth_atmosphere_molar_mass.
  eapply relres_rmap with (R := relprod r eq); [| intros [] [] []; assumption].
  rel. assumption.
Qed.

End Rel.

(* Incidence and zenith angles, sidereal time, parallax, topocentric declination, longitude
   periodicity. *)
From Coq Require Import Reals Qreals Lra Lia Psatz.
From Flocq Require Import Core.
From Interval Require Import Tactic.
From Verif Require Import Py Num Cal Constants SolarTime Solar RInst RTac SpecGeom SpecAstro Trig GeoProofs.
Local Open Scope R_scope.

(* ---------------------------------------------------------------- C29 *)
Lemma enu_dot A z B s : dot (enu A z) (enu B s) = cosd z * cosd s + sind s * sind z * cosd (A - B).
Proof.
  unfold dot, enu. rewrite (cosd_rad (A - B)), rad_minus, cos_minus, <- !sind_rad, <- !cosd_rad. ring.
Qed.

Lemma incidence_val z s o A :
  get_incidence_angle (N := MathR) (Fin z) (Fin s) (Fin o) (Fin A)
  = Ok (Fin (deg (acos (dot (enu A z) (enu (180 + o) s))))).
Proof.
  unfold get_incidence_angle. rx. rewrite <- !sind_rad, <- !cosd_rad.
  replace (rad A - PI - rad o) with (rad (A - (180 + o))) by (rewrite rad_minus, rad_plus, rad_180; ring).
  rewrite <- cosd_rad. rewrite <- enu_dot. rewrite nacos_R; [rx; reflexivity|].
  rewrite enu_dot. rewrite (Rmult_comm (sind s)). rewrite (Rmult_comm (sind z)).
  replace (sind s * sind z) with (sind z * sind s) by ring.
  apply unit_dot; [pose proof (sincosd z)|pose proof (sincosd s)|apply cosd_bound]; lra.
Qed.

Lemma incidence_correct z s o A : exists i,
  get_incidence_angle (N := MathR) (Fin z) (Fin s) (Fin o) (Fin A) = Ok (Fin i) /\
  0 <= i <= 180 /\ cosd i = dot (enu A z) (enu (180 + o) s) /\
  (s = 0 -> 0 <= z <= 180 -> i = z).
Proof.
  eexists. split; [apply incidence_val|]. split; [apply deg_acos_range|]. split.
  - rewrite cosd_deg, cos_acos; [reflexivity|].
    rewrite enu_dot. replace (sind s * sind z) with (sind z * sind s) by ring.
    apply unit_dot; [pose proof (sincosd z)|pose proof (sincosd s)|apply cosd_bound]; lra.
  - intros -> Hz. rewrite enu_dot, sind_0, cosd_0.
    replace (cosd z * 1 + 0 * sind z * cosd (A - (180 + o))) with (cosd z) by ring.
    rewrite cosd_rad, acos_cos; [apply deg_rad|]. rewrite <- rad_0, <- rad_180. split; apply rad_le; lra.
Qed.

(* ---------------------------------------------------------------- C30 *)
Lemma xsub_assoc e r : xsub (xsub (Fin 90) e) r = xsub (Fin 90) (xadd e r).
Proof. destruct e, r; simpl; try reflexivity. f_equal. lra. Qed.

Lemma zenith_complements lat lon d el t p alt : get_altitude (N := MathR) lat lon d el t p = Ok alt ->
  exists dec ha, get_topocentric_position (N := MathR) lat lon d el = Ok (dec, ha) /\
    get_topocentric_zenith_angle (N := MathR) lat dec ha p t = Ok (xsub (Fin 90) alt).
Proof.
  unfold get_altitude. intros H. apply bind_eq_Ok in H as ([] & _ & H). apply bind_eq_Ok in H as ([dec ha] & H1 & H).
  exists dec, ha. split; [assumption|]. apply bind_eq_Ok in H as (tea & H2 & H). apply bind_eq_Ok in H as (r & H3 & H).
  injection H as <-. unfold get_topocentric_zenith_angle. rewrite H2, bind_Ok, H3, bind_Ok. rx. f_equal.
  apply xsub_assoc.
Qed.

(* ---------------------------------------------------------------- C27 *)
Lemma parallax_val x : x <> 0 -> get_equatorial_horizontal_parallax (N := MathR) (Fin x) = Ok (Fin (8.794 * x / 3600)).
Proof.
  intros H. unfold get_equatorial_horizontal_parallax. rx. rewrite div_R.
  - do 2 f_equal. field. assumption.
  - unfold Rdiv. apply Rmult_integral_contrapositive_currified; [lra|]. now apply Rinv_neq_0_compat.
Qed.

Lemma parallax_refuted : ~ (forall x, 0 < x -> get_equatorial_horizontal_parallax (N := MathR) (Fin x) = Ok (Fin (8.794 / (3600 * x)))).
Proof. intros H. specialize (H 2 ltac:(lra)). rewrite parallax_val in H by lra. injection H. lra. Qed.

Lemma parallax_increases x y : 0 < x -> x < y ->
  exists p q, get_equatorial_horizontal_parallax (N := MathR) (Fin x) = Ok (Fin p) /\
    get_equatorial_horizontal_parallax (N := MathR) (Fin y) = Ok (Fin q) /\ p < q.
Proof. intros. do 2 eexists. split; [apply parallax_val; lra|]. split; [apply parallax_val; lra|]. lra. Qed.

Lemma parallax_partial x : 0.98 <= x <= 1.02 ->
  exists p, get_equatorial_horizontal_parallax (N := MathR) (Fin x) = Ok (Fin p) /\
    Rabs (p - 8.794 / (3600 * x)) <= 0.0001.
Proof.
  intros H. eexists. split; [apply parallax_val; lra|].
  assert (E : 8.794 * x / 3600 - 8.794 / (3600 * x) = 8.794 / 3600 * ((x - 1) * (x + 1) / x)) by (field; lra).
  rewrite E. assert (B : -0.0405 <= (x - 1) * (x + 1) / x <= 0.0405).
  { split; apply Rmult_le_reg_r with x; try lra; replace ((x - 1) * (x + 1) / x * x) with (x * x - 1) by (field; lra); nra. }
  apply Rabs_le. lra.
Qed.

(* ---------------------------------------------------------------- C28 *)
Lemma topocentric_declination_val d y p a h :
  get_topocentric_sun_declination (N := MathR) (Fin d) (Fin y) (Fin p) (Fin a) (Fin h)
  = Ok (Fin (deg (Ratan2 ((sind d - y * sind p) * cosd a) (cosd d - y * sind p * cosd h)))).
Proof. unfold get_topocentric_sun_declination. rx. now rewrite <- !sind_rad, <- !cosd_rad. Qed.

Lemma right_ascension_parallax_val x p h d :
  get_parallax_sun_right_ascension (N := MathR) (Fin x) (Fin p) (Fin h) (Fin d)
  = Ok (Fin (deg (Ratan2 (- x * sind p * sind h) (cosd d - x * sind p * cosd h)))).
Proof.
  unfold get_parallax_sun_right_ascension. rx. rewrite <- !sind_rad, <- !cosd_rad. do 4 f_equal. ring.
Qed.

(* ---------------------------------------------------------------- C18 *)
Lemma xfmod_turns a b r k : xfmod_nz (xsub (xadd a (Fin (b + 360 * IZR k))) r) (Fin 360) = xfmod_nz (xsub (xadd a (Fin b)) r) (Fin 360).
Proof.
  destruct a, r; simpl; try reflexivity. f_equal.
  replace (r0 + (b + 360 * IZR k) - r) with (r0 + b - r + 360 * IZR k) by ring. apply Rfmod_shift. lra.
Qed.

Lemma local_hour_angle_turns a b r k :
  get_local_hour_angle (N := MathR) a (Fin (b + 360 * IZR k)) r = get_local_hour_angle (N := MathR) a (Fin b) r.
Proof.
  unfold get_local_hour_angle. rx. unfold fmod, MathR, xfmod_py. cbn -[xadd xsub xfmod_nz xis_zero].
  destruct (xis_zero (Fin 360)); [reflexivity|]. f_equal. apply xfmod_turns.
Qed.

Lemma longitude_periodic lat lon d el t p k :
  let lon' := Fin (lon + 360 * IZR k) in
  get_topocentric_position (N := MathR) lat lon' d el = get_topocentric_position (N := MathR) lat (Fin lon) d el /\
  get_position (N := MathR) lat lon' d el t p = get_position (N := MathR) lat (Fin lon) d el t p /\
  get_altitude (N := MathR) lat lon' d el t p = get_altitude (N := MathR) lat (Fin lon) d el t p /\
  get_azimuth (N := MathR) lat lon' d el = get_azimuth (N := MathR) lat (Fin lon) d el.
Proof.
  intros lon'.
  assert (E : get_topocentric_position (N := MathR) lat lon' d el = get_topocentric_position (N := MathR) lat (Fin lon) d el).
  { unfold get_topocentric_position. repeat (apply bind_ext; intros). unfold topocentric_position_at, lon'.
    repeat (apply bind_ext; intros). rewrite local_hour_angle_turns. reflexivity. }
  split; [exact E|]. unfold get_position, get_altitude, get_azimuth. rewrite E. auto.
Qed.

(* ---------------------------------------------------------------- C26 *)
Lemma obliquity_val jme nl no :
  get_true_ecliptic_obliquity (N := MathR) (Fin jme) (mknut (Fin nl) (Fin no)) = Ok (Fin (mean_obliquity (jme / 10) + no)).
Proof.
  unfold get_true_ecliptic_obliquity. rx. unfold mean_obliquity, n_obliquity. rx.
  replace (Q2R 10.0) with 10 by (unfold Q2R; simpl; lra). replace (Q2R 3600.0) with 3600 by (unfold Q2R; simpl; lra).
  reflexivity.
Qed.

Lemma apparent_sidereal_val jd jme nl no m : get_mean_sidereal_time (N := MathR) (Fin jd) = Ok (Fin m) ->
  get_apparent_sidereal_time (N := MathR) (Fin jd) (Fin jme) (mknut (Fin nl) (Fin no))
  = Ok (Fin (m + nl * cos (mean_obliquity (jme / 10) + no))).
Proof. intros H. unfold get_apparent_sidereal_time. rewrite H, obliquity_val. rx. reflexivity. Qed.

Lemma mean_sidereal_val jd : get_mean_sidereal_time (N := MathR) (Fin jd) =
  let c := (jd - 2451545) / 36525 in
  Ok (Fin (Rfmod (280.46061837 + 360.98564736629 * (jd - 2451545) + 0.000387933 * c * c * (1 - c / 38710000)) 360)).
Proof.
  unfold get_mean_sidereal_time, get_julian_century. rx. cbv zeta.
  replace (Q2R 2451545.0) with 2451545 by (unfold Q2R; simpl; lra).
  replace (Q2R 36525.0) with 36525 by (unfold Q2R; simpl; lra). reflexivity.
Qed.

(* for every physically possible obliquity the cosine of the number of degrees, taken as
   radians, differs from the cosine of the angle *)
Lemma cos_degrees_wrong e : 22.5 <= e <= 24.5 -> cos e < cosd e.
Proof. intros H. assert (0.9 < cosd e) by (unfold cosd; interval with (i_bisect e)). assert (cos e < 0.85) by interval with (i_bisect e). lra. Qed.

Lemma apparent_sidereal_wrong jd jme nl no e : nl <> 0 ->
  get_true_ecliptic_obliquity (N := MathR) (Fin jme) (mknut (Fin nl) (Fin no)) = Ok (Fin e) ->
  22.5 <= e <= 24.5 ->
  exists m s, get_mean_sidereal_time (N := MathR) (Fin jd) = Ok (Fin m) /\
    get_apparent_sidereal_time (N := MathR) (Fin jd) (Fin jme) (mknut (Fin nl) (Fin no)) = Ok (Fin s) /\
    s <> m + nl * cosd e.
Proof.
  intros Hn He Hr. rewrite obliquity_val in He. injection He as He. do 2 eexists.
  split; [apply mean_sidereal_val|]. split; [eapply apparent_sidereal_val, mean_sidereal_val|]. rewrite He.
  pose proof (cos_degrees_wrong e Hr). intros E.
  assert (nl * (cosd e - cos e) = 0) as Z by lra. apply Rmult_integral in Z. lra.
Qed.

Lemma apparent_sidereal_error jd jme nl no e :
  get_true_ecliptic_obliquity (N := MathR) (Fin jme) (mknut (Fin nl) (Fin no)) = Ok (Fin e) ->
  exists m s, get_mean_sidereal_time (N := MathR) (Fin jd) = Ok (Fin m) /\
    get_apparent_sidereal_time (N := MathR) (Fin jd) (Fin jme) (mknut (Fin nl) (Fin no)) = Ok (Fin s) /\
    s = m + nl * cos e /\ Rabs (s - (m + nl * cosd e)) <= 2 * Rabs nl.
Proof.
  intros He. rewrite obliquity_val in He. injection He as He. do 2 eexists.
  split; [apply mean_sidereal_val|]. split; [eapply apparent_sidereal_val, mean_sidereal_val|]. rewrite He.
  split; [reflexivity|]. set (m := Rfmod _ _). replace (m + nl * cos e - (m + nl * cosd e)) with (nl * (cos e - cosd e)) by ring.
  rewrite Rabs_mult, Rmult_comm. apply Rmult_le_compat_r; [apply Rabs_pos|].
  pose proof (COS_bound e). pose proof (cosd_bound e). apply Rabs_le. lra.
Qed.

(* ---------------------------------------------------------------- C25 *)
Lemma mean_sidereal_correct jd : 1721425 <= jd <= 5373485 ->
  exists s, get_mean_sidereal_time (N := MathR) (Fin jd) = Ok (Fin s) /\ 0 <= s < 360 /\
    exists e, Rabs e <= 0.02 /\ same_angle (s + e) (iau_sidereal jd).
Proof.
  intros H. eexists. split; [apply mean_sidereal_val|]. cbv zeta. set (c := (jd - 2451545) / 36525).
  split; [apply Rfmod_range; lra|].
  assert (C : -20 <= c <= 80) by (unfold c; lra).
  exists (0.000387933 * (c * c * c) / 38710000 - c * c * c / 38710000).
  assert (C3 : -8000 <= c * c * c <= 512000).
  { assert (0 <= (c + 20) * (c * c - 20 * c + 400)) by (apply Rmult_le_pos; nra).
    assert (0 <= (80 - c) * (c * c + 80 * c + 6400)) by (apply Rmult_le_pos; nra). lra. }
  split; [apply Rabs_le; lra|].
  match goal with |- same_angle (Rfmod ?x 360 + ?e) _ => destruct (Rfmod_eq x 360) as [k E]; rewrite E end.
  exists (- k)%Z. rewrite opp_IZR. unfold iau_sidereal. fold c. cbv zeta. field.
Qed.

Lemma apparent_sidereal_claim_false : ~ (forall jd jme nl no e m,
  get_true_ecliptic_obliquity (N := MathR) (Fin jme) (mknut (Fin nl) (Fin no)) = Ok (Fin e) ->
  get_mean_sidereal_time (N := MathR) (Fin jd) = Ok (Fin m) ->
  get_apparent_sidereal_time (N := MathR) (Fin jd) (Fin jme) (mknut (Fin nl) (Fin no)) = Ok (Fin (m + nl * cosd e))).
Proof.
  intros C.
  destruct (apparent_sidereal_wrong 2451545 0 1 0 (mean_obliquity (0 / 10) + 0) ltac:(lra) (obliquity_val 0 1 0)) as (m & s & H1 & H2 & H3).
  - unfold mean_obliquity. replace (0 / 10) with 0 by lra. rewrite !pow_i by lia. lra.
  - rewrite (C 2451545 0 1 0 (mean_obliquity (0 / 10) + 0) m) in H2; [|apply obliquity_val|exact H1]. injection H2 as <-. apply H3. reflexivity.
Qed.

(* The accuracy theorems of B64Pos.v and B64Sky.v in the form of the property statements; the float
   result against the published algorithm; a place where every hypothesis holds. *)
From Coq Require Import Reals Qreals Lra Lia List.
From Flocq Require Import Core IEEE754.BinarySingleNaN.
From Interval Require Import Tactic.
From Verif Require Import Py Num Cal TzCheck SolarTime Solar Tables Constants RInst RTac SpecTime SpecDt SpecGeom SpecAstro Trig SpaProofs GeoProofs RefractionProofs PositionProofs SpanProofs
  B64 SpecB64 B64Lemmas B64Ranges Rel Absint AbsintSound B64Lift B64Topo B64Pos AngleLip B64Horiz B64Refr B64Sky Samples SpecEng B64Witness.
Import ListNotations.
Local Open Scope R_scope.

Lemma dot_unit_bound a1 a2 a3 b1 b2 b3 : a1 * a1 + a2 * a2 + a3 * a3 = 1 -> b1 * b1 + b2 * b2 + b3 * b3 = 1 -> -1 <= a1 * b1 + a2 * b2 + a3 * b3 <= 1.
Proof.
  intros A B. set (x := a1 * b1 + a2 * b2 + a3 * b3).
  assert (0 <= (a1 - b1) * (a1 - b1) + (a2 - b2) * (a2 - b2) + (a3 - b3) * (a3 - b3)) by (pose proof (Rle_0_sqr (a1 - b1)); pose proof (Rle_0_sqr (a2 - b2)); pose proof (Rle_0_sqr (a3 - b3)); unfold Rsqr in *; lra).
  assert (0 <= (a1 + b1) * (a1 + b1) + (a2 + b2) * (a2 + b2) + (a3 + b3) * (a3 + b3)) by (pose proof (Rle_0_sqr (a1 + b1)); pose proof (Rle_0_sqr (a2 + b2)); pose proof (Rle_0_sqr (a3 + b3)); unfold Rsqr in *; lra).
  unfold x. split; lra.
Qed.
Lemma equatorial_unit d h : cosd d * cosd h * (cosd d * cosd h) + - (cosd d * sind h) * - (cosd d * sind h) + sind d * sind d = 1.
Proof.
  pose proof (sincosd h) as H. pose proof (sincosd d) as D.
  transitivity (cosd d * cosd d * (sind h * sind h + cosd h * cosd h) + sind d * sind d); [ring|]. rewrite H. lra.
Qed.
Lemma direction_move w d h d' h' : dot w w = 1 ->
  acos (dot (equatorial d h) w) <= acos (dot (equatorial d' h') w) + Rabs (rad (d - d')) + Rabs (rad (h - h')).
Proof.
  destruct w as [[w1 w2] w3]. unfold dot, equatorial. intros W.
  apply Rle_trans with (acos (cosd d' * cosd h * w1 + - (cosd d' * sind h) * w2 + sind d' * w3) + Rabs (rad (d - d'))).
  - apply acos_triangle; try (apply dot_unit_bound; [apply equatorial_unit|exact W]); [apply Rabs_pos|]. intros _. exists (cosd (d - d')). split; [apply cosd_bound|].
    split. { rewrite cosd_rad. unfold Rabs. destruct (Rcase_abs _); [rewrite cos_neg|]; lra. }
    apply (gram w1 w2 w3 (cosd d * cosd h) (- (cosd d * sind h)) (sind d) (cosd d' * cosd h) (- (cosd d' * sind h)) (sind d')); try apply equatorial_unit; try lra.
    pose proof (sincosd h) as H. transitivity (cosd d * cosd d' * (sind h * sind h + cosd h * cosd h) + sind d * sind d'); [|ring]. rewrite H.
    rewrite !cosd_rad, !sind_rad, rad_minus, cos_minus. ring.
  - assert (acos (cosd d' * cosd h * w1 + - (cosd d' * sind h) * w2 + sind d' * w3) <=
      acos (cosd d' * cosd h' * w1 + - (cosd d' * sind h') * w2 + sind d' * w3) + Rabs (rad (h - h'))); [|lra].
    apply acos_triangle; try (apply dot_unit_bound; [apply equatorial_unit|exact W]); [apply Rabs_pos|]. intros _.
    exists (sind d' * sind d' + cosd d' * cosd d' * cosd (h - h')). pose proof (cosd_bound (h - h')). pose proof (sincosd d') as D.
    split; [apply unit_dot; try apply sincosd; assumption|].
    split. { replace (cos (Rabs (rad (h - h')))) with (cosd (h - h')); [assert (0 <= sind d' * sind d') by apply Rle_0_sqr; nra|].
      rewrite cosd_rad. unfold Rabs. destruct (Rcase_abs _); [now rewrite cos_neg|reflexivity]. }
    apply (gram w1 w2 w3 (cosd d' * cosd h) (- (cosd d' * sind h)) (sind d') (cosd d' * cosd h') (- (cosd d' * sind h')) (sind d')); try apply equatorial_unit; try lra.
    rewrite !cosd_rad, !sind_rad, rad_minus, cos_minus. ring.
Qed.
Lemma equatorial_turns d h (k : Z) : equatorial d (h + 360 * IZR k) = equatorial d h.
Proof.
  unfold equatorial. replace (cosd (h + 360 * IZR k)) with (cosd h); [replace (sind (h + 360 * IZR k)) with (sind h); [reflexivity|]|].
  - apply same_angle_sin. exists (- k)%Z. rewrite opp_IZR. ring.
  - apply same_angle_cos. exists (- k)%Z. rewrite opp_IZR. ring.
Qed.
Lemma direction_close w d h d' h' (k : Z) a e : dot w w = 1 -> 0 <= a -> 0 <= e -> a + e <= 180 -> cosd a <= dot (equatorial d' h') w ->
  Rabs (d - d') + Rabs (h - h' - 360 * IZR k) <= e -> cosd (a + e) <= dot (equatorial d h) w.
Proof.
  intros W Ha He Hs C D. pose proof (direction_move w d h d' (h' + 360 * IZR k) W) as M. rewrite equatorial_turns in M.
  replace (h - (h' + 360 * IZR k)) with (h - h' - 360 * IZR k) in M by ring. rewrite !rad_abs in M.
  assert (B : forall d h, -1 <= dot (equatorial d h) w <= 1).
  { intros d0 h0. destruct w as [[w1 w2] w3]. unfold dot, equatorial in *. apply dot_unit_bound; [apply equatorial_unit|exact W]. }
  pose proof (B d h) as B1. pose proof (B d' h') as B2. set (p := dot (equatorial d h) w) in *. set (q := dot (equatorial d' h') w) in *. clearbody p q.
  assert (A : acos q <= rad a).
  { destruct (acos_bound q). apply Rnot_lt_le. intros N. assert (R : 0 <= rad a <= PI) by (replace PI with (rad 180) by (unfold rad; field); unfold rad; pose proof PI_RGT_0; nra).
    apply cos_decreasing_1 in N; try lra. rewrite cos_acos in N by lra. rewrite <- cosd_rad in N. lra. }
  assert (Z : acos p <= rad (a + e)).
  { assert (rad (Rabs (d - d')) + rad (Rabs (h - h' - 360 * IZR k)) <= rad e); [|unfold rad in *; lra].
    unfold rad. pose proof PI_RGT_0. nra. }
  destruct (acos_bound p). rewrite cosd_rad. rewrite <- (cos_acos p) by lra. 
  assert (R : 0 <= rad (a + e) <= PI) by (replace PI with (rad 180) by (unfold rad; field); unfold rad; pose proof PI_RGT_0; nra).
  apply cos_decr_1; lra.
Qed.

Lemma position_accuracy64 : forall L, accurate L -> forall lat lon el x xo xe dt u, instant dt u ->
  val x lat -> val xo lon -> val xe el -> -90 <= lat <= 90 -> -360 <= lon <= 360 -> -100000 <= el <= 100000 ->
  forall e1 e2, in_range u = true /\ e1 = 1.7e-8 /\ e2 = 1.35e-6 \/ (midnight 1834 1 1 <= u < midnight 2106 1 1)%Z /\ e1 = 8.1e-10 /\ e2 = 2.25e-7 ->
  exists qd qh dec ha dec' ha' (k : Z),
    get_topocentric_position (N := B64 L) x xo dt xe = Ok (qd, qh) /\ val qd dec /\ val qh ha /\
    get_topocentric_position (N := MathR) (Fin lat) (Fin lon) dt (Fin el) = Ok (Fin dec', Fin ha') /\
    Rabs (dec - dec') <= e1 /\ Rabs (ha - ha' - 360 * IZR k) <= e2.
Proof.
  intros L HL lat lon el x xo xe dt u Hi V Vo Ve B Bo Be e1 e2 H.
  assert (P : pos_close L lat lon el x xo xe dt e1 e2).
  { destruct H as [(Hr & -> & ->)|(Hr & -> & ->)]; [eapply position64|eapply position64_modern]; eassumption. }
  destruct P as (qd & qh & d & h & d' & h' & k & P1 & P2 & P3 & P4 & _ & _ & _ & P5 & P6).
  exists qd, qh, d, h, d', h', k. repeat (split; [assumption|]). assumption.
Qed.

Lemma azimuth_accuracy64 : forall L, accurate L -> forall lat lon el x xo xe dt u dec ha E, instant dt u ->
  val x lat -> val xo lon -> val xe el -> -90 <= lat <= 90 -> -360 <= lon <= 360 -> -100000 <= el <= 100000 ->
  get_topocentric_position (N := MathR) (Fin lat) (Fin lon) dt (Fin el) = Ok (Fin dec, Fin ha) ->
  get_topocentric_elevation_angle (N := MathR) (Fin lat) (Fin dec) (Fin ha) = Ok (Fin E) -> 1e-5 <= cosd E ->
  forall c, in_range u = true /\ c = 2e-6 \/ (midnight 1834 1 1 <= u < midnight 2106 1 1)%Z /\ c = 3.3e-7 ->
  exists q a a' (k : Z), get_azimuth (N := B64 L) x xo dt xe = Ok q /\ val q a /\
    get_azimuth (N := MathR) (Fin lat) (Fin lon) dt (Fin el) = Ok (Fin a') /\ Rabs (a - a' - 360 * IZR k) <= c / cosd E.
Proof.
  intros L HL lat lon el x xo xe dt u dec ha E Hi V Vo Ve B Bo Be P1 P2 CE c [(Hr & ->)|(Hr & ->)]; [eapply azimuth64|eapply azimuth64_modern]; try eassumption;
    exists dec, ha; split; assumption.
Qed.

Lemma altitude_accuracy64 : forall L, accurate L -> forall lat lon el x xo xe dt u xT T xP P dec ha E, instant dt u -> in_range u = true ->
  val x lat -> val xo lon -> val xe el -> -90 <= lat <= 90 -> -360 <= lon <= 360 -> -100000 <= el <= 100000 ->
  val xT T -> val xP P -> 180 <= T <= 340 -> 0 <= P <= 110000 ->
  get_topocentric_position (N := MathR) (Fin lat) (Fin lon) dt (Fin el) = Ok (Fin dec, Fin ha) ->
  get_topocentric_elevation_angle (N := MathR) (Fin lat) (Fin dec) (Fin ha) = Ok (Fin E) ->
  ~ (-5.21 < E < -4.99) -> 1e-5 <= Rabs (E + 0.83337) ->
  (exists q a a', get_altitude (N := B64 L) x xo dt xe xT xP = Ok q /\ val q a /\
     get_altitude (N := MathR) (Fin lat) (Fin lon) dt (Fin el) (Fin T) (Fin P) = Ok (Fin a') /\
     Rabs (a - a') <= 1.7e-5 /\ (Rabs E <= 89 -> Rabs (a - a') <= 2.8e-6) /\
     (Rabs E <= 89 -> (midnight 1834 1 1 <= u < midnight 2106 1 1)%Z -> Rabs (a - a') <= 4.6e-7)) \/
  (get_altitude (N := B64 L) x xo dt xe xT xP = Err ValueError /\ 89.99998 < Rabs E).
Proof.
  intros L HL lat lon el x xo xe dt u xT T xP P dec ha E Hi Hr V Vo Ve B Bo Be VT VP HT HP P1 P2 G HG.
  eapply altitude64; try eassumption. exists dec, ha. split; assumption.
Qed.

Lemma spa_position64 : forall L, accurate L -> forall lat lon el x xo xe dt u, instant dt u -> in_range u = true ->
  val x lat -> val xo lon -> val xe el -> -90 <= lat <= 90 -> -360 <= lon <= 360 -> -100000 <= el <= 100000 ->
  exists jd jde x0 y0 qd qh dec ha,
    get_julian_solar_day (N := MathR) dt = Ok (Fin jd) /\ get_julian_ephemeris_day (N := MathR) dt = Ok (Fin jde) /\
    ellipsoid_point 0.99664719 lat x0 y0 /\
    get_topocentric_position (N := B64 L) x xo dt xe = Ok (qd, qh) /\ val qd dec /\ val qh ha /\
    let is_direction := spa_direction sun_earth_distance_coeffs heliocentric_latitude_coeffs heliocentric_longitude_coeffs
      (combine nutation_coefficients aberration_sin_terms) ((jde - 2451545) / 36525) jd lon
      (x0 + el / 6378140 * cosd lat) (y0 + el / 6378140 * sind lat) in
    (exists w, is_direction w) /\ forall w, is_direction w -> cosd 0.100002 <= dot (equatorial dec ha) w.
Proof.
  intros L HL lat lon el x xo xe dt u Hi Hr V Vo Ve B Bo Be.
  destruct (spa_position lat lon dt el u Hi Hr B Be) as (jd & jde & x0 & y0 & d' & h' & J1 & J2 & EP & P' & X & C).
  destruct (position64 L HL lat lon el x xo xe dt u Hi Hr V Vo Ve B Bo Be) as (qd & qh & d & h & d2 & h2 & k & P1 & P2 & P3 & P4 & _ & _ & _ & P5 & P6).
  rewrite P' in P4. apply Ok_inj in P4. injection P4 as <- <-.
  exists jd, jde, x0, y0, qd, qh, d, h. cbv zeta. do 7 (split; [assumption|]). intros w Hw. pose proof (C w Hw) as D.
  replace 0.100002 with (0.1 + 0.000002) by lra. apply (direction_close w d h d' h' k); try lra.
  unfold spa_direction in Hw. destruct w as [[w1 w2] w3]. destruct Hw as [Hw _]. exact Hw.
Qed.

(* at the pole where the sun is up or nearly so every condition of the accuracy theorems holds *)
Lemma pole_elevation d u : instant d u -> in_range u = true -> exists s dec ha e, pole s /\
  get_topocentric_position (N := MathR) (Fin (90 * s)) (Fin 0) d (Fin 0) = Ok (Fin dec, Fin ha) /\
  get_topocentric_elevation_angle (N := MathR) (Fin (90 * s)) (Fin dec) (Fin ha) = Ok (Fin e) /\ -0.01 <= e <= 34.
Proof.
  intros Hi Hr. destruct (jd_ok d u Hi Hr) as (jd & jde & Ejd & Ejde & B1 & B2).
  assert (S : exists s, pole s /\ 0 <= s * sind (sun_delta jde)).
  { destruct (Rle_dec 0 (sind (sun_delta jde))); [exists 1|exists (-1)]; (split; [unfold pole; auto|lra]). }
  destruct S as (s & Hs & Hd). assert (Hlat : -90 <= 90 * s <= 90) by (destruct Hs; subst; lra).
  destruct (position_val (90 * s) 0 d 0 u Hi Hr Hlat ltac:(lra)) as (x & y & jd' & jde' & x0 & y0 & E1 & E2 & _ & _ & EP & Ex & Ey & Epos & Bd).
  rewrite Ejd in E1. rewrite Ejde in E2. injection E1 as <-. injection E2 as <-.
  assert (X0 : x = 0).
  { destruct EP as [_ (k & _ & -> & _)]. rewrite Ex, (cosd_pole s Hs). lra. }
  assert (Y0 : -1 <= y <= 1).
  { rewrite Ey. destruct EP as [EP _]. pose proof flat_pos. assert (F1 : flat <= 1) by (unfold flat; lra).
    assert (Y : -1 <= y0 / flat <= 1) by (split; nra). replace y0 with (y0 / flat * flat) by (field; lra).
    set (q := y0 / flat) in *. clearbody q. clear - Y F1 H. split; nra. }
  clear Ex Ey EP. subst x. pose proof (pole_dec_sine s 0 y jd jde Hs B2 Hd Y0) as SD.
  exists s, (topo_dec 0 0 y jd jde), (topo_H 0 0 jd jde). set (dec := topo_dec 0 0 y jd jde) in *.
  pose proof (position64 exact_libm (cr_accurate _ exact_libm_correct) (90 * s) 0 0 (flit (inject_Z (if Rle_dec 0 s then 90 else -90))) (flit 0) (flit 0) d u Hi Hr) as PC.
  destruct PC as (qd & qh & d1 & h1 & d' & h' & k & _ & _ & _ & P4 & _ & BD & _).
  { destruct Hs as [-> | ->]; destruct (Rle_dec _ _); try lra; [replace (90 * 1) with (IZR 90) by lra|replace (90 * -1) with (IZR (-90)) by lra]; apply val_int; lia. }
  { apply (val_int 0). lia. } { apply (val_int 0). lia. } { exact Hlat. } { lra. } { lra. }
  rewrite Epos in P4. apply Ok_inj in P4. injection P4 as <- _. fold dec in BD.
  rewrite elevation_val. eexists. split; [exact Hs|]. split; [exact Epos|]. split; [reflexivity|].
  unfold sin_elev. rewrite (sind_pole s Hs), (cosd_pole s Hs), !Rmult_0_l, Rplus_0_r.
  assert (U : s * sind dec <= 0.545).
  { destruct Hs as [-> | ->]; rewrite sind_rad; unfold rad; interval. }
  set (q := s * sind dec) in *. clearbody q. rewrite asin_atan by lra. unfold deg. split; interval.
Qed.


Lemma sample_modern : (midnight 1834 1 1 <= sample_u < midnight 2106 1 1)%Z.
Proof. vm_compute. intuition discriminate. Qed.
Lemma pole_case : exists lat x dec ha E, val x lat /\ -90 <= lat <= 90 /\
  get_topocentric_position (N := MathR) (Fin lat) (Fin 0) sample_dt (Fin 0) = Ok (Fin dec, Fin ha) /\
  get_topocentric_elevation_angle (N := MathR) (Fin lat) (Fin dec) (Fin ha) = Ok (Fin E) /\
  1e-5 <= cosd E /\ ~ (-5.21 < E < -4.99) /\ 1e-5 <= Rabs (E + 0.83337) /\ Rabs E <= 89.
Proof.
  destruct (pole_elevation sample_dt sample_u sample_instant sample_in_range) as (s & dec & ha & e & Hs & P1 & P2 & B).
  exists (90 * s), (flit (inject_Z (if Rle_dec 0 s then 90 else -90))), dec, ha, e.
  split. { destruct Hs as [-> | ->]; destruct (Rle_dec _ _); try lra; [replace (90 * 1) with (IZR 90) by lra|replace (90 * -1) with (IZR (-90)) by lra]; apply val_int; lia. }
  split; [destruct Hs; subst; lra|]. split; [exact P1|]. split; [exact P2|].
  split. { rewrite cosd_rad. unfold rad. interval. }
  split; [lra|]. split; [rewrite Rabs_pos_eq; lra|]. apply Rabs_le. lra.
Qed.

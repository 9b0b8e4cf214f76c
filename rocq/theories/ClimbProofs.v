(* The sun climbs all morning and sinks all afternoon. *)
From Coq Require Import Reals Qreals Lra Lia ZArith.
From Flocq Require Import Core.
From Coquelicot Require Import Coquelicot.
From Interval Require Import Tactic.
From Verif Require Import Py Num Cal TzCheck Clock Constants SolarTime Solar RInst RTac SpecTime SpecDt SpecGeom SpecDemo
  Trig GeoProofs PositionProofs SpaProofs TopoProofs AngleLip B64Ranges MoveProofs MotionProofs MotionLip CrossProofs RefractionProofs Samples SeasonProofs B64 SpecB64 B64Final RefrOrder.
Local Open Scope R_scope.

Lemma sin_elev_dec lat d d' h : Rabs (sin_elev lat d h - sin_elev lat d' h) <= Rabs (d - d') * (PI / 180).
Proof.
  rewrite <- (cos_acos (sin_elev lat d h)), <- (cos_acos (sin_elev lat d' h)) by apply sin_elev_bound.
  eapply Rle_trans; [apply cos_lip|]. pose proof (zenith_move lat d h d' h) as A. pose proof (zenith_move lat d' h d h) as B.
  rewrite (Rminus_diag_eq h h eq_refl) in A, B. replace (rad 0) with 0 in A, B by (unfold rad; ring). rewrite Rabs_R0 in A, B.
  rewrite !rad_abs in A, B. rewrite (Rabs_minus_sym d' d) in B. unfold rad in A, B. apply Rabs_le. lra.
Qed.
(* tan y >= y *)
Lemma sin_cos_y y : 0 <= y <= PI / 2 -> y * cos y <= sin y.
Proof.
  intros H. set (f := fun t => sin t - t * cos t). assert (D : forall t, is_derive f t (t * sin t)).
  { intros t. unfold f. auto_derive; [exact I|ring]. }
  destruct (MVT_gen f 0 y (fun t => t * sin t)) as (c & HC & E).
  - intros t _. apply D.
  - intros t _. apply continuity_pt_filterlim, (ex_derive_continuous f t). exists (t * sin t). apply D.
  - rewrite Rmin_left, Rmax_right in HC by lra. unfold f in E. rewrite sin_0 in E.
    assert (0 <= sin c) by (apply sin_ge_0; pose proof PI_RGT_0; lra). assert (0 <= c * sin c * (y - 0)) by (repeat apply Rmult_le_pos; lra). lra.
Qed.
(* moving an hour angle on by x through the east raises its cosine *)
Lemma cos_rise h x s : 0.0015 <= s -> 0 <= x <= 180.1 -> sind h <= - s -> sind (h + x) <= - s ->
  s * rad x <= cosd (h + x) - cosd h.
Proof.
  intros Hs Hx S1 S2. rewrite !sind_rad in *. rewrite !cosd_rad. set (m := rad (h + x / 2)). set (y := rad (x / 2)).
  assert (E1 : rad (h + x) = m + y) by (unfold m, y, rad; field). assert (E2 : rad h = m - y) by (unfold m, y, rad; field).
  assert (EX : rad x = 2 * y) by (unfold y, rad; field).
  assert (Y : 0 <= y <= 1.5717) by (unfold y, rad; split; [apply Rmult_le_pos; [lra|pose proof PI_RGT_0; lra]|interval]).
  rewrite E1 in *. rewrite E2 in *. rewrite EX. rewrite cos_plus, cos_minus. rewrite sin_plus in S2. rewrite sin_minus in S1.
  pose proof PI_RGT_0 as P.
  assert (SM : -1 <= sin m <= 1) by apply SIN_bound. assert (CY : -0.001 <= cos y <= 1) by (split; [interval|apply COS_bound]).
  assert (SY : 0 <= sin y) by (apply sin_ge_0; [lra|]; interval with (i_prec 60)).
  assert (M : sin m * cos y <= - s) by lra.
  assert (C0 : 0 < cos y). { destruct (Rlt_le_dec 0 (cos y)) as [|C]; [assumption|exfalso]. nra. }
  assert (YH : y <= PI / 2). { destruct (Rle_lt_dec y (PI / 2)) as [|C]; [assumption|exfalso]. 
    assert (cos y <= 0) by (apply cos_le_0; [lra|]; interval with (i_prec 60)). lra. }
  pose proof (sin_cos_y y ltac:(lra)) as Q.
  assert (K : s * y * cos y <= - sin m * sin y * cos y).
  { apply Rle_trans with (s * sin y); [nra|]. replace (- sin m * sin y * cos y) with ((- (sin m * cos y)) * sin y) by ring.
    apply Rmult_le_compat_r; lra. }
  apply Rmult_le_reg_r in K; [lra|exact C0].
Qed.

Lemma dec_all d u lat lon el dec ha : instant d u -> in_range u = true -> -90 <= lat <= 90 -> -100000 <= el <= 100000 ->
  get_topocentric_position (N := MathR) (Fin lat) (Fin lon) d (Fin el) = Ok (Fin dec, Fin ha) -> -24.085 <= dec <= 24.085.
Proof.
  intros Hi Hr Hlat Hel E1. destruct (sky d u Hi Hr) as (jd & j & o & s & A1 & A2 & A3 & A4 & A5 & A6 & S).
  destruct (S lat lon el Hlat Hel) as (d1 & h1 & e1 & k1 & F1 & F2 & V1 & B1 & _ & _).
  rewrite F1 in E1. apply Ok_inj in E1. injection E1 as <- <-. pose proof (delta_all j A6). lra.
Qed.

Lemma climb_sine lat dec ha dec' ha' (k : Z) D c : 0.0015 <= c -> -90 <= lat <= 90 -> -24.085 <= dec <= 24.085 -> 0 < D < 0.5 ->
  Rabs (ha' - ha - 360 * D - 360 * IZR k) <= 0.19 * D -> Rabs (dec' - dec) <= 0.475 * D ->
  c <= cosd lat * - sind ha -> c <= cosd lat * - sind ha' ->
  (328 * c - 0.475) * D * (PI / 180) <= sin_elev lat dec' ha' - sin_elev lat dec ha.
Proof.
  intros Hc Hlat Hd HD Hk Hdd C1 C2.
  set (x := ha' - ha - 360 * IZR k). apply Rabs_le_inv in Hk. assert (X : 359.81 * D <= x <= 360.19 * D) by (unfold x; lra).
  assert (EH : ha' = ha + x + 360 * IZR k) by (unfold x; ring). clearbody x. subst ha'. rewrite sin_elev_turns.
  assert (SH : sind (ha + x + 360 * IZR k) = sind (ha + x)). { apply same_angle_sin. exists k. ring. }
  rewrite SH in *. clear SH. pose proof (sin_elev_dec lat dec' dec (ha + x)) as V. apply Rabs_le_inv in V.
  pose proof (cosd_bound lat) as CB. assert (CN : 0 <= cosd lat) by (unfold cosd; apply cos_ge_0; unfold Rdiv; pose proof PI_RGT_0; nra).
  assert (CL : 0 < cosd lat). { destruct CN as [|C]; [assumption|exfalso]. rewrite <- C in C1. lra. }
  assert (KD : 0.912 <= cosd dec) by (unfold cosd; interval).
  set (s := c / cosd lat). assert (ES : cosd lat * s = c) by (unfold s; field; lra).
  assert (Z1 : sind ha <= - s) by (apply (Rmult_le_reg_l (cosd lat)); [exact CL|]; lra).
  assert (Z2 : sind (ha + x) <= - s) by (apply (Rmult_le_reg_l (cosd lat)); [exact CL|]; lra).
  assert (SS : 0.0015 <= s) by (apply (Rmult_le_reg_l (cosd lat)); [exact CL|]; nra).
  pose proof (cos_rise ha x s SS ltac:(lra) Z1 Z2) as R.
  assert (G : c * 0.912 * rad x <= sin_elev lat dec (ha + x) - sin_elev lat dec ha).
  { unfold sin_elev. replace (sind lat * sind dec + cosd lat * cosd dec * cosd (ha + x) - (sind lat * sind dec + cosd lat * cosd dec * cosd ha))
      with (cosd lat * cosd dec * (cosd (ha + x) - cosd ha)) by ring.
    apply Rle_trans with (cosd lat * cosd dec * (s * rad x)).
    - replace (cosd lat * cosd dec * (s * rad x)) with (cosd lat * s * cosd dec * rad x) by ring. rewrite ES.
      apply Rmult_le_compat_r; [unfold rad; apply Rmult_le_pos; [lra|pose proof PI_RGT_0; lra]|]. apply Rmult_le_compat_l; lra.
    - apply Rmult_le_compat_l; [apply Rmult_le_pos; lra|exact R]. }
  assert (W : Rabs (dec' - dec) * (PI / 180) <= 0.475 * D * (PI / 180)) by (apply Rmult_le_compat_r; [pose proof PI_RGT_0; lra|lra]).
  unfold rad in G. assert (P : 0 < PI / 180) by (pose proof PI_RGT_0; lra). set (p := PI / 180) in *. clearbody p.
  assert (c * 0.912 * (359.81 * D * p) <= c * 0.912 * (x * p)) by (apply Rmult_le_compat_l; [lra|]; apply Rmult_le_compat_r; lra).
  assert (0 <= c * D * p) by (repeat apply Rmult_le_pos; lra). lra.
Qed.

(* D: days between the instants; east of the meridian sin H < 0 *)
Lemma climbs d u d' u' lat lon el dec ha e dec' ha' e' c : instant d u -> instant d' u' -> in_range u = true -> in_range u' = true -> same_month u u' ->
  (u < u' < u + 43200000000)%Z -> -90 <= lat <= 90 -> -100000 <= el <= 100000 ->
  get_topocentric_position (N := MathR) (Fin lat) (Fin lon) d (Fin el) = Ok (Fin dec, Fin ha) ->
  get_topocentric_elevation_angle (N := MathR) (Fin lat) (Fin dec) (Fin ha) = Ok (Fin e) ->
  get_topocentric_position (N := MathR) (Fin lat) (Fin lon) d' (Fin el) = Ok (Fin dec', Fin ha') ->
  get_topocentric_elevation_angle (N := MathR) (Fin lat) (Fin dec') (Fin ha') = Ok (Fin e') -> 0.0015 <= c ->
  (cosd lat * sind ha <= - c -> cosd lat * sind ha' <= - c -> (328 * c - 0.475) * (IZR (u' - u) / 86400000000) <= e' - e) /\
  (c <= cosd lat * sind ha -> c <= cosd lat * sind ha' -> (328 * c - 0.475) * (IZR (u' - u) / 86400000000) <= e - e').
Proof.
  intros Hi Hi' Hr Hr' SM HU Hlat Hel E1 E2 E3 E4 Hc.
  pose proof (dec_all _ _ _ _ _ _ _ Hi Hr Hlat Hel E1) as B1. pose proof (dec_all _ _ _ _ _ _ _ Hi' Hr' Hlat Hel E3) as B3.
  destruct (lipschitz d d' u u' lat lon el dec ha dec' ha' e e' Hi Hi' Hr Hr' SM Hlat Hel E1 E2 E3 E4) as ((k & K) & L & _).
  rewrite elevation_val in E2, E4. apply Ok_inj in E2, E4.
  assert (V : e = deg (asin (sin_elev lat dec ha))) by (unfold sin_elev; congruence).
  assert (V' : e' = deg (asin (sin_elev lat dec' ha'))) by (unfold sin_elev; congruence). clear E2 E4.
  assert (HD : 0 < IZR (u' - u) / 86400000000 < 0.5).
  { rewrite minus_IZR. destruct HU as [U1 U2]. apply IZR_lt in U1, U2. rewrite plus_IZR in U2. lra. }
  set (D := IZR (u' - u) / 86400000000) in *. clearbody D. rewrite (Rabs_pos_eq D) in K, L by lra.
  assert (M : forall a b m, -1 <= a <= 1 -> -1 <= b <= 1 -> 0 <= m -> m * (PI / 180) <= b - a -> m <= deg (asin b) - deg (asin a)).
  { intros a b m A B Hm AB. pose proof (sin_lip (asin b) (asin a)) as SL. rewrite !sin_asin in SL by assumption.
    assert (P : 0 < PI / 180) by (pose proof PI_RGT_0; lra). assert (0 <= m * (PI / 180)) by (apply Rmult_le_pos; lra).
    rewrite (Rabs_pos_eq (b - a)) in SL by lra. assert (AI : asin a <= asin b).
    { destruct (Rle_lt_dec (asin a) (asin b)) as [|C]; [assumption|exfalso].
      assert (b < a); [|lra]. rewrite <- (sin_asin a), <- (sin_asin b) by lra. pose proof (asin_bound a). pose proof (asin_bound b). apply sin_increasing_1; lra. }
    rewrite Rabs_pos_eq in SL by lra. rewrite <- deg_minus. rewrite <- (deg_rad m). apply deg_le. unfold rad. lra. }
  assert (Q : 0 <= (328 * c - 0.475) * D) by (apply Rmult_le_pos; lra).
  split; intros S1 S2; rewrite V, V'; apply M; try apply sin_elev_bound; try exact Q.
  - apply (climb_sine lat dec ha dec' ha' k D); try assumption; lra.
  - assert (NE : forall t h, sin_elev lat t h = sin_elev lat t (- h)) by (intros; unfold sin_elev; now rewrite cosd_opp).
    rewrite (NE dec'), (NE dec). rewrite (Rabs_minus_sym dec' dec) in L.
    replace (ha' - ha - 360 * D - 360 * IZR k) with (- ha - - ha' - 360 * D - 360 * IZR k) in K by ring.
    apply (climb_sine lat dec' (- ha') dec (- ha) k D); try assumption; rewrite ?sind_opp; lra.
Qed.
Lemma altitude_climbs d u d' u' lat lon el T P dec ha dec' ha' a a' c : instant d u -> instant d' u' -> in_range u = true -> in_range u' = true -> same_month u u' ->
  (u < u' < u + 43200000000)%Z -> -90 <= lat <= 90 -> -100000 <= el <= 100000 -> 180 <= T <= 340 -> 0 <= P <= 110000 ->
  get_topocentric_position (N := MathR) (Fin lat) (Fin lon) d (Fin el) = Ok (Fin dec, Fin ha) ->
  get_topocentric_position (N := MathR) (Fin lat) (Fin lon) d' (Fin el) = Ok (Fin dec', Fin ha') ->
  get_altitude (N := MathR) (Fin lat) (Fin lon) d (Fin el) (Fin T) (Fin P) = Ok (Fin a) ->
  get_altitude (N := MathR) (Fin lat) (Fin lon) d' (Fin el) (Fin T) (Fin P) = Ok (Fin a') -> 0.0015 <= c ->
  (cosd lat * sind ha <= - c -> cosd lat * sind ha' <= - c -> 0.7 * (328 * c - 0.475) * (IZR (u' - u) / 86400000000) <= a' - a) /\
  (c <= cosd lat * sind ha -> c <= cosd lat * sind ha' -> 0.7 * (328 * c - 0.475) * (IZR (u' - u) / 86400000000) <= a - a').
Proof.
  intros Hi Hi' Hr Hr' SM HU Hlat Hel HT HP E1 E3 A1 A2 Hc.
  pose proof (elevation_val lat dec ha) as E2. pose proof (elevation_val lat dec' ha') as E4.
  set (e := deg _) in E2. set (e' := deg _) in E4. clearbody e e'.
  destruct (climbs d u d' u' lat lon el dec ha e dec' ha' e' c Hi Hi' Hr Hr' SM HU Hlat Hel E1 E2 E3 E4 Hc) as [C1 C2].
  assert (HD : 0 < IZR (u' - u) / 86400000000).
  { rewrite minus_IZR. destruct HU as [U1 U2]. apply IZR_lt in U1. lra. }
  assert (Q : 0 < (328 * c - 0.475) * (IZR (u' - u) / 86400000000)) by (apply Rmult_lt_0_compat; lra).
  split; intros S1 S2.
  - specialize (C1 S1 S2).
    pose proof (altitude_order T P lat lon d el u dec ha e a lat lon d' el u' dec' ha' e' a' HT HP Hi Hr Hlat Hel Hi' Hr' Hlat Hel E1 E2 E3 E4 A1 A2 ltac:(lra)). lra.
  - specialize (C2 S1 S2).
    pose proof (altitude_order T P lat lon d' el u' dec' ha' e' a' lat lon d el u dec ha e a HT HP Hi' Hr' Hlat Hel Hi Hr Hlat Hel E3 E4 E1 E2 A2 A1 ltac:(lra)). lra.
Qed.

(* cases: the two poles on 21 June 2020, and a morning at the equator *)
Lemma order_case : exists dec ha E a dec' ha' E' a',
  get_topocentric_position (N := MathR) (Fin (-90)) (Fin 0) sample_dt (Fin 0) = Ok (Fin dec, Fin ha) /\
  get_topocentric_elevation_angle (N := MathR) (Fin (-90)) (Fin dec) (Fin ha) = Ok (Fin E) /\
  get_altitude (N := MathR) (Fin (-90)) (Fin 0) sample_dt (Fin 0) (Fin 288) (Fin 101325) = Ok (Fin a) /\
  get_topocentric_position (N := MathR) (Fin 90) (Fin 0) sample_dt (Fin 0) = Ok (Fin dec', Fin ha') /\
  get_topocentric_elevation_angle (N := MathR) (Fin 90) (Fin dec') (Fin ha') = Ok (Fin E') /\
  get_altitude (N := MathR) (Fin 90) (Fin 0) sample_dt (Fin 0) (Fin 288) (Fin 101325) = Ok (Fin a') /\
  -24 < E < -6 /\ 6 < E' < 24.
Proof.
  pose proof ApproxProofs.sample_1901 as U.
  destruct (poles sample_dt sample_u 173 17 0 0 0 sample_instant U sample_clock ltac:(lra)) as ((dec' & ha' & N1 & N2 & _) & (dec & ha & S1 & S2 & _)).
  destruct (seasons sample_dt sample_u 173 17 0 (-90) 0 0 dec ha sample_instant U sample_clock ltac:(lra) ltac:(lra) S1) as (_ & _ & S & _). specialize (S ltac:(lia)).
  destruct (seasons sample_dt sample_u 173 17 0 90 0 0 dec' ha' sample_instant U sample_clock ltac:(lra) ltac:(lra) N1) as (_ & _ & S' & _). specialize (S' ltac:(lia)).
  destruct (tropics sample_dt sample_u (-90) 0 0 dec ha (- dec) sample_instant U ltac:(lra) ltac:(lra) S1 S2) as (TD & _). apply Rabs_le_inv in TD.
  destruct (tropics sample_dt sample_u 90 0 0 dec' ha' dec' sample_instant U ltac:(lra) ltac:(lra) N1 N2) as (TD' & _). apply Rabs_le_inv in TD'.
  exists dec, ha, (- dec). eexists. exists dec', ha', dec'. eexists.
  split; [exact S1|]. split; [exact S2|]. split.
  { unfold get_altitude. rewrite (instant_aware _ _ sample_instant), bind_Ok, S1, bind_Ok, S2, bind_Ok, refraction_ok, bind_Ok, add_R by lra. reflexivity. }
  split; [exact N1|]. split; [exact N2|]. split.
  { unfold get_altitude. rewrite (instant_aware _ _ sample_instant), bind_Ok, N1, bind_Ok, N2, bind_Ok, refraction_ok, bind_Ok, add_R by lra. reflexivity. }
  lra.
Qed.
Lemma climb_case : exists u u' dec ha dec' ha', (u < u' < u + 43200000000)%Z /\ same_month u u' /\ in_range u = true /\ in_range u' = true /\
  get_topocentric_position (N := MathR) (Fin 0) (Fin 0) (at_utc u) (Fin 0) = Ok (Fin dec, Fin ha) /\
  get_topocentric_position (N := MathR) (Fin 0) (Fin 0) (at_utc u') (Fin 0) = Ok (Fin dec', Fin ha') /\
  cosd 0 * sind ha <= -0.0015 /\ cosd 0 * sind ha' <= -0.0015.
Proof.
  destruct (passes 737000 0 0 0 (-90) ltac:(lia) ltac:(lra) ltac:(lra)) as (u & U & H).
  destruct (H (at_utc u) (at_utc_instant u)) as (dec & ha & e & k & P1 & P2 & _ & _ & K).
  assert (Q : exists u', (737000 * 86400000000 <= u' < (737000 + 1) * 86400000000 /\ Z.abs (u' - u) = 7200000000)%Z).
  { destruct (Z.lt_ge_cases (u + 7200000000) ((737000 + 1) * 86400000000)); [exists (u + 7200000000)%Z|exists (u - 7200000000)%Z]; lia. }
  destruct Q as (u' & U' & A).
  assert (R : in_range u = true) by (apply (day_in_range 737000); lia). assert (R' : in_range u' = true) by (apply (day_in_range 737000); lia).
  pose proof (same_day_month 737000 u u' U U') as SM.
  destruct (sky (at_utc u') u' (at_utc_instant u') R') as (jd & jde & o & tt & _ & _ & _ & _ & _ & _ & S).
  destruct (S 0 0 0 ltac:(lra) ltac:(lra)) as (dec' & ha' & e' & k' & P3 & P4 & _).
  destruct (lipschitz _ _ u u' 0 0 0 dec ha dec' ha' e e' (at_utc_instant u) (at_utc_instant u') R R' SM ltac:(lra) ltac:(lra) P1 P2 P3 P4) as ((m & M) & _).
  assert (SH : sind ha <= -0.9).
  { replace (sind ha) with (sind (ha - 360 * IZR k)) by (apply same_angle_sin; exists (- k)%Z; rewrite opp_IZR; ring).
    apply Rabs_le_inv in K. assert (B : -91 <= ha - 360 * IZR k <= -89) by lra. revert B. generalize (ha - 360 * IZR k). clear. intros t B. unfold sind. interval with (i_bisect t). }
  assert (SH' : sind ha' <= -0.4).
  { replace (sind ha') with (sind (ha' - 360 * IZR m - 360 * IZR k)) by (apply same_angle_sin; exists (- m - k)%Z; rewrite minus_IZR, opp_IZR; ring).
    apply Rabs_le_inv in K. assert (E : IZR (u' - u) / 86400000000 = 2 / 24 \/ IZR (u' - u) / 86400000000 = - (2 / 24)).
    { assert (C : (u' - u = 7200000000 \/ u' - u = -7200000000)%Z) by lia. destruct C as [-> | ->]; [left|right]; lra. }
    assert (E' : Rabs (IZR (u' - u) / 86400000000) = 2 / 24) by (destruct E as [-> | ->]; [apply Rabs_pos_eq; lra|rewrite Rabs_Ropp; apply Rabs_pos_eq; lra]).
    rewrite E' in M. apply Rabs_le_inv in M. assert (B : -121 <= ha' - 360 * IZR m - 360 * IZR k <= -59) by (destruct E as [E|E]; rewrite E in M; lra).
    revert B. generalize (ha' - 360 * IZR m - 360 * IZR k). clear. intros t B. unfold sind. interval with (i_bisect t). }
  rewrite cosd_0. destruct (Z.lt_ge_cases u u').
  - exists u, u', dec, ha, dec', ha'. repeat (split; [assumption || lia|]). lra.
  - exists u', u, dec', ha', dec, ha. split; [lia|]. split; [intros y mm Hm; symmetry; now apply SM|]. repeat (split; [assumption|]). lra.
Qed.

Section F.
Context (L : libm) (HL : accurate L).
Lemma altitude_climbs64 d u d' u' lat lon el T P xT xP x y h dec ha E dec' ha' E' c :
  180 <= T <= 340 -> 0 <= P <= 110000 -> val xT T -> val xP P -> val x lat -> val y lon -> val h el ->
  -90 <= lat <= 90 -> -360 <= lon <= 360 -> -100000 <= el <= 100000 ->
  instant d u -> instant d' u' -> in_range u = true -> in_range u' = true -> same_month u u' -> (u < u' < u + 43200000000)%Z ->
  get_topocentric_position (N := MathR) (Fin lat) (Fin lon) d (Fin el) = Ok (Fin dec, Fin ha) ->
  get_topocentric_elevation_angle (N := MathR) (Fin lat) (Fin dec) (Fin ha) = Ok (Fin E) ->
  get_topocentric_position (N := MathR) (Fin lat) (Fin lon) d' (Fin el) = Ok (Fin dec', Fin ha') ->
  get_topocentric_elevation_angle (N := MathR) (Fin lat) (Fin dec') (Fin ha') = Ok (Fin E') ->
  ~ (-5.21 < E < -4.99) -> 1e-5 <= Rabs (E + 0.83337) -> Rabs E <= 89 ->
  ~ (-5.21 < E' < -4.99) -> 1e-5 <= Rabs (E' + 0.83337) -> Rabs E' <= 89 ->
  0.0015 <= c -> 8.1e-6 <= (328 * c - 0.475) * (IZR (u' - u) / 86400000000) ->
  exists q a q' a', get_altitude (N := B64 L) x y d h xT xP = Ok q /\ val q a /\ get_altitude (N := B64 L) x y d' h xT xP = Ok q' /\ val q' a' /\
    (cosd lat * sind ha <= - c -> cosd lat * sind ha' <= - c -> a < a') /\
    (c <= cosd lat * sind ha -> c <= cosd lat * sind ha' -> a' < a).
Proof.
  intros HT HP VT VP Vx Vy Vh Hlat Hlon Hel Hi Hi' Hr Hr' SM HU E1 E2 E3 E4 N1 G1 M1 N2 G2 M2 Hc HD.
  destruct (climbs d u d' u' lat lon el dec ha E dec' ha' E' c Hi Hi' Hr Hr' SM HU Hlat Hel E1 E2 E3 E4 Hc) as [C1 C2].
  destruct (altitude_accuracy64 L HL lat lon el x y h d u xT T xP P dec ha E Hi Hr Vx Vy Vh Hlat Hlon Hel VT VP HT HP E1 E2 N1 G1)
    as [(q & a & _ & Q & V & _)|(_ & D1)]; [|exfalso; lra].
  destruct (altitude_accuracy64 L HL lat lon el x y h d' u' xT T xP P dec' ha' E' Hi' Hr' Vx Vy Vh Hlat Hlon Hel VT VP HT HP E3 E4 N2 G2)
    as [(q' & a' & _ & Q' & V' & _)|(_ & D1)]; [|exfalso; lra].
  assert (J : forall p b b', val p b -> val p b' -> b = b') by (intros p b b' [_ <-] [_ <-]; reflexivity).
  exists q, a, q', a'. repeat (split; [assumption|]). split; intros S1 S2.
  - specialize (C1 S1 S2).
    destruct (altitude_order64 L HL T P xT xP lat lon d el u x y h dec ha E lat lon d' el u' x y h dec' ha' E' HT HP VT VP Hi Hr Vx Vy Vh Hlat Hlon Hel
      Hi' Hr' Vx Vy Vh Hlat Hlon Hel E1 E2 E3 E4 N1 G1 M1 N2 G2 M2 ltac:(lra)) as (q1 & a1 & q2 & a2 & R1 & W1 & R2 & W2 & O).
    rewrite Q in R1. rewrite Q' in R2. apply Ok_inj in R1, R2. subst q1 q2. rewrite (J _ _ _ V W1), (J _ _ _ V' W2). exact O.
  - specialize (C2 S1 S2).
    destruct (altitude_order64 L HL T P xT xP lat lon d' el u' x y h dec' ha' E' lat lon d el u x y h dec ha E HT HP VT VP Hi' Hr' Vx Vy Vh Hlat Hlon Hel
      Hi Hr Vx Vy Vh Hlat Hlon Hel E3 E4 E1 E2 N2 G2 M2 N1 G1 M1 ltac:(lra)) as (q1 & a1 & q2 & a2 & R1 & W1 & R2 & W2 & O).
    rewrite Q' in R1. rewrite Q in R2. apply Ok_inj in R1, R2. subst q1 q2. rewrite (J _ _ _ V' W1), (J _ _ _ V W2). exact O.
Qed.
End F.

(* How the computed elevation and hour angle change with the place: antipodes, moving observers. *)
From Coq Require Import Reals Qreals Lra Lia List Psatz.
From Flocq Require Import Core.
From Interval Require Import Tactic.
From Verif Require Import Py Num Cal TzCheck Clock Tables Constants SolarTime Solar RInst RTac SpecTime SpecDt SpecGeom SpecAstro SpecEng
  Trig GeoProofs SeriesProofs SolarTimeProofs JulianProofs PositionProofs SpaProofs TopoProofs AngleLip B64Ranges B64Final Samples ApproxProofs.
Import ListNotations.
Local Open Scope R_scope.

(* the hour angle of the geocentric sun, not reduced *)
Definition geo_H (lon jd jde : R) : R := app_sid jd jde + lon - sun_alpha jde.
Definition geo_e (lat lon jd jde : R) : R := deg (asin (sin_elev lat (sun_delta jde) (geo_H lon jd jde))).

Lemma delta_range jde : 1721425 < jde < 5373485 -> -90 < sun_delta jde < 90.
Proof.
  intros BJ. pose proof (cos_delta_bound jde BJ) as CD.
  assert (B : -90 <= sun_delta jde <= 90) by (unfold sun_delta; apply deg_asin_range).
  split; [destruct (proj1 B) as [|E]; [assumption|] | destruct (proj2 B) as [|E]; [assumption|]]; exfalso.
  - rewrite <- E in CD. unfold cosd in CD. replace (-90 * PI / 180) with (- (PI / 2)) in CD by field. rewrite cos_neg, cos_PI2 in CD. lra.
  - rewrite E in CD. unfold cosd in CD. replace (90 * PI / 180) with (PI / 2) in CD by field. rewrite cos_PI2 in CD. lra.
Qed.

(* everything about the sky at an instant but the place *)
Lemma sky d u : instant d u -> in_range u = true -> exists jd jde o tt,
  jd = jd_utc u + o / 86400 /\ -1.9 <= o <= 2.2 /\ jde = jd_utc u + tt / 86400 /\ 42 <= tt <= 69.2 /\
  1721425 < jd < 5373485 /\ 1721425 < jde < 5373485 /\
  forall lat lon el, -90 <= lat <= 90 -> -100000 <= el <= 100000 -> exists dec ha e (k : Z),
    get_topocentric_position (N := MathR) (Fin lat) (Fin lon) d (Fin el) = Ok (Fin dec, Fin ha) /\
    get_topocentric_elevation_angle (N := MathR) (Fin lat) (Fin dec) (Fin ha) = Ok (Fin e) /\
    e = deg (asin (sin_elev lat dec ha)) /\
    -0.0048 <= dec - sun_delta jde <= 0.0048 /\ -0.003 <= ha - geo_H lon jd jde - 360 * IZR k <= 0.003 /\
    Rabs (e - geo_e lat lon jd jde) <= 0.0078.
Proof.
  intros Hi Hr. pose proof (tai_range u) as [T1 T2]. apply IZR_le in T1, T2.
  pose proof (adj_ok (f_year (fields_of_us u)) (f_mon (fields_of_us u)) (fields_mon_range u)) as A.
  destruct (next_ym (f_year (fields_of_us u)) (f_mon (fields_of_us u))) as [y' m']. destruct A as (_ & A1 & A2).
  apply Qle_Rle in A1, A2. replace (Q2R (-34)) with (-34) in A1 by (unfold Q2R; simpl; lra).
  replace (Q2R (-30)) with (-30) in A2 by (unfold Q2R; simpl; lra).
  pose proof (jd_off d u Hi Hr) as F1. pose proof (jde_val d u Hi Hr) as F2.
  set (o := Q2R (off_q (f_year (fields_of_us u)) (f_mon (fields_of_us u))) + 32.184) in *. set (tt := IZR (tai_minus_utc u) + 32.184) in *.
  exists (jd_utc u + o / 86400), (jd_utc u + tt / 86400), o, tt. pose proof (jd_utc_range u Hr) as J.
  split; [reflexivity|]. split; [unfold o; lra|]. split; [reflexivity|]. split; [unfold tt; lra|].
  split; [unfold o; lra|]. split; [unfold tt; lra|].
  intros lat lon el Hlat Hel.
  destruct (position_val lat lon d el u Hi Hr Hlat ltac:(lra)) as (x & y & jd & jde & x0 & y0 & E1 & E2 & B1 & B2 & EP & -> & -> & E & _).
  rewrite F1 in E1. rewrite F2 in E2. apply Ok_inj in E1, E2. injection E1 as <-. injection E2 as <-.
  set (jd := jd_utc u + o / 86400) in *. set (jde := jd_utc u + tt / 86400) in *.
  destruct (observer_bounds lat el x0 y0 EP Hel) as [BX BY].
  set (x := x0 + el / 6378140 * cosd lat) in *. set (y := y0 + el / 6378140 * sind lat) in *.
  destruct (parallax_small x y (lib_H lon jd jde) (lib_par jde) (sun_delta jde) BX BY ltac:(pose proof (sin_par_bound jde B2); lra) (cos_delta_bound jde B2) (delta_range jde B2)) as [PA PD].
  destruct (Rfmod_eq (app_sid jd jde + lon - sun_alpha jde) 360) as (k4 & K4).
  exists (topo_dec lon x y jd jde), (topo_H lon x jd jde). eexists. exists (- k4)%Z. split; [exact E|]. split; [apply elevation_val|]. split; [reflexivity|].
  assert (D : -0.0048 <= topo_dec lon x y jd jde - sun_delta jde <= 0.0048) by (unfold topo_dec; lra).
  assert (H : -0.003 <= topo_H lon x jd jde - geo_H lon jd jde - 360 * IZR (- k4) <= 0.003).
  { unfold topo_H. set (da := lib_dalpha _ _ _ _) in *. unfold lib_H, geo_H. rewrite K4, opp_IZR. lra. }
  split; [exact D|]. split; [exact H|].
  unfold geo_e. eapply Rle_trans; [apply (elevation_lip lat _ _ _ _ (- k4))|].
  assert (D' : Rabs (topo_dec lon x y jd jde - sun_delta jde) <= 0.0048) by (apply Rabs_le; lra).
  assert (H' : Rabs (topo_H lon x jd jde - geo_H lon jd jde - 360 * IZR (- k4)) <= 0.003) by (apply Rabs_le; lra). lra.
Qed.

(* ---------------------------------------------------------------- antipodes *)
Lemma sin_elev_antipode lat d h (k : Z) : sin_elev (- lat) d (h + 180 + 360 * IZR k) = - sin_elev lat d h.
Proof.
  rewrite sin_elev_turns. unfold sin_elev. rewrite sind_opp, cosd_opp.
  assert (E : cosd (h + 180) = - cosd h) by (unfold cosd; replace ((h + 180) * PI / 180) with (h * PI / 180 + PI) by field; apply neg_cos).
  rewrite E. ring.
Qed.
Lemma antipode d u lat lon el el' e e' dec ha dec' ha' : instant d u -> in_range u = true -> -90 <= lat <= 90 ->
  -100000 <= el <= 100000 -> -100000 <= el' <= 100000 ->
  get_topocentric_position (N := MathR) (Fin lat) (Fin lon) d (Fin el) = Ok (Fin dec, Fin ha) ->
  get_topocentric_elevation_angle (N := MathR) (Fin lat) (Fin dec) (Fin ha) = Ok (Fin e) ->
  get_topocentric_position (N := MathR) (Fin (- lat)) (Fin (lon + 180)) d (Fin el') = Ok (Fin dec', Fin ha') ->
  get_topocentric_elevation_angle (N := MathR) (Fin (- lat)) (Fin dec') (Fin ha') = Ok (Fin e') ->
  Rabs (e + e') <= 0.016.
Proof.
  intros Hi Hr Hlat Hel Hel' E1 E2 E3 E4. destruct (sky d u Hi Hr) as (jd & jde & o & tt & _ & _ & _ & _ & _ & _ & S).
  destruct (S lat lon el Hlat Hel) as (d1 & h1 & e1 & k1 & F1 & F2 & _ & _ & _ & B1).
  destruct (S (- lat) (lon + 180) el' ltac:(lra) Hel') as (d2 & h2 & e2 & k2 & F3 & F4 & _ & _ & _ & B2).
  rewrite F1 in E1. apply Ok_inj in E1. injection E1 as <- <-. rewrite F3 in E3. apply Ok_inj in E3. injection E3 as <- <-.
  rewrite F2 in E2. apply Ok_inj in E2. injection E2 as <-. rewrite F4 in E4. apply Ok_inj in E4. injection E4 as <-.
  assert (G : geo_e (- lat) (lon + 180) jd jde = - geo_e lat lon jd jde).
  { unfold geo_e. replace (geo_H (lon + 180) jd jde) with (geo_H lon jd jde + 180 + 360 * IZR 0) by (unfold geo_H; simpl; lra).
    rewrite sin_elev_antipode, asin_opp. unfold deg. ring. }
  rewrite G in B2. apply Rabs_le_inv in B1, B2. apply Rabs_le. lra.
Qed.

(* ---------------------------------------------------------------- moving observers *)
Lemma spherical_unit a b : dot (spherical a b) (spherical a b) = 1.
Proof. unfold dot, spherical. pose proof (sincosd a) as A. pose proof (sincosd b) as B. 
  transitivity (cosd b * cosd b * (sind a * sind a + cosd a * cosd a) + sind b * sind b); [ring|]. replace (sind a * sind a + cosd a * cosd a) with 1 by lra. lra. Qed.
Lemma sin_elev_dot lat lon d s a : sin_elev lat d (s + lon - a) = dot (spherical (s + lon) lat) (spherical a d).
Proof. unfold sin_elev, dot, spherical. rewrite cosd_minus. ring. Qed.
Lemma spherical_turn s lon lon' lat lat' : dot (spherical (s + lon) lat) (spherical (s + lon') lat') = dot (spherical lon lat) (spherical lon' lat').
Proof.
  unfold dot, spherical.
  transitivity (cosd lat * cosd lat' * cosd (s + lon - (s + lon')) + sind lat * sind lat'); [rewrite cosd_minus; ring|].
  replace (s + lon - (s + lon')) with (lon - lon') by ring. rewrite cosd_minus. ring.
Qed.
Lemma moved d u lat lon el lat' lon' el' e e' dec ha dec' ha' g : instant d u -> in_range u = true ->
  -90 <= lat <= 90 -> -90 <= lat' <= 90 -> -100000 <= el <= 100000 -> -100000 <= el' <= 100000 ->
  0 <= g <= 180 -> cosd g = dot (spherical lon lat) (spherical lon' lat') ->
  get_topocentric_position (N := MathR) (Fin lat) (Fin lon) d (Fin el) = Ok (Fin dec, Fin ha) ->
  get_topocentric_elevation_angle (N := MathR) (Fin lat) (Fin dec) (Fin ha) = Ok (Fin e) ->
  get_topocentric_position (N := MathR) (Fin lat') (Fin lon') d (Fin el') = Ok (Fin dec', Fin ha') ->
  get_topocentric_elevation_angle (N := MathR) (Fin lat') (Fin dec') (Fin ha') = Ok (Fin e') ->
  Rabs (e - e') <= g + 0.016.
Proof.
  intros Hi Hr Hlat Hlat' Hel Hel' Hg Cg E1 E2 E3 E4. destruct (sky d u Hi Hr) as (jd & jde & o & tt & _ & _ & _ & _ & _ & _ & S).
  destruct (S lat lon el Hlat Hel) as (d1 & h1 & e1 & k1 & F1 & F2 & _ & _ & _ & B1).
  destruct (S lat' lon' el' Hlat' Hel') as (d2 & h2 & e2 & k2 & F3 & F4 & _ & _ & _ & B2).
  rewrite F1 in E1. apply Ok_inj in E1. injection E1 as <- <-. rewrite F3 in E3. apply Ok_inj in E3. injection E3 as <- <-.
  rewrite F2 in E2. apply Ok_inj in E2. injection E2 as <-. rewrite F4 in E4. apply Ok_inj in E4. injection E4 as <-.
  assert (G : Rabs (geo_e lat lon jd jde - geo_e lat' lon' jd jde) <= g).
  { set (s := app_sid jd jde). set (n := spherical (sun_alpha jde) (sun_delta jde)).
    apply (elevation_within (spherical (s + lon') lat') (spherical (s + lon) lat) n g).
    - apply spherical_unit.
    - apply spherical_unit.
    - apply spherical_unit.
    - exact Hg.
    - rewrite spherical_turn. lra.
    - apply deg_asin_range.
    - apply deg_asin_range.
    - unfold geo_e, geo_H. rewrite sind_deg, sin_asin by apply sin_elev_bound. apply sin_elev_dot.
    - unfold geo_e, geo_H. rewrite sind_deg, sin_asin by apply sin_elev_bound. apply sin_elev_dot. }
  apply Rabs_le_inv in B1, B2, G. apply Rabs_le. lra.
Qed.

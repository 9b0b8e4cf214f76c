(* The assertions of the test suite hold in binary64 with any accurate C library: each test is run in the
   interval calculator of Encl.v, whose enclosures EnclSound.v proves. *)
From Coq Require Import Reals Qreals Lra Lia ZArith Bool List.
From Flocq Require Import Core IEEE754.BinarySingleNaN.
From Interval Require Import Tactic.
From Verif Require Import Py Num Cal TzCheck Clock Constants SolarTime Solar Elevation Simulate RInst IrradianceProofs GenProofs
  B64 SpecB64 B64Lemmas B64Ranges B64Elev Rel Absint AbsintSound Encl EnclSin EnclSound Tests SpecTests.
Local Open Scope R_scope.

Definition d1 : datetime := {| dt_local := 63202015830357500; dt_fold := false; dt_tz := Some (fixed_tz 0) |}.
Lemma setup_date_is L : setup_date L = Ok d1.
Proof. vm_compute. reflexivity. Qed.

Definition chk (x : assertion EN) : bool :=
  match x with
  | Places a b n => match bounds (e_sub a b) with Some (l, h) => Z.max (Z.abs l) (Z.abs h) * (2 * 10 ^ Z.of_nat n) <=? S80 | None => false end
  | Delta a b d => match bounds (e_sub a b), bounds d with Some (l, h), Some (l', _) => Z.max (Z.abs l) (Z.abs h) <=? l' | _, _ => false end
  end%Z.
Definition chks (r : res (list (assertion EN))) : bool := match r with Ok l => forallb chk l | Err _ => false end.

(* both comparisons of the two loops, from one position *)
Definition fast_both {N : Num} (w : datetime) : res (list (assertion N)) :=
  al <- get_altitude_fast (C := clock_math N) (lit (-43)) (lit 172) w ;;
  az <- get_azimuth_fast (C := clock_math N) (lit (-43)) (lit 172) w ;;
  p <- get_position_default (lit (-43)) (lit 172) w ;;
  Ok [ Delta al (snd p) (lit 1); Delta az (fst p) (lit 1.5) ].

Section S.
Context (L : libm) (HL : accurate L).
Notation N := (B64 L).

Definition clock_en : ClockRel (encl L HL) (clock_math EN) (clock_math N).
Proof.
  refine {| rD := fun (d : D (clock_math EN)) (d' : D (clock_math N)) => d = d' |}.
  all: intros d ? <-.
  1: apply relres_refl.
  all: cbn [clock_math tm_yday tm_hour tm_min].
  all: eapply relres_rmap; [apply relres_refl|]; intros a ? <-; apply ofZ_rel.
Defined.

Definition rass (x : assertion EN) (y : assertion N) : Prop :=
  match x, y with
  | Places a b n, Places a' b' n' => sate a a' /\ sate b b' /\ n = n'
  | Delta a b d, Delta a' b' d' => sate a a' /\ sate b b' /\ sate d d'
  | _, _ => False
  end.

Lemma sub_bound a b x y l h : sate a x -> sate b y -> bounds (e_sub a b) = Some (l, h) ->
  exists v, val (Bminus mode_NE x y) v /\ Rabs v <= zs (Z.max (Z.abs l) (Z.abs h)).
Proof.
  intros A B E. destruct (bounds_ok _ _ _ _ (sub_ok _ _ _ _ A B) E) as (v & V & H). exists v. split; [exact V|].
  assert (I1 : zs (Z.abs h) <= zs (Z.max (Z.abs l) (Z.abs h))) by (apply zs_le; lia).
  assert (I2 : zs h <= zs (Z.abs h)) by (apply zs_le; lia).
  assert (I3 : zs (- Z.max (Z.abs l) (Z.abs h)) <= zs l) by (apply zs_le; lia).
  rewrite zs_opp in I3. apply Rabs_le. lra.
Qed.
Lemma chk_ok x y : rass x y -> chk x = true -> holds L y.
Proof.
  destruct x as [a b n|a b d], y as [a' b' n'|a' b' d']; cbn [rass]; try contradiction; intros (A & B & C); cbn [chk holds].
  - subst n'. destruct (bounds (e_sub a b)) as [[l h]|] eqn:E; [|discriminate]. intros Q. apply Z.leb_le in Q.
    destruct (sub_bound _ _ _ _ _ _ A B E) as (v & V & H). exists v. split; [exact V|]. eapply Rle_trans; [exact H|].
    apply IZR_le in Q. rewrite !mult_IZR, <- pow_IZR in Q. unfold zs.
    assert (P : 0 < 10 ^ n) by (apply pow_lt; lra). assert (PS : 0 < IZR S80) by (apply IZR_lt; reflexivity).
    set (m := IZR (Z.max _ _)) in *. clearbody m. set (s := IZR S80) in *. clearbody s.
    apply (Rmult_le_reg_r (s * (2 * 10 ^ n))); [nra|]. replace (m / s * (s * (2 * 10 ^ n))) with (m * (2 * 10 ^ n)) by (field; lra).
    replace (/ (2 * 10 ^ n) * (s * (2 * 10 ^ n))) with s by (field; lra). exact Q.
  - destruct (bounds (e_sub a b)) as [[l h]|] eqn:E; [|discriminate]. destruct (bounds d) as [[l' h']|] eqn:E'; [|discriminate].
    intros Q. apply Z.leb_le, zs_le in Q. destruct (sub_bound _ _ _ _ _ _ A B E) as (v & V & H).
    destruct (bounds_ok _ _ _ _ C E') as (w & W & H'). exists v, w. split; [exact V|]. split; [exact W|]. lra.
Qed.
Lemma chks_ok t t' : relres (Forall2 rass) t t' -> chks t = true -> passes L t'.
Proof.
  intros R C. destruct t as [l|]; [|discriminate]. destruct (R l eq_refl) as (l' & E & F). exists l'. split; [exact E|].
  cbn [chks] in C. clear E R. revert C. induction F as [|x y l l' X F IH]; [constructor|]. cbn [forallb].
  intros C. apply andb_true_iff in C as [C1 C2]. constructor; [exact (chk_ok _ _ X C1)|exact (IH C2)].
Qed.

Hint Resolve r_lit r_inf r_add r_sub r_mul r_neg r_div r_fmod get_julian_solar_day_rel get_julian_ephemeris_day_rel
  get_julian_century_rel get_julian_ephemeris_century_rel get_julian_ephemeris_millennium_rel
  get_geocentric_longitude_rel get_geocentric_latitude_rel get_nutation_rel get_sun_earth_distance_rel
  get_true_ecliptic_obliquity_rel get_aberration_correction_rel get_apparent_sun_longitude_rel
  get_apparent_sidereal_time_rel get_geocentric_sun_right_ascension_rel get_geocentric_sun_declination_rel
  get_local_hour_angle_rel get_equatorial_horizontal_parallax_rel get_projected_radial_distance_rel
  get_projected_axial_distance_rel get_topocentric_sun_right_ascension_rel get_parallax_sun_right_ascension_rel
  get_topocentric_sun_declination_rel get_topocentric_local_hour_angle_rel get_topocentric_zenith_angle_rel
  get_topocentric_azimuth_angle_rel get_incidence_angle_rel get_position_rel get_altitude_rel get_azimuth_rel : rel.
Notation r := (rT EN N (encl L HL)).
Lemma rplaces a a' b b' n : r a a' -> r b b' -> rass (Places a b n) (Places a' b' n).
Proof. intros A B. split; [exact A|]. split; [exact B|reflexivity]. Qed.
Lemma rdelta a a' b b' d d' : r a a' -> r b b' -> r d d' -> rass (Delta a b d) (Delta a' b' d').
Proof. intros A B C. split; [exact A|]. split; [exact B|exact C]. Qed.
Ltac rel_step :=
  match goal with
  | |- relres _ (Ok _) (Ok _) => apply relres_Ok
  | |- relres _ (bind _ _) (bind _ _) => eapply relres_bind; [ solve [eauto 25 with rel nocore] | intros ? ? ? ]
  | |- Forall2 rass [] [] => constructor
  | |- Forall2 rass (_ :: _) (_ :: _) => constructor
  | |- rass (Places _ _ _) (Places _ _ _) => apply rplaces
  | |- rass (Delta _ _ _) (Delta _ _ _) => apply rdelta
  | |- rT _ _ _ _ _ => solve [ eauto 25 with rel nocore ]
  end.

Lemma test_solar_rel d : relres (Forall2 rass) (test_solar d) (test_solar d).
Proof.
  unfold test_solar. cbv zeta. repeat rel_step.
  all: match goal with H : rnut _ _ _ |- _ => destruct H as [? ?]; assumption end.
Qed.
Lemma get_position_default_rel lat lat' lon lon' w : r lat lat' -> r lon lon' ->
  relres (relprod r r) (get_position_default lat lon w) (get_position_default lat' lon' w).
Proof. intros A B. unfold get_position_default. apply get_position_rel; try assumption; apply r_lit. Qed.
Hint Resolve get_position_default_rel : rel.
Lemma test_get_position_rel : relres (Forall2 rass) test_get_position test_get_position.
Proof. unfold test_get_position. repeat rel_step. all: match goal with H : relprod _ _ ?p _ |- r (_ ?p) _ => apply H end. Qed.
Lemma test_hour_angle_rel : relres (Forall2 rass) test_hour_angle test_hour_angle.
Proof.
  unfold test_hour_angle. cbv zeta. eapply relres_bind; [apply (get_hour_angle_rel (encl L HL) clock_en); [apply r_lit|reflexivity]|]. intros ? ? ?.
  repeat rel_step.
Qed.
Lemma fast_both_rel w : relres (Forall2 rass) (fast_both w) (fast_both w).
Proof.
  unfold fast_both.
  eapply relres_bind; [apply (get_altitude_fast_rel (encl L HL) clock_en); [apply r_lit|apply r_lit|reflexivity]|]. intros ? ? ?.
  eapply relres_bind; [apply (get_azimuth_fast_rel (encl L HL) clock_en); [apply r_lit|apply r_lit|reflexivity]|]. intros ? ? ?.
  repeat rel_step. all: match goal with H : relprod _ _ ?p _ |- r (_ ?p) _ => apply H end.
Qed.
End S.

Lemma solar_run : chks (test_solar d1) = true. Proof. vm_cast_no_check (eq_refl true). Qed.
Lemma position_run : chks test_get_position = true. Proof. vm_cast_no_check (eq_refl true). Qed.
Lemma hour_angle_run : chks test_hour_angle = true. Proof. vm_cast_no_check (eq_refl true). Qed.
Definition hours : list Z := [7; 8; 9; 10; 11; 12; 13; 14; 15; 16; 17; 18]%Z.
Lemma fast_run : forallb (fun h => match test_hour h with Ok w => chks (fast_both w) | Err _ => false end) hours = true.
Proof. vm_cast_no_check (eq_refl true). Qed.

Section T.
Context (L : libm) (HL : accurate L).
Notation N := (B64 L).

Lemma test_solar_ok : passes L (test_solar d1).
Proof. exact (chks_ok L _ _ (test_solar_rel L HL d1) solar_run). Qed.
Lemma test_get_position_ok : passes L test_get_position.
Proof. exact (chks_ok L _ _ (test_get_position_rel L HL) position_run). Qed.
Lemma test_hour_angle_ok : passes L test_hour_angle.
Proof. exact (chks_ok L _ _ (test_hour_angle_rel L HL) hour_angle_run). Qed.

Lemma position_default lat lon w p : get_position_default (N := N) lat lon w = Ok p ->
  get_altitude_default lat lon w = Ok (snd p) /\ get_azimuth_default lat lon w = Ok (fst p).
Proof.
  unfold get_position_default, get_altitude_default, get_azimuth_default. rewrite position_pair.
  destruct (get_altitude _ _ _ _ _ _) as [h|]; [|discriminate]. destruct (get_azimuth _ _ _ _) as [a|]; [|discriminate].
  intros E. apply Ok_inj in E. subst p. split; reflexivity.
Qed.

Lemma test_get_both_ok : passes L test_get_altitude /\ passes L test_get_azimuth.
Proof.
  destruct test_get_position_ok as (l & E & F). unfold test_get_position in E.
  apply bind_eq_Ok in E as (p & _ & E). apply bind_eq_Ok in E as (q & EQ & E). apply bind_eq_Ok in E as (s & _ & E).
  apply Ok_inj in E. subst l. apply position_default in EQ as [E1 E2].
  unfold test_get_altitude, test_get_azimuth. rewrite E1, E2. cbn [bind].
  inversion_clear F as [|? ? _ F1]. inversion_clear F1 as [|? ? _ F]. inversion_clear F as [|? ? Q1 F1]. inversion_clear F1 as [|? ? Q2 _].
  split; eexists; (split; [reflexivity|]); constructor; try constructor; assumption.
Qed.

Lemma fast_both_ok h : In h hours -> exists w, test_hour h = Ok w /\ passes L (altitude_fast_body w) /\ passes L (azimuth_fast_body w).
Proof.
  intros I. pose proof fast_run as Q. rewrite forallb_forall in Q. specialize (Q h I). destruct (test_hour h) as [w|]; [|discriminate].
  exists w. split; [reflexivity|]. destruct (chks_ok L _ _ (fast_both_rel L HL w) Q) as (l & E & F). clear Q.
  unfold fast_both in E. apply bind_eq_Ok in E as (al & A & E). apply bind_eq_Ok in E as (az & B & E). apply bind_eq_Ok in E as (p & P & E).
  apply Ok_inj in E. subst l. apply position_default in P as [P1 P2]. unfold altitude_fast_body, azimuth_fast_body.
  rewrite A, B, P1, P2. cbn [bind]. inversion_clear F as [|? ? Q1 F1]. inversion_clear F1 as [|? ? Q2 _].
  split; eexists; (split; [reflexivity|]); constructor; try constructor; assumption.
Qed.
Lemma over_hours_ok body : (forall h, In h hours -> exists w, test_hour h = Ok w /\ passes L (body w)) -> passes L (over_hours body).
Proof.
  unfold over_hours. change [7; 8; 9; 10; 11; 12; 13; 14; 15; 16; 17; 18]%Z with hours. generalize hours. intros hs.
  induction hs as [|h hs IH]; intros H; [exists []; split; [reflexivity|constructor]|].
  destruct (H h) as (w & E & l & EB & F); [now left|]. destruct IH as (l' & E' & F'); [intros; apply H; now right|].
  cbn [fold_right]. rewrite E. cbn [bind]. rewrite EB. cbn [bind]. rewrite E'. cbn [bind]. exists (l ++ l')%list. split; [reflexivity|].
  apply Forall_app. now split.
Qed.
Lemma test_fast_ok : passes L test_get_altitude_fast /\ passes L test_get_azimuth_fast.
Proof. split; apply over_hours_ok; intros h I; destruct (fast_both_ok h I) as (w & E & A & B); exists w; auto. Qed.
End T.

Section E.
Context (L : libm) (HL : accurate L).
Notation N := (B64 L).
(* the pressure, by the accuracy of the power function *)
Lemma pressure_box : exists q, pressure_default (N := N) (lit 1567.7) = Ok q /\ sate (Iv (8385590226 * S80 / 100000) (8385590230 * S80 / 100000 + 1)) q.
Proof.
  assert (V : val (flit 1567.7) (rnd 1567.7)).
  { apply (val_lit 1567.7). rewrite Rabs_pos_eq by lra. apply Rle_trans with (bpow radix2 11); [simpl; lra|apply bpow_le; lia]. }
  assert (B : Rabs (rnd 1567.7 - 1567.7) <= 1e-12) by (eapply Rle_trans; [apply rnd_rel|]; simpl bpow; interval).
  set (h := rnd 1567.7) in *. clearbody h. apply Rabs_le_inv in B.
  destruct (elevation64 L HL (flit 1567.7) h V ltac:(lra)) as (q & p & p' & w & E & _ & VP & EP & _ & AP & _).
  unfold pressure_default, get_pressure_with_elevation in EP. rewrite pressure_default_val in EP by lra. cbn [rmap bind fst] in EP. apply Ok_inj in EP.
  assert (EP' : p' = standard_atmosphere h) by congruence. clear EP.
  exists q. split. { unfold pressure_default, get_pressure_with_elevation. change (lit (n := N) 1567.7) with (flit 1567.7). rewrite E. reflexivity. }
  assert (P' : 83855.90227 <= p' <= 83855.90229).
  { rewrite EP'. unfold standard_atmosphere, Rpower.
    replace h with (1567.7 + (h - 1567.7)) by ring. assert (I : -1e-12 <= h - 1567.7 <= 1e-12) by lra.
    revert I. generalize (h - 1567.7). clear. intros e I. split; interval with (i_prec 120). }
  assert (P2 : 83855.90226 <= p <= 83855.9023) by (apply Rabs_le_inv in AP; lra).
  exists p. split; [exact VP|]. unfold zs.
  pose proof (floor_le (8385590226 * S80) 100000 eq_refl) as K1. pose proof (floor_gt (8385590230 * S80) 100000 eq_refl) as K2.
  rewrite mult_IZR in K1, K2. rewrite plus_IZR. set (k1 := IZR (_ / _)) in *. set (k2 := IZR (_ / _)) in *.
  clearbody k1 k2. pose proof S80_pos as PS. set (s := IZR S80) in *. clearbody s. split.
  - apply (Rmult_le_reg_r s); [exact PS|]. unfold Rdiv. rewrite Rmult_assoc, Rinv_l by lra. nra.
  - apply (Rmult_le_reg_r s); [exact PS|]. unfold Rdiv. rewrite Rmult_assoc, Rinv_l by lra. nra.
Qed.
Lemma elevation_run :
  forallb chk [ Places (lit (n := EN) 83855.90228) (Iv (8385590226 * S80 / 100000) (8385590230 * S80 / 100000 + 1)) 4;
                Places (lit (n := EN) 277.9600) (temperature_default (N := EN) (lit 1567.7)) 4 ] = true.
Proof. vm_cast_no_check (eq_refl true). Qed.
Lemma test_elevation_ok : passes L test_elevation.
Proof.
  destruct pressure_box as (q & E & B). unfold test_elevation. rewrite E. cbn [bind]. eexists. split; [reflexivity|].
  pose proof elevation_run as R. cbn [forallb] in R. apply andb_true_iff in R as [R1 R2]. apply andb_true_iff in R2 as [R2 _].
  constructor; [|constructor; [|constructor]].
  - refine (chk_ok L _ _ _ R1). split; [reflexivity|]. split; [exact B|reflexivity].
  - refine (chk_ok L _ _ _ R2). split; [reflexivity|]. split; [|reflexivity].
    unfold temperature_default, get_temperature_with_elevation. apply add_ok; [reflexivity|]. apply mul_ok; reflexivity.
Qed.
End E.

Lemma suite_ok (L : libm) : accurate L ->
  (exists d, setup_date L = Ok d /\ passes L (test_solar d)) /\ passes L test_elevation /\ passes L test_get_position /\
  passes L test_get_altitude /\ passes L test_get_azimuth /\ passes L test_get_altitude_fast /\ passes L test_get_azimuth_fast /\
  passes L test_hour_angle.
Proof.
  intros HL. split; [exists d1; split; [apply setup_date_is|now apply test_solar_ok]|]. split; [now apply test_elevation_ok|].
  split; [now apply test_get_position_ok|]. destruct (test_get_both_ok L HL) as [A B]. destruct (test_fast_ok L HL) as [C D].
  repeat (split; [assumption|]). now apply test_hour_angle_ok.
Qed.

Lemma one_is_not_zero L : ~ holds L (Places (N := B64 L) (flit 1) (flit 0) 0).
Proof.
  intros (v & V & H). change (val (Bminus mode_NE (flit 1) (flit 0)) v) in V.
  assert (E : val (Bminus mode_NE (flit 1) (flit 0)) 1) by (split; [reflexivity|vm_compute; lra]).
  assert (W : v = 1) by (destruct V as [_ <-]; destruct E as [_ ->]; reflexivity). rewrite W, Rabs_R1 in H. simpl in H. lra.
Qed.

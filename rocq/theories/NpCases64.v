(* The numpy back end in binary64: arrays never raise, accuracy, the irradiance at altitude -0.0, and a
   C library with the assumed properties. *)
From Coq Require Import Reals QArith Qreals Lra Lia List.
From Flocq Require Import Core IEEE754.BinarySingleNaN.
From Verif Require Import Py Num Cal TzCheck Clock RInst Rel RelInst Constants SolarTime Solar Radiation SpecTime SpecDt SpecEng SpecGeom SpecAstro GenProofs SolarTimeProofs PositionProofs FastProofs BackendProofs RadiationProofs
  B64 SpecB64 B64Lemmas B64Witness B64Ranges B64Lift B64Final B64Fast B64Rad B64Np SpecNp NpProofs64.
Import ListNotations.
Local Open Scope R_scope.

(* ---- arrays never raise, whatever the library and the elements *)
Lemma rel_any {A B} (m : res A) (b : B) : relres (fun _ _ => True) m (Ok b).
Proof. intros a _. exists b. auto. Qed.
Definition any_arr (I : Type) (L : libm) : NumRel MathR (Arr64 I L).
Proof.
  refine {| rT := (fun _ _ => True) : T MathR -> T (Arr64 I L) -> Prop; rB := (fun _ _ => True) : B MathR -> B (Arr64 I L) -> Prop; r_scalar := False; r_recip := True |};
    try (intros; exact Logic.I); try (intros; apply rel_any); try (intros; contradiction).
  exact (r_sin_catch _ _ math_numpy).
Defined.
Lemma ok_of_any {A B} (m : res A) (n : res B) a : relres (fun _ _ => True) m n -> m = Ok a -> exists b, n = Ok b.
Proof. intros H E. destruct (H a E) as (b & -> & _). eauto. Qed.
Lemma arrays_total64 (L : libm) (I : Type) (lat lon el t p : I -> f64) d u : instant d u -> in_range u = true ->
  (exists v, get_azimuth (N := Arr64 I L) lat lon d el = Ok v) /\
  (exists v, get_altitude (N := Arr64 I L) lat lon d el t p = Ok v) /\
  (exists v w, get_position (N := Arr64 I L) lat lon d el t p = Ok (v, w)).
Proof.
  intros Hi Hr. destruct (azimuth_total 0 0 d 0 u Hi Hr ltac:(lra) ltac:(lra)) as (dec & ha & _ & _ & H & _).
  assert (W := get_topocentric_position_rel (any_arr I L) (Fin 0) lat (Fin 0) lon d (Fin 0) el Logic.I Logic.I Logic.I _ H).
  destruct W as ([a b] & E & _). unfold get_azimuth, get_altitude, get_position. rewrite (instant_aware d u Hi), E. cbn [bind].
  split; [|split].
  - eexists. reflexivity.
  - eexists. reflexivity.
  - eexists. eexists. reflexivity.
Qed.
Lemma fast_arrays_total64 (L : libm) (I : Type) (lat lon alt : I -> f64) (w : I -> Z) :
  (exists v, get_altitude_fast (C := clock_array64 I L) lat lon w = Ok v) /\
  (exists v, get_azimuth_fast (C := clock_array64 I L) lat lon w = Ok v) /\
  (exists v, get_radiation_direct (C := clock_array64 I L) w alt = Ok v).
Proof.
  split; [|split].
  - eexists. reflexivity.
  - eexists. reflexivity.
  - eexists. reflexivity.
Qed.

(* ---- the irradiance *)
Section L.
Variable L : libm.
Hypothesis HL : accurate L.
Notation N := (B64 L).

Lemma sine_not_zero x a : val x a -> 1e-270 <= Rabs a <= 90 -> is_zero (l_sin L (radians (n := N) x)) = false.
Proof.
  intros V B. destruct (air_mass64 L HL x a V B) as (q & Q & (v & W & _)).
  destruct (is_zero (l_sin L (radians (n := N) x))) eqn:Z; [exfalso|reflexivity].
  unfold get_air_mass_ratio in Q. cbn [nsin B64] in Q. destruct (math_1 ValueError (l_sin L) (radians (n := N) x)) as [s|e] eqn:E.
  2:{ cbn [bind] in Q. destruct e; try discriminate. now apply math_1_zde in E. }
  apply math_1_np in E. rewrite E in Z. cbn [bind div B64] in Q. rewrite Z in Q. apply Ok_inj in Q. rewrite <- Q in W. destruct W as [W _]. discriminate W.
Qed.

Lemma radiation_np_accuracy fl dt u x a : pow_std L -> instant dt u -> in_range u = true -> whole_minute_offset dt -> val x a -> 1e-270 <= a <= 90 ->
  exists b q r r', get_radiation_direct (C := clock_numpy (Np64 L)) dt (mknf fl x) = Ok (mknf b q) /\ val q r /\
    get_radiation_direct (N := MathR) (C := clock_math MathR) dt (Fin a) = Ok (Fin r') /\ Rabs (r - r') <= 3e-12.
Proof.
  intros HP Hi Hr Hw V B. destruct (radiation64 L HL dt u x a Hi Hr V B) as (q & r & r' & H1 & H2 & H3 & H4).
  assert (Z := sine_not_zero x a V ltac:(rewrite Rabs_pos_eq; lra)).
  destruct (radiation_np64 L HP (fun _ => fl) dt u x Hi Hr Hw Z q H1) as (b & E). exists b, q, r, r'. auto.
Qed.

(* at -0.0: 1 / -0.0 is -inf in numpy, the exponential +inf, and +inf * 0 is nan *)
Definition nzero : f64 := B754_zero true.
Lemma rad_nzero : radians (n := N) nzero = nzero.
Proof. apply B2SF_inj. vm_compute. reflexivity. Qed.
Hypothesis S0 : l_sin L nzero = nzero.
Hypothesis EP : l_exp L (B754_infinity false) = B754_infinity false.
Hypothesis EM : l_exp L (B754_infinity true) = B754_zero false.

Lemma air_mass_nzero : get_air_mass_ratio (N := N) nzero = Ok (B754_infinity false).
Proof.
  unfold get_air_mass_ratio. rewrite rad_nzero. cbn [nsin B64]. unfold math_1. rewrite S0. reflexivity.
Qed.
Lemma air_mass_np_nzero fl : get_air_mass_ratio (N := Np64 L) (mknf fl nzero) = Ok (mknf true (B754_infinity true)).
Proof.
  unfold get_air_mass_ratio. cbn [nsin Np64 npf64 bind]. change (vf (radians (n := Np64 L) (mknf fl nzero))) with (radians (n := N) nzero).
  rewrite rad_nzero, S0. cbn [div Np64]. unfold py_or_np. cbn [is_npf orb lit Np64 vf]. reflexivity.
Qed.
Lemma neg_times_inf qo o s : val qo o -> 0.1 <= o <= 1 ->
  Bmult mode_NE (Bmult mode_NE (Bopp one) qo) (B754_infinity s) = B754_infinity (negb s).
Proof.
  intros V B.
  assert (VM : val (Bopp one) (-1)) by (apply val_neg; exact (val_int 1 ltac:(lia))).
  assert (W := val_mul _ _ _ _ VM V). specialize (W ltac:(rewrite Rabs_left by lra; apply Rle_trans with 1; [lra|apply (bpow_le radix2 0 1000); lia])).
  destruct W as [F R]. set (y := Bmult mode_NE (Bopp one) qo) in *.
  assert (R0 : rnd (-1 * o) < 0).
  { apply Rle_lt_trans with (rnd (-0.0625)).
    - apply rnd_le. lra.
    - replace (-0.0625) with (- bpow radix2 (-4)) by (cbn; lra). rewrite rnd_id; [cbn; lra|]. apply generic_format_opp. apply generic_format_bpow. unfold FLT_exp. lia. }
  rewrite <- R in R0. destruct y as [sy|sy| |sy m e H]; try discriminate F.
  - cbn in R0. lra.
  - destruct sy.
    + destruct s; reflexivity.
    + exfalso. assert (0 < B2R (B754_finite false m e H)) by (apply F2R_gt_0; reflexivity). lra.
Qed.
Lemma radiation_nzero dt u : pow_std L -> instant dt u -> in_range u = true -> whole_minute_offset dt ->
  (exists q, get_radiation_direct (C := clock_math N) dt nzero = Ok q /\ val q 0) /\
  forall fl, get_radiation_direct (C := clock_numpy (Np64 L)) dt (mknf fl nzero) = Ok (mknf true B754_nan).
Proof.
  intros HP Hi Hr Hw. destruct (civil_clock_exists u) as (day & h & m & Hc). destruct (yday_bounds u day h m Hc) as (Y & _ & _).
  destruct (clock64 L dt u day h m Hi Hr Hc) as (AW & C1 & _ & _).
  destruct (day_parts64 L HL day Y) as (qf & qo & f & o & F1 & F2 & F3 & O1 & O2 & O3).
  pose proof (flux_range (IZR day)) as RF. pose proof (depth_range (IZR day)) as RD. apply Rabs_le_inv in F3, O3.
  split.
  - unfold get_radiation_direct. rewrite C1. cbn [bind]. rewrite F1. cbn [bind]. rewrite O1. cbn [bind]. rewrite air_mass_nzero. cbn [bind].
    change (mul (n := N) (mul (n := N) (neg (n := N) (lit (n := N) 1)) qo) (B754_infinity false)) with (Bmult mode_NE (Bmult mode_NE (Bopp one) qo) (B754_infinity false)).
    rewrite (neg_times_inf qo o false O2 ltac:(lra)). cbn [negb nexp B64]. unfold math_1. rewrite EM. cbn [is_nan is_inf andb bind].
    eexists. split; [reflexivity|]. destruct F2 as [F2 _]. destruct qf as [s|s| |s mm e H]; try discriminate F2; split; reflexivity.
  - intros fl. unfold get_radiation_direct. assert (C : dt = dt /\ civil dt) by (split; [reflexivity|exists u; auto]).
    destruct (r_yday _ _ _ (clock_np64 L HP) dt dt C _ C1) as (y' & -> & Ey). cbn [bind].
    destruct (get_apparent_extraterrestrial_flux_rel (b64_np L HP) _ y' Ey _ F1) as (f' & -> & Ef). cbn [bind].
    destruct (get_optical_depth_rel (b64_np L HP) _ y' Ey _ O1) as (o' & -> & Eo). cbn [bind].
    cbn [rT b64_np] in Ef, Eo. subst qf qo. rewrite air_mass_np_nzero. cbn [bind].
    cbn [mul neg lit nexp Np64]. unfold npf64, fl2, fl1. cbn [vf is_npf bind].
    change (flit 1) with one. rewrite (neg_times_inf _ o true O2 ltac:(lra)). cbn [negb]. rewrite EP.
    rewrite !orb_true_r. apply f_equal. apply f_equal. match goal with |- Bmult mode_NE _ ?z = _ => replace z with (B754_zero false : f64) by reflexivity end.
    destruct F2 as [F2 _]. destruct (vf f') as [s|s| |s mm e H]; try discriminate F2; reflexivity.
Qed.
End L.

(* ---- a correctly rounded library with the special values of the C standard *)
Definition std_libm : libm := {|
  l_sin x := if is_zero x then x else l_sin exact_libm x;
  l_cos := l_cos exact_libm; l_tan := l_tan exact_libm; l_asin := l_asin exact_libm; l_acos := l_acos exact_libm;
  l_atan := l_atan exact_libm; l_atan2 := l_atan2 exact_libm;
  l_exp x := match x with B754_infinity s => if s then B754_zero false else x | _ => l_exp exact_libm x end;
  l_pow x y := match py_pow exact_libm x y with Ok r => r | Err _ => B754_infinity false end |}.

Lemma pow_pos_case M x y : is_finite x = true -> is_zero x = false -> f_neg x = false -> is_finite y = true -> is_zero y = false -> Beqb (Fabs x) one = false ->
  py_pow M x y = (if is_inf (l_pow M (Fabs x) y) then Err OverflowError else Ok (l_pow M (Fabs x) y)).
Proof.
  intros H1 H2 H3 H4 H5 H6. unfold py_pow. rewrite H5, H2, H3, H6. cbn [andb].
  destruct x; try discriminate H1; try discriminate H2. destruct y; try discriminate H4; try discriminate H5. cbn [is_nan is_inf]. reflexivity.
Qed.
Lemma std_pow : pow_std std_libm.
Proof.
  intros x y r H.
  change (l_pow std_libm x y) with (match py_pow exact_libm x y with Ok r => r | Err _ => B754_infinity false end).
  unfold py_pow in *.
  destruct (is_zero y) eqn:Y0; [now apply Ok_inj in H|].
  destruct (is_nan x) eqn:XN; [now apply Ok_inj in H|].
  destruct (is_nan y) eqn:YN; [now apply Ok_inj in H|].
  destruct (is_inf y) eqn:YI.
  { destruct (Beqb (Fabs x) one); [now apply Ok_inj in H|]. destruct (Bool.eqb _ _); now apply Ok_inj in H. }
  destruct (is_inf x) eqn:XI; [now apply Ok_inj in H|].
  destruct (is_zero x) eqn:X0. { destruct (f_neg y); [discriminate|now apply Ok_inj in H]. }
  destruct (f_neg x && negb (is_integer y)) eqn:XC; [discriminate|].
  cbv zeta in *. destruct (Beqb (Fabs x) one) eqn:X1.
  { revert H. match goal with |- (if ?c then _ else _) = _ -> _ => destruct c end; [intros H; discriminate H|intros H; apply Ok_inj in H; exact H]. }
  assert (E : l_pow std_libm (Fabs x) y = if is_inf (l_pow exact_libm (Fabs x) y) then B754_infinity false else l_pow exact_libm (Fabs x) y).
  { change (l_pow std_libm (Fabs x) y) with (match py_pow exact_libm (Fabs x) y with Ok r => r | Err _ => B754_infinity false end).
    destruct x as [s|s| |s m e B]; try discriminate XN; try discriminate XI; try discriminate X0.
    assert (A : Fabs (Fabs (B754_finite s m e B)) = Fabs (B754_finite s m e B)) by reflexivity.
    rewrite pow_pos_case; rewrite ?A; try reflexivity.
    - destruct (is_inf (l_pow exact_libm (Fabs (B754_finite s m e B)) y)); reflexivity.
    - destruct y; try discriminate YN; try discriminate YI; reflexivity.
    - exact Y0.
    - exact X1. }
  rewrite E in H. set (r0 := l_pow exact_libm (Fabs x) y) in *. clearbody r0. clear E.
  destruct (is_inf r0) eqn:RI.
  - exfalso. destruct (f_neg x && is_odd y); discriminate H.
  - revert H. match goal with |- (if ?c then _ else _) = _ -> _ => destruct c end; [intros H; discriminate H|intros H; apply Ok_inj in H; exact H].
Qed.
Lemma Rpower_1_l w : Rpower 1 w = 1.
Proof. unfold Rpower. rewrite ln_1, Rmult_0_r. apply exp_0. Qed.
Lemma close_one : close one 1.
Proof.
  exists 1. split; [exact (val_int 1 ltac:(lia))|]. rewrite Rminus_diag_eq, Rabs_R0 by reflexivity.
  pose proof (bpow_gt_0 radix2 (-1074)). pose proof (bpow_gt_0 radix2 (-52)). rewrite Rabs_R1. lra.
Qed.
Lemma std_accurate : accurate std_libm.
Proof.
  pose proof (cr_accurate _ exact_libm_correct) as A. constructor.
  - intros x v V. cbn [l_sin std_libm]. destruct (is_zero x) eqn:Z; [|now apply (ac_sin _ A)].
    destruct x as [s|s| |s m e B]; try discriminate Z. assert (v = 0) as -> by (destruct V as [_ <-]; reflexivity).
    exists 0. split; [exact V|]. rewrite sin_0, Rminus_diag_eq, Rabs_R0 by reflexivity. pose proof (bpow_gt_0 radix2 (-1074)). lra.
  - exact (ac_cos _ A).
  - exact (ac_tan _ A).
  - exact (ac_asin _ A).
  - exact (ac_acos _ A).
  - exact (ac_asin_dom _ A).
  - exact (ac_acos_dom _ A).
  - exact (ac_atan _ A).
  - exact (ac_atan2 _ A).
  - intros x v V. cbn [l_exp std_libm]. destruct x as [s|s| |s m e B]; try (destruct V as [V _]; discriminate V); now apply (ac_exp _ A).
  - intros x y v w V W P B. pose proof (ac_pow _ A x y v w V W P B) as C.
    change (l_pow std_libm x y) with (match py_pow exact_libm x y with Ok r => r | Err _ => B754_infinity false end).
    destruct (is_zero y) eqn:Y0.
    { unfold py_pow. rewrite Y0. destruct y as [s|s| |s m e H]; try discriminate Y0. assert (w = 0) as -> by (destruct W as [_ <-]; reflexivity).
      rewrite Rpower_O by exact P. exact close_one. }
    assert (X : exists m e H, x = B754_finite false m e H).
    { destruct V as [F R]. destruct x as [s|s| |s m e H]; try discriminate F.
      - cbn in R. lra.
      - destruct s; [|eauto]. exfalso. assert (B2R (B754_finite true m e H) < 0) by (apply F2R_lt_0; reflexivity). lra. }
    destruct X as (m & e & H & ->). set (x := B754_finite false m e H) in *.
    assert (FA : Fabs x = x) by reflexivity.
    destruct (Beqb (Fabs x) one) eqn:X1.
    { assert (v = 1) as ->.
      { destruct V as [F R]. rewrite FA in X1. pose proof (Beqb_correct _ _ x one F eq_refl) as K. rewrite K in X1. revert X1. case Req_bool_spec; [|discriminate]. intros X1 _. rewrite <- R, X1.
        exact (proj2 (val_int 1 ltac:(lia))). }
      rewrite Rpower_1_l. destruct W as [FW _]. unfold py_pow. rewrite Y0, X1. destruct y; try discriminate FW; try discriminate Y0; exact close_one. }
    rewrite (pow_pos_case exact_libm x y); try reflexivity; try exact Y0; try exact X1; try exact (proj1 W).
    rewrite FA. destruct (is_inf (l_pow exact_libm x y)) eqn:I; [|exact C].
    exfalso. destruct C as (r & [F _] & _). destruct (l_pow exact_libm x y); discriminate.
Qed.
Lemma std_special : l_sin std_libm nzero = nzero /\ l_exp std_libm (B754_infinity false) = B754_infinity false /\ l_exp std_libm (B754_infinity true) = B754_zero false.
Proof. split; [reflexivity|]. split; reflexivity. Qed.

(* ---- accuracy with numpy *)
Lemma numpy_accuracy64 : forall L, accurate L -> pow_std L -> forall (fl : nat -> bool) lat lon el x xo xe dt u, instant dt u ->
  val x lat -> val xo lon -> val xe el -> -90 <= lat <= 90 -> -360 <= lon <= 360 -> -100000 <= el <= 100000 ->
  forall e1 e2, in_range u = true /\ e1 = 1.7e-8 /\ e2 = 1.35e-6 \/ (midnight 1834 1 1 <= u < midnight 2106 1 1)%Z /\ e1 = 8.1e-10 /\ e2 = 2.25e-7 ->
  exists b c qd qh dec ha dec' ha' (k : Z),
    get_topocentric_position (N := Np64 L) (mknf (fl 0%nat) x) (mknf (fl 1%nat) xo) dt (mknf (fl 2%nat) xe) = Ok (mknf b qd, mknf c qh) /\ val qd dec /\ val qh ha /\
    get_topocentric_position (N := MathR) (Fin lat) (Fin lon) dt (Fin el) = Ok (Fin dec', Fin ha') /\
    Rabs (dec - dec') <= e1 /\ Rabs (ha - ha' - 360 * IZR k) <= e2.
Proof.
  intros L HL HP fl lat lon el x xo xe dt u Hi V Vo Ve B Bo Be e1 e2 H.
  destruct (position_accuracy64 L HL lat lon el x xo xe dt u Hi V Vo Ve B Bo Be e1 e2 H) as (qd & qh & dec & ha & dec' & ha' & k & P1 & P2).
  destruct (proj1 (position_np64 L HP fl x xo dt xe x x) qd qh P1) as (b & c & E).
  exists b, c, qd, qh, dec, ha, dec', ha', k. split; [exact E|exact P2].
Qed.
Lemma array_accuracy64 : forall L, accurate L -> pow_std L -> forall I (i : I) (x xo xe : I -> f64) lat lon el dt u dec ha E, instant dt u ->
  val (x i) lat -> val (xo i) lon -> val (xe i) el -> -90 <= lat <= 90 -> -360 <= lon <= 360 -> -100000 <= el <= 100000 ->
  get_topocentric_position (N := MathR) (Fin lat) (Fin lon) dt (Fin el) = Ok (Fin dec, Fin ha) ->
  get_topocentric_elevation_angle (N := MathR) (Fin lat) (Fin dec) (Fin ha) = Ok (Fin E) -> 1e-5 <= cosd E ->
  forall c, in_range u = true /\ c = 2e-6 \/ (midnight 1834 1 1 <= u < midnight 2106 1 1)%Z /\ c = 3.3e-7 ->
  exists v a a' (k : Z), get_azimuth (N := Arr64 I L) x xo dt xe = Ok v /\ val (v i) a /\
    get_azimuth (N := MathR) (Fin lat) (Fin lon) dt (Fin el) = Ok (Fin a') /\ Rabs (a - a' - 360 * IZR k) <= c / cosd E.
Proof.
  intros L HL HP I i x xo xe lat lon el dt u dec ha E Hi V Vo Ve B Bo Be P1 P2 CE c H.
  destruct (azimuth_accuracy64 L HL lat lon el (x i) (xo i) (xe i) dt u dec ha E Hi V Vo Ve B Bo Be P1 P2 CE c H) as (q & a & a' & k & Q1 & Q2 & Q3).
  destruct (proj1 (position_arr64 L HP i x xo xe x x dt) q Q1) as (v & Ev & <-).
  exists v, a, a', k. split; [exact Ev|]. split; [exact Q2|exact Q3].
Qed.

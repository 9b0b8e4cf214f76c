(* C54: calls with arrays are elementwise. *)
From Coq Require Import Reals Qreals Lra.
From Verif Require Import Py Num Cal TzCheck Clock RInst Rel RelInst Constants SolarTime Solar Radiation Arr SpecEng.
Local Open Scope R_scope.

Lemma Q2R_Z z : Q2R (inject_Z z) = IZR z.
Proof. unfold Q2R; simpl. lra. Qed.

(* one datetime, arrays of locations *)
Definition clock_one (I : Type) (i : I) :
  ClockRel (numpy_array I i) (clock_numpy NumpyR) (clock_numpy (ArrR I)).
Proof.
  refine {| rD := fun (d : D (clock_numpy NumpyR)) (d' : D (clock_numpy (ArrR I))) => d = d' |};
    simpl; intros; subst; [ apply relres_refl | .. ];
    apply relres_rmap with (R := eq); try apply relres_refl; intros a ? <-; reflexivity.
Defined.

(* arrays of times: the element corresponds to any aware datetime with that datetime64 value *)
Definition clock_elt (I : Type) (i : I) :
  ClockRel (numpy_array I i) (clock_numpy NumpyR) (clock_array I).
Proof.
  refine {| rD := fun (d : D (clock_numpy NumpyR)) (f : D (clock_array I)) => datetime64_us d = Ok (f i) |};
    simpl; intros d f H.
  - intros a _. exists tt. now destruct a.
  - unfold tm_yday_numpy. rewrite H. simpl. intros a [= <-]. eexists; split; [reflexivity|].
    simpl. now rewrite Q2R_Z.
  - unfold tm_hour_numpy. rewrite H. simpl. intros a [= <-]. eexists; split; [reflexivity|].
    simpl. now rewrite Q2R_Z.
  - unfold tm_min_numpy. rewrite H. simpl. intros a [= <-]. eexists; split; [reflexivity|].
    simpl. now rewrite Q2R_Z.
Defined.

(* ---- the scalar numpy calls return for all inputs *)
Lemma div_lit_np (a : nx) q : Q2R q <> 0 -> exists x, @div NumpyR a (lit q) = Ok x.
Proof.
  intros H. simpl. destruct (is_np a || false); [eauto|]. unfold xdiv_py, xis_zero, Req_bool.
  destruct (Req_EM_T _ _); [contradiction|]. simpl. eauto.
Qed.

Definition total {A} (r : res A) := exists a, r = Ok a.
Lemma total_bind {A B} (r : res A) (f : A -> res B) : total r -> (forall a, total (f a)) -> total (bind r f).
Proof. intros [a ->] H. apply H. Qed.
Lemma total_Ok {A} (a : A) : total (Ok a).
Proof. now exists a. Qed.
Lemma total_div a q : Q2R q <> 0 -> total (@div NumpyR a (lit q)).
Proof. apply div_lit_np. Qed.
Lemma total_div_np (a b : nx) : is_np b = true -> total (@div NumpyR a b).
Proof. intros H. simpl. rewrite H, orb_true_r. apply total_Ok. Qed.
Lemma total_npf f a : total (npf f a).
Proof. apply total_Ok. Qed.

Ltac tot1 k :=
  lazymatch goal with
  | |- total (Ok _) => apply total_Ok
  | |- total (bind _ _) => apply total_bind; [|intros ?]
  | |- total (@div NumpyR _ (lit _)) => apply total_div; unfold Q2R; simpl; lra
  | |- total (npf _ _) => apply total_npf
  | |- total (let _ := _ in _) => cbv zeta
  | |- _ => k
  end.
Ltac tot := repeat tot1 ltac:(eassumption).

Lemma equation_of_time_total (x : nx) : total (@equation_of_time NumpyR x).
Proof. unfold equation_of_time. cbn [nsin ncos NumpyR]. tot. Qed.
Lemma declination_total (x : nx) : total (@get_declination NumpyR x).
Proof. unfold get_declination. cbn [nsin NumpyR]. tot. Qed.
Lemma flux_total (x : nx) : total (@get_apparent_extraterrestrial_flux NumpyR x).
Proof. unfold get_apparent_extraterrestrial_flux. cbn [nsin NumpyR]. tot. Qed.
Lemma depth_total (x : nx) : total (@get_optical_depth NumpyR x).
Proof. unfold get_optical_depth. cbn [nsin NumpyR]. tot. Qed.
Lemma air_mass_total (x : nx) : total (@get_air_mass_ratio NumpyR x).
Proof. unfold get_air_mass_ratio, total. simpl. eauto. Qed.

Section W.
Context (d : datetime) (u : Z) (Ha : dt_tz d <> None) (Hu : datetime64_us d = Ok u).
Notation CN := (clock_numpy NumpyR).
Lemma aware_total : total (aware_check CN d).
Proof. simpl. unfold aware. destruct (dt_tz d); [apply total_Ok|congruence]. Qed.
Lemma yday_total : total (tm_yday CN d).
Proof. simpl. unfold tm_yday_numpy. rewrite Hu. apply total_Ok. Qed.
Lemma hour_total : total (tm_hour CN d).
Proof. simpl. unfold tm_hour_numpy. rewrite Hu. apply total_Ok. Qed.
Lemma min_total : total (tm_min CN d).
Proof. simpl. unfold tm_min_numpy. rewrite Hu. apply total_Ok. Qed.
Hint Resolve aware_total yday_total hour_total min_total equation_of_time_total declination_total
  flux_total depth_total air_mass_total total_npf : tot.
Ltac to := repeat tot1 ltac:(solve [eauto with tot nocore]).

Lemma solar_time_total lon : total (@get_solar_time NumpyR CN lon d).
Proof. unfold get_solar_time. to. Qed.
Hint Resolve solar_time_total : tot.
Lemma hour_angle_total lon : total (@get_hour_angle NumpyR CN d lon).
Proof. unfold get_hour_angle. to. Qed.
Hint Resolve hour_angle_total : tot.
Lemma altitude_fast_total lat lon : total (@get_altitude_fast NumpyR CN lat lon d).
Proof. unfold get_altitude_fast. cbn [nsin ncos nasin NumpyR]. to. Qed.
Hint Resolve altitude_fast_total : tot.
Lemma azimuth_fast_total lat lon : total (@get_azimuth_fast NumpyR CN lat lon d).
Proof.
  unfold get_azimuth_fast. cbn [nsin ncos nasin ntan NumpyR].
  do 6 (apply total_bind; [solve [to]|intros ?]).
  cbn [npf bind]. apply total_bind; [apply total_div_np; reflexivity|intros]. to.
Qed.
Lemma radiation_total alt : total (@get_radiation_direct NumpyR CN d alt).
Proof. unfold get_radiation_direct. cbn [nexp NumpyR]. to. Qed.
End W.

Lemma refraction_total (p t e : nx) : is_np e = true -> total (@get_refraction_correction NumpyR p t e).
Proof.
  intros He. unfold get_refraction_correction. cbn [ntan NumpyR].
  apply total_bind; [apply total_div_np; simpl; now rewrite He|intros].
  cbn [npf bind]. apply total_bind; [apply total_div_np; simpl; now rewrite orb_true_r|intros]. apply total_Ok.
Qed.

(* ---- elementwise *)
Lemma elementwise_of {I} (arr : res (I -> Rx)) (one : I -> res nx) :
  total arr -> (forall i, total (one i)) ->
  (forall i, relres (fun (x : nx) (v : I -> Rx) => vx x = v i) (one i) arr) ->
  elementwise arr one.
Proof.
  intros [v ->] H R. exists v. split; [reflexivity|]. intros i. destruct (H i) as [x Hx]. exists x. split; [exact Hx|].
  destruct (R i x Hx) as (v' & [= <-] & E). exact E.
Qed.

Section Fast.
Context {I : Type} (lat lon alt : I -> Rx).

Section Times.
Context (w : I -> Z) (d : I -> datetime).
Context (Hd : forall i, dt_tz (d i) <> None /\ datetime64_us (d i) = Ok (w i)).
Notation CA := (clock_array I).
Notation CN := (clock_numpy NumpyR).
Let Ha i := proj1 (Hd i).
Let Hw i := proj2 (Hd i).

Lemma solar_time_elt : elementwise (get_solar_time (C := CA) lon w) (fun i => get_solar_time (C := CN) (elt lon i) (d i)).
Proof.
  apply elementwise_of. eexists; reflexivity. intros i; eapply solar_time_total; eauto.
  intros i. exact (get_solar_time_rel (numpy_array I i) (clock_elt I i) (elt lon i) lon (d i) w eq_refl (Hw i)).
Qed.
Lemma hour_angle_elt : elementwise (get_hour_angle (C := CA) w lon) (fun i => get_hour_angle (C := CN) (d i) (elt lon i)).
Proof.
  apply elementwise_of. eexists; reflexivity. intros i; eapply hour_angle_total; eauto.
  intros i. exact (get_hour_angle_rel (numpy_array I i) (clock_elt I i) (elt lon i) lon (d i) w eq_refl (Hw i)).
Qed.
Lemma altitude_fast_elt : elementwise (get_altitude_fast (C := CA) lat lon w) (fun i => get_altitude_fast (C := CN) (elt lat i) (elt lon i) (d i)).
Proof.
  apply elementwise_of. eexists; reflexivity. intros i; eapply altitude_fast_total; eauto.
  intros i. exact (get_altitude_fast_rel (numpy_array I i) (clock_elt I i) (elt lat i) lat (elt lon i) lon (d i) w eq_refl eq_refl (Hw i)).
Qed.
Lemma azimuth_fast_elt : elementwise (get_azimuth_fast (C := CA) lat lon w) (fun i => get_azimuth_fast (C := CN) (elt lat i) (elt lon i) (d i)).
Proof.
  apply elementwise_of. eexists; reflexivity. intros i; eapply azimuth_fast_total; eauto.
  intros i. exact (get_azimuth_fast_rel (numpy_array I i) (clock_elt I i) (elt lat i) lat (elt lon i) lon (d i) w eq_refl eq_refl (Hw i)).
Qed.
Lemma radiation_elt : elementwise (get_radiation_direct (C := CA) w alt) (fun i => get_radiation_direct (C := CN) (d i) (elt alt i)).
Proof.
  apply elementwise_of. eexists; reflexivity. intros i; eapply radiation_total; eauto.
  intros i. exact (get_radiation_direct_rel (numpy_array I i) (clock_elt I i) (elt alt i) alt (d i) w Logic.I eq_refl (Hw i)).
Qed.
End Times.

Section Time.
Context (d : datetime) (u : Z) (Ha : dt_tz d <> None) (Hu : datetime64_us d = Ok u).
Notation CA := (clock_numpy (ArrR I)).
Notation CN := (clock_numpy NumpyR).

Lemma aw : aware d = Ok tt.
Proof. unfold aware. destruct (dt_tz d); congruence. Qed.
Lemma clk : tm_yday CA d = Ok (@ofZ (ArrR I) (tm_yday_dt64 u)) /\ tm_hour CA d = Ok (@ofZ (ArrR I) (tm_hour_dt64 u)) /\
  tm_min CA d = Ok (@ofZ (ArrR I) (tm_min_dt64 u)).
Proof. simpl. unfold tm_yday_numpy, tm_hour_numpy, tm_min_numpy. rewrite Hu. repeat split. Qed.
Ltac arr := destruct clk as (C1 & C2 & C3); unfold get_azimuth_fast, get_altitude_fast, get_hour_angle, get_solar_time, get_radiation_direct; change (aware_check CA d) with (aware d); rewrite ?aw, ?C1, ?C2, ?C3; eexists; reflexivity.

Lemma solar_time_one : elementwise (get_solar_time (C := CA) lon d) (fun i => get_solar_time (C := CN) (elt lon i) d).
Proof.
  apply elementwise_of. arr. intros i; eapply solar_time_total; eauto.
  intros i. exact (get_solar_time_rel (numpy_array I i) (clock_one I i) (elt lon i) lon d d eq_refl eq_refl).
Qed.
Lemma hour_angle_one : elementwise (get_hour_angle (C := CA) d lon) (fun i => get_hour_angle (C := CN) d (elt lon i)).
Proof.
  apply elementwise_of. arr. intros i; eapply hour_angle_total; eauto.
  intros i. exact (get_hour_angle_rel (numpy_array I i) (clock_one I i) (elt lon i) lon d d eq_refl eq_refl).
Qed.
Lemma altitude_fast_one : elementwise (get_altitude_fast (C := CA) lat lon d) (fun i => get_altitude_fast (C := CN) (elt lat i) (elt lon i) d).
Proof.
  apply elementwise_of. arr. intros i; eapply altitude_fast_total; eauto.
  intros i. exact (get_altitude_fast_rel (numpy_array I i) (clock_one I i) (elt lat i) lat (elt lon i) lon d d eq_refl eq_refl eq_refl).
Qed.
Lemma azimuth_fast_one : elementwise (get_azimuth_fast (C := CA) lat lon d) (fun i => get_azimuth_fast (C := CN) (elt lat i) (elt lon i) d).
Proof.
  apply elementwise_of. arr. intros i; eapply azimuth_fast_total; eauto.
  intros i. exact (get_azimuth_fast_rel (numpy_array I i) (clock_one I i) (elt lat i) lat (elt lon i) lon d d eq_refl eq_refl eq_refl).
Qed.
Lemma radiation_one : elementwise (get_radiation_direct (C := CA) d alt) (fun i => get_radiation_direct (C := CN) d (elt alt i)).
Proof.
  apply elementwise_of. arr. intros i; eapply radiation_total; eauto.
  intros i. exact (get_radiation_direct_rel (numpy_array I i) (clock_one I i) (elt alt i) alt d d Logic.I eq_refl eq_refl).
Qed.
End Time.
End Fast.

Lemma refraction_elt {I} (p t e : I -> Rx) : elementwise (get_refraction_correction (N := ArrR I) p t e)
  (fun i => get_refraction_correction (N := NumpyR) (elt p i) (elt t i) (elt e i)).
Proof.
  apply elementwise_of. eexists; reflexivity. intros i; apply refraction_total; reflexivity.
  intros i. exact (get_refraction_correction_rel (numpy_array I i) (elt p i) p (elt t i) t (elt e i) e eq_refl eq_refl eq_refl).
Qed.

(* Python floats instead of numpy.float64 elements: wherever the scalar call returns *)
Lemma refraction_float {I} (p t e : I -> Rx) : elementwise_where (get_refraction_correction (N := ArrR I) p t e)
  (fun i => get_refraction_correction (N := NumpyR) (mknx false (p i)) (mknx false (t i)) (mknx false (e i))).
Proof.
  intros i x Hx.
  destruct (get_refraction_correction_rel (numpy_array I i) (mknx false (p i)) p (mknx false (t i)) t (mknx false (e i)) e
    eq_refl eq_refl eq_refl x Hx) as (v & Hv & E). exists v. split; [exact Hv|]. symmetry. exact E.
Qed.

(* the full position over arrays of locations *)
Lemma azimuth_elt {I} b (lat lon el : I -> Rx) d : elementwise_where (get_azimuth (N := ArrR I) lat lon d el)
  (fun i => get_azimuth (N := NumpyR) (mknx b (lat i)) (mknx b (lon i)) d (mknx b (el i))).
Proof.
  intros i x Hx.
  destruct (get_azimuth_rel (numpy_array I i) (mknx b (lat i)) lat (mknx b (lon i)) lon d (mknx b (el i)) el
    eq_refl eq_refl eq_refl x Hx) as (v & Hv & E). exists v. split; [exact Hv|]. symmetry. exact E.
Qed.
Lemma altitude_elt {I} b (lat lon el t p : I -> Rx) d : elementwise_where (get_altitude (N := ArrR I) lat lon d el t p)
  (fun i => get_altitude (N := NumpyR) (mknx b (lat i)) (mknx b (lon i)) d (mknx b (el i)) (mknx b (t i)) (mknx b (p i))).
Proof.
  intros i x Hx.
  destruct (get_altitude_rel (numpy_array I i) (mknx b (lat i)) lat (mknx b (lon i)) lon d (mknx b (el i)) el
    (mknx b (t i)) t (mknx b (p i)) p
    eq_refl eq_refl eq_refl eq_refl eq_refl x Hx) as (v & Hv & E). exists v. split; [exact Hv|]. symmetry. exact E.
Qed.

(* Sunrise, sunset and transit in binary64 against exact arithmetic. *)
From Coq Require Import Reals Qreals Lra Lia List ZifyBool.
From Flocq Require Import Core IEEE754.BinarySingleNaN.
From Interval Require Import Tactic.
From Verif Require Import Py Num Cal TzCheck Clock Constants SolarTime Solar Util RInst RTac SpecTime SpecDt SpecGeom SpecEng Trig GeoProofs CalProofs GenProofs SolarTimeProofs FastProofs SunriseProofs
  B64 SpecB64 B64Lemmas B64Witness B64Ranges Rel Absint AbsintSound B64Lift B64Topo B64Pos B64Horiz B64Refr AngleLip SpaProofs B64Fast B64FastAz SpecRise.
Import ListNotations.
Local Open Scope R_scope.

(* ---------------------------------------------------------------- timedelta(hours = x) *)
Lemma round_int_R f r : round radix2 (FIX_exp 0) f r = IZR (f r).
Proof. unfold round, F2R, scaled_mantissa, cexp, FIX_exp. cbn [Fnum Fexp]. change (- 0)%Z with 0%Z. change (bpow radix2 0) with 1. now rewrite !Rmult_1_r. Qed.
Lemma btrunc (x : binary_float 53 1024) : Btrunc x = Ztrunc (B2R x).
Proof. apply eq_IZR. rewrite <- round_int_R. apply Btrunc_correct; exact emax1024. Qed.
Lemma trunc_near v : Rabs (v - IZR (Ztrunc v)) <= 1 /\ Rabs (IZR (Ztrunc v)) <= Rabs v.
Proof.
  unfold Ztrunc. destruct (Rlt_bool_spec v 0) as [H|H].
  - pose proof (Zceil_ub v). pose proof (Zceil_lb v). assert (IZR (Zceil v) <= 0) by (apply IZR_le; apply Zceil_glb; lra). rewrite !Rabs_left1 by lra. lra.
  - pose proof (Zfloor_ub v). pose proof (Zfloor_lb v). assert (0 <= IZR (Zfloor v)) by (apply IZR_le; apply Zfloor_lub; lra). rewrite !Rabs_pos_eq by lra. lra.
Qed.

Lemma td64 x v : val x v -> Rabs v <= 100 -> exists k, py_timedelta_hours x = Ok k /\ Rabs (IZR k - v * 3600000000) <= 0.5 + 2e-6.
Proof.
  intros [Fx Bx] Bv. set (n := Ztrunc v). destruct (trunc_near v) as [T1 T2]. fold n in T1, T2.
  assert (NB : (Z.abs n <= 100)%Z) by (apply le_IZR; rewrite abs_IZR; lra).
  set (fr := Bminus mode_NE x (flit (inject_Z n))). set (p := Bmult mode_NE (flit 3600000000) fr). set (k := Btrunc (Bnearbyint mode_NE p)).
  assert (V1 : val fr (rnd (v - IZR n))) by (apply val_sub; [now split|apply val_int; lia|apply big_num; lra]).
  pose proof (B64Refr.rnd_up _ _ T1) as E1. set (f := rnd (v - IZR n)) in *.
  assert (F1 : Rabs f <= 1.001) by (replace f with ((v - IZR n) + (f - (v - IZR n))) by ring; eapply Rle_trans; [apply Rabs_triang|lra]).
  assert (F2 : Rabs (3600000000 * f) <= 3603600000) by (rewrite Rabs_mult, Rabs_pos_eq by lra; lra).
  assert (V2 : val p (rnd (3600000000 * f))) by (apply val_mul; [apply (val_int 3600000000); lia|exact V1|apply big_num; lra]).
  pose proof (B64Refr.rnd_up _ _ F2) as E2. set (g := rnd (3600000000 * f)) in *.
  assert (K : k = ZnearestE g).
  { unfold k. rewrite btrunc. destruct (Bnearbyint_correct 53 1024 emax1024 mode_NE p) as [Q _]. destruct V2 as [_ V2].
    rewrite Q, V2. cbn [round_mode]. rewrite round_int_R. apply Ztrunc_IZR. }
  pose proof (nearest_half g) as E3. rewrite <- K in E3.
  assert (TOT : Rabs (IZR (n * 3600000000 + k) - v * 3600000000) <= 0.5 + 2e-6).
  { rewrite plus_IZR, mult_IZR.
    replace (IZR n * 3600000000 + IZR k - v * 3600000000) with ((IZR k - g) + ((g - 3600000000 * f) + 3600000000 * (f - (v - IZR n)))) by ring.
    eapply Rle_trans; [apply Rabs_triang|]. assert (Rabs (g - 3600000000 * f + 3600000000 * (f - (v - IZR n))) <= 2e-6); [|lra].
    eapply Rle_trans; [apply Rabs_triang|]. rewrite Rabs_mult, (Rabs_pos_eq 3600000000) by lra. lra. }
  exists (n * 3600000000 + k)%Z. split; [|exact TOT].
  assert (D : py_timedelta_hours x = if (Z.abs ((n * 3600000000 + k) / 86400000000) <=? 999999999)%Z then Ok (n * 3600000000 + k)%Z else Err OverflowError).
  { unfold py_timedelta_hours. assert (NN : Btrunc x = n) by (rewrite btrunc, Bx; reflexivity). rewrite NN. fold fr. fold p. fold k. destruct x; try discriminate; reflexivity. }
  rewrite D. assert (KB : Rabs (IZR (n * 3600000000 + k)) <= 400000000000).
  { set (z := IZR (n * 3600000000 + k)) in *. replace z with ((z - v * 3600000000) + v * 3600000000) by ring. eapply Rle_trans; [apply Rabs_triang|]. rewrite Rabs_mult, (Rabs_pos_eq 3600000000) by lra. lra. }
  rewrite <- abs_IZR in KB. apply le_IZR in KB. set (z := (n * 3600000000 + k)%Z) in *. clearbody z.
  assert ((Z.abs (z / 86400000000) <=? 999999999)%Z = true) as -> by (apply Z.leb_le; apply Z.abs_le; split; [apply Z.div_le_lower_bound; lia|apply Z.div_le_upper_bound; lia]).
  reflexivity.
Qed.

(* ---------------------------------------------------------------- declination, transit *)
#[export] Hint Resolve sunrise_declination_rel sunrise_time_adjustment_rel : lrel.
Definition F_sr : lfun := fun N l => match l with
  | [off; day; lon] =>
      h <- div off (lit 3600) ;; decl <- sunrise_declination day ;; adj <- sunrise_time_adjustment day ;;
      n <- div (sub (mul h (lit 15.0)) lon) (lit 15.0) ;; Ok [decl; sub (add (lit 12) n) adj]
  | _ => Err Unmodelled
  end.
Lemma F_sr_rel : lrel F_sr. Proof. lrel_tac F_sr. Qed.
Definition I_sr : list abs_val := [around 86400 10 1000000000000; exact_in (366 * SC); exact_in (180 * SC)].
Definition O_sr : list abs_val := Eval vm_compute in outputs (F_sr AI I_sr).
Lemma sr_ok : F_sr AI I_sr = Ok O_sr. Proof. vm_compute. reflexivity. Qed.
Definition F_hd : lfun := fun N l => match l with
  | [lat; decl] => c0 <- ncos (radians (lit 90.833)) ;; c1 <- ncos (radians lat) ;; c2 <- ncos (radians decl) ;; t2 <- ntan (radians decl) ;; Ok [c0; c1; c2; t2]
  | _ => Err Unmodelled
  end.
Lemma F_hd_rel : lrel F_hd. Proof. lrel_tac F_hd. Qed.
Definition I_hd : list abs_val := [Ab A90; around 28 20 100000000000000].
Definition O_hd : list abs_val := Eval vm_compute in outputs (F_hd AI I_hd).
Lemma hd_ok : F_hd AI I_hd = Ok O_hd. Proof. vm_compute. reflexivity. Qed.
Definition F_hk : lfun := fun N l => match l with
  | [ac] => k <- div (lit 12) npi ;; Ok [mul ac k]
  | _ => Err Unmodelled
  end.
Lemma F_hk_rel : lrel F_hk. Proof. lrel_tac F_hk. Qed.
Definition I_hk : list abs_val := [exact_in (4 * SC)].
Definition O_hk : list abs_val := Eval vm_compute in outputs (F_hk AI I_hk).
Lemma hk_ok : F_hk AI I_hk = Ok O_hk. Proof. vm_compute. reflexivity. Qed.

Lemma sr_fits : forallb (fun a => fits a NoPer (-49) 49 1 10000000000000) O_sr = true. Proof. vm_compute. reflexivity. Qed.
Lemma sr_fits2 : fits (nth 1 O_sr Top) NoPer (-49) 49 4 100000000000000 = true. Proof. vm_compute. reflexivity. Qed.
Lemma hd_fits : forallb (fun a => fits a NoPer (-2) 2 8 1000000000000000) O_hd = true. Proof. vm_compute. reflexivity. Qed.
Lemma hd_fits2 : forallb (fun a => fits a NoPer (-2) 2 7 10000000000000000) (firstn 2 O_hd) = true. Proof. vm_compute. reflexivity. Qed.
Lemma hk_fits : forallb (fun a => fits a NoPer (-16) 16 4 1000000000000000) O_hk = true. Proof. vm_compute. reflexivity. Qed.

Lemma cos_H_spec lat decl : Rabs lat <= 89 -> -90 < decl < 90 -> cos_H lat decl = rising_cosine lat decl.
Proof.
  intros Hl Hd. apply Rabs_le_inv in Hl. pose proof (cosd_pos lat ltac:(lra)). pose proof (cosd_pos decl Hd).
  unfold cos_H, rising_cosine. rewrite !tand_def. assert (Es : sind (-0.833) = cosd 90.833).
  { unfold sind, cosd. rewrite <- sin_shift. f_equal. lra. }
  rewrite Es. field. lra.
Qed.

Lemma low_decl D : Rabs D <= 28 -> 0.8829 <= cosd D <= 1 /\ Rabs (tand D) <= 0.532.
Proof.
  intros H. apply Rabs_le_inv in H. split; [unfold cosd; split; interval|]. rewrite tand_def. unfold sind, cosd. interval.
Qed.
Lemma dip_cos : Rabs (cosd 90.833) <= 0.01454. Proof. unfold cosd. interval. Qed.
Lemma prod_err a b A B ea eb MA mb : Rabs (a - A) <= ea -> Rabs (b - B) <= eb -> Rabs A <= MA -> Rabs b <= mb -> Rabs (a * b - A * B) <= ea * mb + MA * eb.
Proof.
  intros H1 H2 H3 H4. replace (a * b - A * B) with ((a - A) * b + A * (b - B)) by ring. eapply Rle_trans; [apply Rabs_triang|]. rewrite !Rabs_mult.
  apply Rplus_le_compat; apply Rmult_le_compat; auto using Rabs_pos.
Qed.
Lemma quot_err c p C P ec ep m : Rabs (c - C) <= ec -> Rabs (p - P) <= ep -> 0 < m -> m <= p -> m <= P -> Rabs (c / p - C / P) <= (ec + Rabs C * ep / m) / m.
Proof.
  intros H1 H2 Hm Hp HP. replace (c / p - C / P) with (((c - C) + C * (P - p) * / P) * / p) by (field; lra).
  unfold Rdiv at 1. rewrite Rabs_mult. rewrite (Rabs_pos_eq (/ p)) by (left; apply Rinv_0_lt_compat; lra).
  assert (IP : 0 < / P <= / m) by (split; [apply Rinv_0_lt_compat|apply Rinv_le]; lra). assert (Ip : 0 < / p <= / m) by (split; [apply Rinv_0_lt_compat|apply Rinv_le]; lra).
  apply Rmult_le_compat; [apply Rabs_pos|lra| |lra].
  eapply Rle_trans; [apply Rabs_triang|]. apply Rplus_le_compat; [exact H1|]. rewrite !Rabs_mult, (Rabs_pos_eq (/ P)) by lra.
  unfold Rdiv. apply Rmult_le_compat; [apply Rmult_le_pos; apply Rabs_pos|lra| |lra]. apply Rmult_le_compat_l; [apply Rabs_pos|]. now rewrite Rabs_minus_sym.
Qed.
Lemma list4_inv {A} (a b c d a' b' c' d' : A) : [a; b; c; d] = [a'; b'; c'; d'] -> a = a' /\ b = b' /\ c = c' /\ d = d'. Proof. intros [= -> -> -> ->]. auto. Qed.

Lemma acos_diff x y : -1 <= x <= 1 -> -1 <= y <= 1 -> acos x - acos y = - (asin x - asin y). Proof. intros X Y. rewrite !acos_asin by assumption. ring. Qed.
Lemma tail_consts : PI <= 3.15 /\ PI / 2 * 1.9e-12 / 0.14 <= 2.2e-11 /\ 12 / PI <= 3.82 /\ 0.14 <= sqrt (1 - 0.9900001 * 0.9900001). Proof. repeat split; interval. Qed.
Lemma asin_le_asin x y : -1 <= y <= 1 -> Rabs x <= y -> Rabs (asin x) <= asin y.
Proof.
  intros Hy H. apply Rabs_le_inv in H. assert (M : forall a b, -1 <= a -> a <= b -> b <= 1 -> asin a <= asin b).
  { intros a b A B C. destruct (Rle_lt_dec (asin a) (asin b)) as [K|K]; [exact K|]. exfalso. pose proof (asin_bound a). pose proof (asin_bound b).
    apply sin_increasing_1 in K; try lra. rewrite !sin_asin in K by lra. lra. }
  apply Rabs_le. split; [rewrite <- asin_opp; apply M; lra|apply M; lra].
Qed.

Section L.
Variable L : libm.
Hypothesis HL : accurate L.
Notation N := (B64 L).

Lemma sr64 off day xo lon : (Z.abs off < us_per_day)%Z -> (0 <= day <= 366)%Z -> val xo lon -> Rabs lon <= 180 ->
  exists qd qt dl t, F_sr N [flit (off # 1000000); ofZ (N := N) day; xo] = Ok [qd; qt] /\ val qd dl /\ val qt t /\
    Rabs (dl - fourier_declination (IZR day)) <= 1e-13 /\ Rabs (t - transit_hours off lon (IZR day)) <= 4e-14 /\ Rabs t <= 49.
Proof.
  intros Ho Hd V Bl. change us_per_day with 86400000000%Z in Ho.
  assert (HO : Rabs (IZR off / 1000000) <= 86400).
  { unfold Rdiv. rewrite Rabs_mult, <- abs_IZR, (Rabs_pos_eq (/ 1000000)) by lra. assert (IZR (Z.abs off) <= 86400000000) by (apply IZR_le; lia). lra. }
  assert (QO : Q2R (off # 1000000) = IZR off / 1000000) by reflexivity.
  assert (VO : val (flit (off # 1000000)) (rnd (IZR off / 1000000))) by (rewrite <- QO; apply val_lit; rewrite QO; apply big_num; lra).
  pose proof (B64Refr.rnd_up _ _ HO) as EO.
  assert (SO : satv (around 86400 10 1000000000000) (flit (off # 1000000)) (Fin (IZR off / 1000000))).
  { apply (around_sat _ _ _ _ _ _ VO HO); try lia; [|lra]. eapply Rle_trans; [exact EO|]. unfold SC. lra. }
  assert (VD : val (ofZ (N := N) day) (IZR day)) by (apply val_int; lia).
  assert (BD : Rabs (IZR day) <= 366) by (rewrite <- abs_IZR; apply IZR_le; lia).
  destruct (transport L HL F_sr F_sr_rel I_sr [flit (off # 1000000); ofZ (N := N) day; xo] [Fin (IZR off / 1000000); Fin (IZR day); Fin lon] _
    ltac:(repeat constructor; [exact SO|now apply exact_sat|now apply exact_sat]) sr_ok) as (l1 & l2 & T1 & T2 & A).
  pose proof sr_fits as FI. pose proof sr_fits2 as FI2. unfold O_sr in A, FI, FI2. inv3 A. cbn [forallb] in FI. rewrite !andb_true_iff in FI. destruct FI as (F1 & F2 & _). cbn [nth] in FI2.
  destruct (fits_nop _ _ _ _ _ _ _ F1 eq_refl S) as (v & w & V1 & W1 & _ & _ & E1).
  destruct (fits_nop _ _ _ _ _ _ _ FI2 eq_refl S0) as (v' & w' & V2 & W2 & B2 & _ & E2).
  unfold F_sr in T2. cbn [nth] in T2.
  revert T2. rx. rewrite sunrise_declination_val, bind_Ok, sunrise_adjustment_val, bind_Ok. rx. intros T2.
  apply Ok_inj in T2. apply list2_inv in T2 as [T2 T2']. rewrite W1 in T2. rewrite W2 in T2'. apply Fin_inj in T2, T2'.
  eexists _, _, v, v'. split; [exact T1|]. split; [exact V1|]. split; [exact V2|].
  split; [rewrite T2; lra|]. split; [|exact B2].
  replace (transit_hours off lon (IZR day)) with w'; [lra|]. rewrite <- T2'. unfold transit_hours.
  replace (Q2R 15.0) with 15 by (unfold Q2R; simpl; lra). field.
Qed.

(* tan lat away from the poles *)
Lemma tan64' x lat : val x lat -> Rabs lat <= 89 ->
  exists q t, ntan (n := N) (radians (n := N) x) = Ok q /\ val q t /\ Rabs (t - tand lat) <= 1.35e-12 /\ Rabs t <= 57.31.
Proof.
  intros V B. assert (B90 : Rabs lat <= 90) by lra.
  destruct (transport L HL F_rad F_rad_rel [Ab A90] [x] [Fin lat] _ ltac:(repeat constructor; now apply (exact_sat x lat 90)) Arad_ok) as (l1 & l2 & T1 & T2 & A).
  inv3 A. destruct (fits_nop _ _ _ _ _ _ _ Arad_fits eq_refl S) as (r & ? & VR & ER & _ & _ & E).
  unfold F_rad in T1, T2. rewrite radians_R in T2. apply Ok_inj in T1, T2. injection T1 as T1. injection T2 as T2. subst. injection ER as <-.
  destruct cosd_gap as [_ G]. pose proof (cosd_even_decr lat 89 B ltac:(lra)) as CL. pose proof (cosd_bound lat) as CB.
  change (radians (n := N) x) with (Bmult mode_NE x deg_to_rad). set (xr := Bmult mode_NE x deg_to_rad) in *. rewrite !cosd_rad in *. set (l := rad lat) in *.
  replace (4 / 10000000000000000) with 4e-16 in E by lra.
  assert (CR : cos l - 4e-16 <= cos r).
  { pose proof (cos_lip r l). apply Rabs_le_inv in E as E'. assert (Rabs (cos r - cos l) <= 4e-16) by lra. apply Rabs_le_inv in H0. lra. }
  assert (CRP : 0.01744999 <= cos r) by lra.
  assert (TR : Rabs (tan r) <= 57.308).
  { unfold tan, Rdiv. rewrite Rabs_mult, Rabs_inv, (Rabs_pos_eq (cos r)) by lra. pose proof (SIN_bound r). assert (Rabs (sin r) <= 1) by (apply Rabs_le; lra).
    assert (/ cos r <= / 0.01744999) by (apply Rinv_le; lra). assert (0 < / cos r) by (apply Rinv_0_lt_compat; lra). pose proof (Rabs_pos (sin r)).
    replace 57.308 with (1 * 57.308) by ring. apply Rmult_le_compat; lra. }
  pose proof (ac_tan L HL xr r VR) as C. pose proof (tan_fits (Rabs (tan r)) ltac:(lra)) as TF. specialize (C TF).
  exists (l_tan L xr). destruct C as (t & VT & ET). exists t.
  split; [exact (math1_close ValueError _ _ _ (ac_tan L HL xr r VR TF))|]. split; [exact VT|].
  change (bpow radix2 (-52)) with (/ 4503599627370496) in ET. pose proof eps_small as EP.
  split.
  2:{ replace t with (tan r + (t - tan r)) by ring. eapply Rle_trans; [apply Rabs_triang|]. lra. }
  rewrite tand_rad. fold l.
  assert (D : tan r - tan l = sin (r - l) / (cos r * cos l)).
  { unfold tan. rewrite sin_minus. field. lra. }
  assert (P : 0.01744999 * 0.01744999 <= cos r * cos l) by (apply Rmult_le_compat; lra).
  assert (D1 : Rabs (tan r - tan l) <= 4e-16 * / (0.01744999 * 0.01744999)).
  { rewrite D. unfold Rdiv. rewrite Rabs_mult, Rabs_inv, (Rabs_pos_eq (cos r * cos l)) by lra.
    apply Rmult_le_compat; [apply Rabs_pos|left; apply Rinv_0_lt_compat; lra| |apply Rinv_le; lra].
    eapply Rle_trans; [apply abs_sin|]. exact E. }
  replace (t - tan l) with ((t - tan r) + (tan r - tan l)) by ring. eapply Rle_trans; [apply Rabs_triang|]. lra.
Qed.

Lemma arg64 x lat qd dl D : val x lat -> Rabs lat <= 89 -> val qd dl -> Rabs (dl - D) <= 1e-13 -> Rabs D <= 28 ->
  exists c0 c1 c2 t1 t2 q w, F_hd N [x; qd] = Ok [c0; c1; c2; t2] /\ ntan (n := N) (radians (n := N) x) = Ok t1 /\
    div (n := N) c0 (mul (n := N) c1 c2) = Ok q /\ val (sub (n := N) q (mul (n := N) t1 t2)) w /\ Rabs (w - cos_H lat D) <= 1.9e-12.
Proof.
  intros V Bl VD ED BD. assert (B90 : Rabs lat <= 90) by lra.
  assert (SD : satv (around 28 20 100000000000000) qd (Fin D)).
  { apply (around_sat _ _ _ _ _ _ VD BD); try lia; [|lra]. eapply Rle_trans; [exact ED|]. unfold SC. lra. }
  destruct (transport L HL F_hd F_hd_rel I_hd [x; qd] [Fin lat; Fin D] _ ltac:(repeat constructor; [now apply (exact_sat x lat 90)|exact SD]) hd_ok) as (l1 & l2 & T1 & T2 & A).
  pose proof hd_fits as FI. pose proof hd_fits2 as FI2. unfold O_hd in A, FI, FI2. cbn [firstn] in FI2. inv3 A. cbn [forallb] in FI, FI2. rewrite !andb_true_iff in FI. rewrite !andb_true_iff in FI2.
  destruct FI as (_ & _ & F3 & F4 & _). destruct FI2 as (F1 & F2 & _).
  destruct (fits_nop _ _ _ _ _ _ _ F1 eq_refl S) as (c0 & w0 & V0 & W0 & _ & _ & E0).
  destruct (fits_nop _ _ _ _ _ _ _ F2 eq_refl S0) as (c1 & w1 & V1 & W1 & _ & _ & E1).
  destruct (fits_nop _ _ _ _ _ _ _ F3 eq_refl S1) as (c2 & w2 & V2 & W2 & _ & _ & E2).
  destruct (fits_nop _ _ _ _ _ _ _ F4 eq_refl S2) as (t2 & w3 & V3 & W3 & _ & _ & E3).
  clear S S0 S1 S2. destruct (low_decl D BD) as [CD TD]. destruct cosd_gap as [_ G]. pose proof (cosd_even_decr lat 89 Bl ltac:(lra)) as CL. pose proof (cosd_bound lat) as CB. pose proof dip_cos as DC.
  unfold F_hd in T2. revert T2. rx. rewrite <- !cosd_rad. rx. rewrite ntan_R by (rewrite <- cosd_rad; lra). rx. rewrite <- tand_rad. intros T2.
  apply Ok_inj in T2. apply list4_inv in T2 as (Q0 & Q1 & Q2 & Q3). rewrite W0 in Q0. rewrite W1 in Q1. rewrite W2 in Q2. rewrite W3 in Q3. apply Fin_inj in Q0, Q1, Q2, Q3.
  rewrite <- Q0 in E0. rewrite <- Q1 in E1. rewrite <- Q2 in E2. rewrite <- Q3 in E3. clear W0 W1 W2 W3 Q0 Q1 Q2 Q3 F1 F2 F3 F4.
  destruct (tan64' x lat V Bl) as (qt & t1 & RT & VT & ET & BT).
  set (C0 := cosd 90.833) in *. set (C1 := cosd lat) in *. set (C2 := cosd D) in *. set (T1' := tand lat) in *. set (T2' := tand D) in *.
  assert (M : 7 / 10000000000000000 = 7e-16) by lra. rewrite M in E0, E1. clear M. assert (M : 8 / 1000000000000000 = 8e-15) by lra. rewrite M in E2, E3. clear M.
  eexists _, _, _, qt, _. 
  (* the product of the cosines *)
  assert (A1 : Rabs C1 <= 1) by (apply Rabs_le; lra).
  assert (B2 : Rabs c2 <= 1.001) by (apply Rabs_le_inv in E2; apply Rabs_le; lra).
  pose proof (prod_err c1 c2 C1 C2 7e-16 8e-15 1 1.001 E1 E2 A1 B2) as EP.
  assert (PB : 0.0154 <= C1 * C2 <= 1) by (split; [apply Rle_trans with (0.01745 * 0.8829); [lra|apply Rmult_le_compat; lra]|rewrite <- (Rmult_1_r 1); apply Rmult_le_compat; lra]).
  assert (PB1 : Rabs (c1 * c2) <= 1.001) by (apply Rabs_le_inv in EP; apply Rabs_le; lra).
  assert (VP : val (Bmult mode_NE x1 x2) (rnd (c1 * c2))) by (apply val_mul; [exact V1|exact V2|apply big_num; lra]).
  pose proof (B64Refr.rnd_up _ _ PB1) as ER. set (p := rnd (c1 * c2)) in *.
  assert (EP' : Rabs (p - C1 * C2) <= 9e-15) by (replace (p - C1 * C2) with ((p - c1 * c2) + (c1 * c2 - C1 * C2)) by ring; eapply Rle_trans; [apply Rabs_triang|lra]).
  assert (PP : 0.01535 <= p) by (apply Rabs_le_inv in EP'; lra). assert (PNZ : p <> 0) by lra.
  assert (PP' : 0.01535 <= C1 * C2) by lra. assert (P0 : 0 < 0.01535) by lra.
  (* the quotient *)
  pose proof (quot_err c0 p C0 (C1 * C2) 7e-16 9e-15 0.01535 E0 EP' P0 PP PP') as EQ.
  assert (EQ' : Rabs (c0 / p - C0 / (C1 * C2)) <= 6.1e-13).
  { eapply Rle_trans; [exact EQ|]. lra. }
  assert (QB : Rabs (C0 / (C1 * C2)) <= 1).
  { unfold Rdiv. rewrite Rabs_mult, Rabs_inv, (Rabs_pos_eq (C1 * C2)) by lra. apply Rle_trans with (0.01454 * / 0.01535); [|lra].
    apply Rmult_le_compat; [apply Rabs_pos|left; apply Rinv_0_lt_compat; lra|lra|apply Rinv_le; lra]. }
  assert (QB1 : Rabs (c0 / p) <= 1.001) by (replace (c0 / p) with (C0 / (C1 * C2) + (c0 / p - C0 / (C1 * C2))) by ring; eapply Rle_trans; [apply Rabs_triang|lra]).
  assert (QBB : Rabs (c0 / p) <= 1e30) by lra.
  pose proof (val_div x0 (Bmult mode_NE x1 x2) c0 p V0 VP PNZ (big_num _ QBB)) as VQ.
  pose proof (B64Refr.rnd_up _ _ QB1) as EQR. set (qv := rnd (c0 / p)) in *.
  (* the product of the tangents *)
  assert (B3 : Rabs t2 <= 0.533) by (replace t2 with (T2' + (t2 - T2')) by ring; eapply Rle_trans; [apply Rabs_triang|lra]).
  assert (BT' : Rabs T1' <= 57.32) by (replace T1' with (t1 - (t1 - T1')) by ring; unfold Rminus at 1; eapply Rle_trans; [apply Rabs_triang|rewrite Rabs_Ropp; lra]).
  pose proof (prod_err t1 t2 T1' T2' 1.35e-12 8e-15 57.32 0.533 ET E3 BT' B3) as EM.
  assert (MB : Rabs (t1 * t2) <= 31) by (rewrite Rabs_mult; apply Rle_trans with (57.31 * 0.533); [apply Rmult_le_compat; auto using Rabs_pos|lra]).
  assert (VM : val (Bmult mode_NE qt x3) (rnd (t1 * t2))) by (apply val_mul; [exact VT|exact V3|apply big_num; lra]).
  pose proof (B64Refr.rnd_up _ _ MB) as EMR. set (mv := rnd (t1 * t2)) in *.
  assert (DB : Rabs (qv - mv) <= 33).
  { replace (qv - mv) with ((qv - c0 / p) + (c0 / p) + - ((mv - t1 * t2) + t1 * t2)) by ring. eapply Rle_trans; [apply Rabs_triang|]. rewrite Rabs_Ropp.
    pose proof (Rabs_triang (qv - c0 / p) (c0 / p)). pose proof (Rabs_triang (mv - t1 * t2) (t1 * t2)). lra. }
  pose proof (B64Refr.rnd_up _ _ DB) as EDR. assert (DBB : Rabs (qv - mv) <= 1e30) by lra.
  pose proof (val_sub _ _ _ _ VQ VM (big_num _ DBB)) as VS.
  exists (Bdiv mode_NE x0 (Bmult mode_NE x1 x2)), (rnd (qv - mv)).
  split; [exact T1|]. split; [exact RT|]. split; [cbn [div mul B64]; rewrite (val_nz _ p VP) by lra; reflexivity|]. split; [exact VS|].
  unfold cos_H. fold C0 C1 C2 T1' T2'.
  replace (rnd (qv - mv) - (C0 / (C1 * C2) - T1' * T2')) with
    ((rnd (qv - mv) - (qv - mv)) + ((qv - c0 / p) + (c0 / p - C0 / (C1 * C2)) + - ((mv - t1 * t2) + (t1 * t2 - T1' * T2')))) by ring.
  eapply Rle_trans; [apply Rabs_triang|]. eapply Rle_trans; [apply Rplus_le_compat_l, Rabs_triang|]. rewrite Rabs_Ropp.
  pose proof (Rabs_triang (qv - c0 / p) (c0 / p - C0 / (C1 * C2))). pose proof (Rabs_triang (mv - t1 * t2) (t1 * t2 - T1' * T2')). lra.
Qed.

Lemma acos_tail q w c : val q w -> Rabs (w - c) <= 1.9e-12 ->
  (Rabs c <= 1 - 2e-12 -> exists a al, nacos (n := N) q = Ok a /\ val a al /\ Rabs al <= 4 /\ Rabs (al - acos c) <= PI * 1e-6 + 1e-15 /\
     (Rabs c <= 0.99 -> Rabs (al - acos c) <= 2.21e-11)) /\
  (1 + 2e-12 <= Rabs c -> nacos (n := N) q = Err ValueError).
Proof.
  intros VW EW. assert (WC : Rabs w <= Rabs c + Rabs (w - c)) by (replace w with (c + (w - c)) at 1 by ring; apply Rabs_triang).
  assert (CW : Rabs c <= Rabs w + Rabs (w - c)) by (replace c with (w - (w - c)) at 1 by ring; unfold Rminus at 1; eapply Rle_trans; [apply Rabs_triang|rewrite Rabs_Ropp; lra]).
  split; intros HC.
  - assert (W1 : Rabs w <= 1) by lra. pose proof (ac_acos L HL _ _ VW W1) as C.
    assert (RT : nacos (n := N) q = Ok (l_acos L q)) by exact (math1_close ValueError _ _ _ C).
    destruct C as (a & VA & EA). change (bpow radix2 (-52)) with (/ 4503599627370496) in EA. pose proof eps_small as EP. destruct tail_consts as (K1 & K2 & _ & K4).
    assert (AW : Rabs (acos w) <= 3.15) by (pose proof (acos_bound w); rewrite Rabs_pos_eq; lra).
    assert (EA' : Rabs (a - acos w) <= 1e-15) by lra. clear EA.
    exists (l_acos L q), a. split; [exact RT|]. split; [exact VA|].
    split. { replace a with (acos w + (a - acos w)) by ring. eapply Rle_trans; [apply Rabs_triang|]. lra. }
    assert (W2 : -1 <= w <= 1) by now apply Rabs_le_inv. assert (C1 : Rabs c <= 1) by lra. apply Rabs_le_inv in C1.
    assert (TR : forall b, Rabs (asin w - asin c) <= b -> Rabs (a - acos c) <= b + 1e-15).
    { intros b Hb. replace (a - acos c) with ((acos w - acos c) + (a - acos w)) by ring. rewrite acos_diff by assumption. eapply Rle_trans; [apply Rabs_triang|]. rewrite Rabs_Ropp. lra. }
    split; [apply TR; apply asin_hoelder; lra|]. intros H99. apply Rle_trans with (2.2e-11 + 1e-15); [|lra]. apply TR.
    apply Rle_trans with (2 := K2). assert (M1 : -1 <= 0.9900001 <= 1) by lra.
    assert (MW : Rabs w <= 0.9900001) by lra. assert (MC : Rabs c <= 0.9900001) by lra. apply (asin_le_asin _ _ M1) in MW, MC.
    assert (CM : cos (asin 0.9900001) = sqrt (1 - 0.9900001 * 0.9900001)) by (rewrite cos_asin; [unfold Rsqr; reflexivity|exact M1]).
    assert (MM : 0 <= asin 0.9900001 < PI / 2).
    { split; [pose proof (Rabs_pos (asin w)); lra|]. destruct (asin_bound 0.9900001) as [_ U]. destruct (Rle_lt_or_eq_dec _ _ U) as [?|E]; [assumption|]. exfalso. rewrite E, cos_PI2 in CM. lra. }
    eapply Rle_trans; [apply (asin_lip_inner w c (asin 0.9900001)); assumption|].
    rewrite CM. set (s := sqrt (1 - 0.9900001 * 0.9900001)) in *. pose proof PI_RGT_0.
    unfold Rdiv at 1 3. apply Rmult_le_compat; [|left; apply Rinv_0_lt_compat; lra| |apply Rinv_le_contravar; lra].
    + apply Rmult_le_pos; [lra|apply Rabs_pos].
    + apply Rmult_le_compat_l; lra.
  - assert (W1 : 1 < Rabs w) by lra. change (math_1 ValueError (l_acos L) q = Err ValueError). unfold math_1.
    rewrite (ac_acos_dom L HL _ _ VW W1). destruct (val_fin _ _ VW) as [-> _]. reflexivity.
Qed.

Lemma hk64 (a : T N) al : val a al -> Rabs al <= 4 -> exists q h, F_hk N [a] = Ok [q] /\ val q h /\ Rabs (h - al * (12 / PI)) <= 4e-15 /\ Rabs h <= 16.
Proof.
  intros V B. destruct (transport L HL F_hk F_hk_rel I_hk [a] [Fin al] _ ltac:(repeat constructor; now apply exact_sat) hk_ok) as (l1 & l2 & T1 & T2 & A).
  pose proof hk_fits as FI. unfold O_hk in A, FI. inv3 A. cbn [forallb] in FI. rewrite !andb_true_iff in FI. destruct FI as (F1 & _).
  destruct (fits_nop _ _ _ _ _ _ _ F1 eq_refl S) as (h & w & V1 & W1 & B1 & _ & E1).
  unfold F_hk in T2. revert T2. rx. intros T2. apply Ok_inj in T2. assert (T2' : Fin (al * (12 / PI)) = y) by congruence. rewrite W1 in T2'. apply Fin_inj in T2'.
  exists x, h. split; [exact T1|]. split; [exact V1|]. split; [|exact B1]. rewrite T2'. lra.
Qed.

Lemma add64 d x v r e : val x v -> Rabs (v - r) <= e -> e * 3600000000 <= 49000 -> -48 <= r <= 64 -> inside_calendar d ->
  exists t t', (k <- timedelta_hours (n := N) x ;; dt_add (same_day d) k) = Ok t /\ (k <- @timedelta_hours MathR (Fin r) ;; dt_add (same_day d) k) = Ok t' /\
    dt_tz t = dt_tz t' /\ Rabs (IZR (dt_local t - dt_local t')) <= 1 + 2e-6 + e * 3600000000.
Proof.
  intros V E He R Hin. destruct (in_day d r Hin R) as (t' & Q').
  assert (BV : Rabs v <= 100) by (apply Rabs_le_inv in E; apply Rabs_le; lra). destruct (td64 x v V BV) as (k & TK & EK).
  apply bind_eq_Ok in Q' as (k' & TK' & Q'). pose proof TK' as TK2. apply hours_inv in TK2 as (r' & RR & KK). apply Fin_inj in RR. subst r'. pose proof (nearest_half (r * 3600000000)) as NH. rewrite <- KK in NH.
  assert (D : Rabs (IZR (k - k')) <= 1 + 2e-6 + e * 3600000000).
  { rewrite minus_IZR. replace (IZR k - IZR k') with ((IZR k - v * 3600000000) + (v - r) * 3600000000 + - (IZR k' - r * 3600000000)) by ring.
    eapply Rle_trans; [apply Rabs_triang|]. rewrite Rabs_Ropp. eapply Rle_trans; [apply Rplus_le_compat_r, Rabs_triang|].
    rewrite Rabs_mult, (Rabs_pos_eq 3600000000) by lra. lra. }
  assert (K2 : (Z.abs (k - k') <= 49001)%Z).
  { apply Z.lt_succ_r, lt_IZR. rewrite abs_IZR. unfold Z.succ. rewrite plus_IZR. lra. }
  assert (K3 : (-172800000001 <= k' <= 230400000001)%Z).
  { apply Rabs_le_inv in NH. split; apply le_IZR; lra. }
  assert (IR : in_range (dt_local (same_day d) + k) = true).
  { unfold inside_calendar in Hin. change us_per_day with 86400000000%Z in *. unfold in_range, same_day. cbn [dt_local].
    change us_per_day with 86400000000%Z. change max_us with (3652059 * 86400000000)%Z in *. clear - Hin K2 K3. zlia. }
  unfold dt_add in Q'. destruct (in_range (dt_local (same_day d) + k')); [|discriminate]. apply Ok_inj in Q'.
  eexists _, t'. split; [change (timedelta_hours (n := N) x) with (py_timedelta_hours x); rewrite TK, bind_Ok; unfold dt_add; rewrite IR; reflexivity|].
  split; [rewrite TK', bind_Ok; unfold dt_add; replace (in_range (dt_local (same_day d) + k')) with true; [now rewrite Q'|]|].
  { symmetry. unfold inside_calendar in Hin. unfold in_range, same_day. cbn [dt_local]. change us_per_day with 86400000000%Z in *. change max_us with (3652059 * 86400000000)%Z in *. clear - Hin K3. zlia. }
  rewrite <- Q'. cbn [dt_tz dt_local]. split; [reflexivity|]. match goal with |- Rabs (IZR ?z) <= _ => replace z with (k - k')%Z by ring end. exact D.
Qed.

Lemma sunrise_assemble (K : Num) (x xo : T K) off day decl TON c0 c1 c2 t1 t2 q :
  F_sr K [lit (off # 1000000); ofZ (N := K) day; xo] = Ok [decl; TON] -> F_hd K [x; decl] = Ok [c0; c1; c2; t2] -> ntan (radians x) = Ok t1 ->
  div c0 (mul c1 c2) = Ok q ->
  sunrise_hours x xo off day = (ac <- nacos (sub q (mul t1 t2)) ;; h <- F_hk K [ac] ;; match h with [ha] => Ok (TON, ha) | _ => Err Unmodelled end).
Proof.
  intros S H T D. unfold F_sr in S. binv S. apply Ok_inj in S. apply list2_inv in S as [<- <-].
  unfold F_hd in H. binv H. apply Ok_inj in H. apply list4_inv in H as (<- & <- & <- & <-).
  unfold sunrise_hours, sunrise_half_day. cbv zeta. rewrite E. cbn [bind]. rewrite E0. cbn [bind]. rewrite E1. cbn [bind]. rewrite E2. cbn [bind].
  rewrite E3. cbn [bind]. rewrite E4. cbn [bind]. rewrite E5. cbn [bind]. rewrite D. cbn [bind]. rewrite T. cbn [bind]. rewrite E6. cbn [bind].
  destruct (nacos _) as [ac|]; [|reflexivity]. cbn [bind]. unfold F_hk. destruct (div _ npi) as [k|]; reflexivity.
Qed.

Lemma sum64 q t h' qh hh r H e : val q t -> val qh hh -> Rabs (t - r) <= 4e-14 -> Rabs (hh - h') <= 4e-15 -> Rabs (h' - H) <= e -> Rabs t <= 49 -> Rabs hh <= 16 ->
  exists a b, val (sub (n := N) q qh) a /\ val (add (n := N) q qh) b /\ Rabs (a - (r - H)) <= e + 6e-14 /\ Rabs (b - (r + H)) <= e + 6e-14.
Proof.
  intros VT VH ET EH E BT BH.
  assert (B1 : Rabs (t - hh) <= 65) by (unfold Rminus; eapply Rle_trans; [apply Rabs_triang|]; rewrite Rabs_Ropp; lra).
  assert (B2 : Rabs (t + hh) <= 65) by (eapply Rle_trans; [apply Rabs_triang|]; lra).
  pose proof (B64Refr.rnd_up _ _ B1) as R1. pose proof (B64Refr.rnd_up _ _ B2) as R2.
  exists (rnd (t - hh)), (rnd (t + hh)). split; [apply val_sub; [exact VT|exact VH|apply big_num; lra]|]. split; [apply val_add; [exact VT|exact VH|apply big_num; lra]|].
  apply Rabs_le_inv in R1, R2, ET, EH, E. split; apply Rabs_le; lra.
Qed.

Lemma bind3 {A} (d1 d2 d3 : res Z) (g : Z -> res A) a b c :
  (k <- d1 ;; g k) = Ok a -> (k <- d2 ;; g k) = Ok b -> (k <- d3 ;; g k) = Ok c ->
  (k1 <- d1 ;; x <- g k1 ;; k2 <- d2 ;; y <- g k2 ;; k3 <- d3 ;; z <- g k3 ;; Ok (x, y, z)) = Ok (a, b, c).
Proof.
  intros H1 H2 H3. apply bind_eq_Ok in H1 as (k1 & -> & H1), H2 as (k2 & -> & H2), H3 as (k3 & -> & H3). cbn [bind]. rewrite H1. cbn [bind]. rewrite H2. cbn [bind]. rewrite H3. reflexivity.
Qed.

Section D.
Context (d : datetime) (u day h m : Z) (Hi : instant d u) (Hc : civil_clock (dt_local d) day h m) (Hin : inside_calendar d).
Context (x xo : f64) (lat lon : R) (Vx : val x lat) (Vo : val xo lon) (Hlat : Rabs lat <= 89) (Hlon : Rabs lon <= 180).
Let c := rising_cosine lat (fourier_declination (IZR day)).


Lemma offset_small : (Z.abs (offset_at d u) < us_per_day)%Z.
Proof. destruct Hi as (tz & o & _ & _ & Ho & ->). unfold offset_at. now replace (dt_local d - (dt_local d - o))%Z with o by lia. Qed.

Lemma sunrise64_both :
  (Rabs c <= 1 - 2e-12 -> exists a b t a' b' t',
     get_sunrise_sunset_transit (N := N) x xo d = Ok (a, b, t) /\ get_sunrise_sunset_transit (N := MathR) (Fin lat) (Fin lon) d = Ok (a', b', t') /\
     apart 50000 a a' /\ apart 50000 b b' /\ apart 1 t t' /\ (Rabs c <= 0.99 -> apart 1 a a' /\ apart 1 b b')) /\
  (1 + 2e-12 <= Rabs c -> get_sunrise_sunset_transit (N := N) x xo d = Err ValueError /\ get_sunrise_sunset_transit (N := MathR) (Fin lat) (Fin lon) d = Err ValueError).
Proof.
  pose proof (fourier_declination_range (IZR day)) as DR. assert (DA : Rabs (fourier_declination (IZR day)) <= 28) by (apply Rabs_le; lra).
  assert (HL' : -90 < lat < 90) by (apply Rabs_le_inv in Hlat; lra). assert (HO' : -180 <= lon <= 180) by (apply Rabs_le_inv in Hlon; lra).
  rewrite (sunrise_val d u day h m Hi Hc lat lon HL').
  assert (CE : cos_H lat (fourier_declination (IZR day)) = c) by (apply cos_H_spec; lra). rewrite CE.
  destruct (yday_bounds _ _ _ _ Hc) as (YB & _).
  destruct (sr64 (offset_at d u) day xo lon offset_small ltac:(lia) Vo Hlon) as (qd & qt & dl & t & F1 & VD & VT & ED & ET & BT).
  destruct (arg64 x lat qd dl _ Vx Hlat VD ED DA) as (c0 & c1 & c2 & t1 & t2 & q & w & F2 & F3 & F4 & VW & EW). rewrite CE in EW.
  pose proof (sunrise_assemble N x xo (offset_at d u) day _ _ _ _ _ _ _ _ F1 F2 F3 F4) as SH.
  assert (SU : get_sunrise_sunset_transit (N := N) x xo d =
    (th <- sunrise_hours (N := N) x xo (offset_at d u) day ;; let '(TON, ha) := th in
     d1 <- timedelta_hours (n := N) (sub (n := N) TON ha) ;; a <- dt_add (same_day d) d1 ;; d2 <- timedelta_hours (n := N) (add (n := N) TON ha) ;; b <- dt_add (same_day d) d2 ;;
     d3 <- timedelta_hours (n := N) TON ;; e <- dt_add (same_day d) d3 ;; Ok (a, b, e))).
  { unfold get_sunrise_sunset_transit. rewrite (instant_aware d u Hi), bind_Ok, (instant_offset d u Hi), bind_Ok. fold (offset_at d u).
    destruct (civil_clock_fields _ _ _ _ Hc) as (Hd & _ & _). unfold timetuple. rewrite Hd. reflexivity. }
  rewrite SU, SH. clear SU SH. destruct (acos_tail _ _ _ VW EW) as [TO TE]. split; intros HC.
  2:{ rewrite (TE HC). split; [reflexivity|]. assert (OK : asin_ok c = false).
      { destruct (asin_ok c) eqn:K; [|reflexivity]. apply asin_ok_iff in K. apply Rabs_le in K. lra. }
      rewrite OK. reflexivity. }
  destruct (TO HC) as (ac & al & RA & VA & BA & EA & EA'). clear TO TE. rewrite RA. cbn [bind].
  destruct (hk64 ac al VA BA) as (qh & hh & FH & VH & EH & BH). rewrite FH. cbn [bind].
  assert (OK : asin_ok c = true) by (apply asin_ok_iff, Rabs_le_inv; lra). rewrite OK. cbv zeta.
  pose proof (acos_hours c) as AH. set (H := acos c * (12 / PI)) in *. set (r := transit_hours (offset_at d u) lon (IZR day)) in *.
  destruct tail_consts as (K1 & _ & K3 & _). pose proof PI_RGT_0 as PP. assert (P12 : 0 < 12 / PI) by (apply Rdiv_lt_0_compat; lra).
  assert (SC' : forall e, Rabs (al - acos c) <= e -> Rabs (al * (12 / PI) - H) <= e * (12 / PI)).
  { intros e He. unfold H. rewrite <- Rmult_minus_distr_r, Rabs_mult, (Rabs_pos_eq (12 / PI)) by lra. apply Rmult_le_compat_r; lra. }
  assert (E1 : Rabs (al * (12 / PI) - H) <= 1.2001e-5).
  { eapply Rle_trans; [apply (SC' _ EA)|]. rewrite Rmult_plus_distr_r. replace (PI * 1e-6 * (12 / PI)) with (12 * 1e-6) by (field; lra).
    assert (1e-15 * (12 / PI) <= 1e-15 * 3.82) by (apply Rmult_le_compat_l; lra). lra. }
  assert (R1 : -48 <= r - H <= 64). { pose proof (calendar_room d u lon (IZR day) (- H) Hi Hin HO' ltac:(lra)) as Q. fold (offset_at d u) in Q. fold r in Q. lra. }
  assert (R2 : -48 <= r + H <= 64). { pose proof (calendar_room d u lon (IZR day) H Hi Hin HO' ltac:(lra)) as Q. fold (offset_at d u) in Q. fold r in Q. lra. }
  assert (R3 : -48 <= r <= 64). { pose proof (calendar_room d u lon (IZR day) 0 Hi Hin HO' ltac:(lra)) as Q. fold (offset_at d u) in Q. fold r in Q. lra. }
  destruct (sum64 qt t _ qh hh r H _ VT VH ET EH E1 BT BH) as (va & vb & VA' & VB' & EVA & EVB).
  destruct (add64 d _ va _ _ VA' EVA ltac:(lra) R1 Hin) as (a & a' & Q1 & Q1' & Z1 & D1).
  destruct (add64 d _ vb _ _ VB' EVB ltac:(lra) R2 Hin) as (b & b' & Q2 & Q2' & Z2 & D2).
  destruct (add64 d _ t _ _ VT ET ltac:(lra) R3 Hin) as (e & e' & Q3 & Q3' & Z3 & D3).
  exists a, b, e, a', b', e'.
  split; [exact (bind3 _ _ _ _ _ _ _ Q1 Q2 Q3)|]. split; [exact (bind3 _ _ _ _ _ _ _ Q1' Q2' Q3')|].
  assert (AP : forall n (f g : datetime) B, dt_tz f = dt_tz g -> Rabs (IZR (dt_local f - dt_local g)) <= B -> B < IZR n + 1 -> apart n f g).
  { intros n f g B Zt HB HN. split; [exact Zt|]. apply Z.lt_succ_r, lt_IZR. unfold Z.succ. rewrite abs_IZR, plus_IZR. lra. }
  split; [apply (AP 50000%Z _ _ _ Z1 D1); cbn [Z.succ]; lra|]. split; [apply (AP 50000%Z _ _ _ Z2 D2); lra|]. split; [apply (AP 1%Z _ _ _ Z3 D3); lra|].
  intros H99. specialize (EA' H99).
  assert (E2 : Rabs (al * (12 / PI) - H) <= 8.5e-11).
  { eapply Rle_trans; [apply (SC' _ EA')|]. apply Rle_trans with (2.21e-11 * 3.82); [apply Rmult_le_compat_l; lra|lra]. }
  clear EVA EVB. destruct (sum64 qt t _ qh hh r H _ VT VH ET EH E2 BT BH) as (va2 & vb2 & VA2 & VB2 & EVA & EVB).
  destruct (add64 d _ va2 _ _ VA2 EVA ltac:(lra) R1 Hin) as (a2 & a2' & P1 & P1' & Y1 & X1).
  destruct (add64 d _ vb2 _ _ VB2 EVB ltac:(lra) R2 Hin) as (b2 & b2' & P2 & P2' & Y2 & X2).
  assert (a2 = a) by (apply Ok_inj; now rewrite <- P1, <- Q1). assert (a2' = a') by (apply Ok_inj; now rewrite <- P1', <- Q1').
  assert (b2 = b) by (apply Ok_inj; now rewrite <- P2, <- Q2). assert (b2' = b') by (apply Ok_inj; now rewrite <- P2', <- Q2'). subst.
  split; [apply (AP 1%Z _ _ _ Y1 X1)|apply (AP 1%Z _ _ _ Y2 X2)]; lra.
Qed.
End D.
End L.

Lemma sunrise64_case : Rabs (rising_cosine 40 (fourier_declination 173)) <= 0.99 /\ 1 + 2e-12 <= Rabs (rising_cosine 80 (fourier_declination 173)).
Proof.
  assert (D : 22 < fourier_declination 173 < 24) by (unfold fourier_declination, sind, cosd, rad; split; interval).
  unfold rising_cosine, cosd, sind. revert D. generalize (fourier_declination 173). intros y D. split; interval.
Qed.

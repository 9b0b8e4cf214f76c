(* get_azimuth_fast in binary64 against exact arithmetic. *)
From Coq Require Import Reals Qreals Lra Lia List.
From Flocq Require Import Core IEEE754.BinarySingleNaN.
From Interval Require Import Tactic.
From Verif Require Import Py Num Cal TzCheck Clock SolarTime Solar Constants RInst RTac SpecTime SpecDt SpecGeom SpecEng Trig GeoProofs CalProofs GenProofs FastProofs
  B64 SpecB64 B64Lemmas B64Witness B64Ranges Rel Absint AbsintSound B64Lift B64Topo B64Pos B64Horiz B64Refr AngleLip SpanProofs SpaProofs B64Fast.
Import ListNotations.
Local Open Scope R_scope.

Definition around (hi e d : Z) : abs_val := Ab (mkab (- (hi * SC)) (hi * SC) ((hi + 1) * SC) (e * SC / d) NoPer).
Lemma around_sat hi e d q v r : val q v -> Rabs r <= IZR hi -> (0 <= e)%Z -> (0 < d)%Z -> Rabs (v - r) <= IZR e / IZR d - / IZR SC -> IZR e / IZR d <= 1 -> satv (around hi e d) q (Fin r).
Proof.
  intros V R He Hd D D1. pose proof SC_pos as P. assert (0 < / IZR SC) by now apply Rinv_0_lt_compat.
  exists v, r, 0%Z. split; [exact V|]. split; [reflexivity|]. cbn [a_lo a_hi a_mag a_err a_per turn].
  rewrite zr_opp, !zr_int. apply Rabs_le_inv in R as R'. split; [lra|]. split.
  - rewrite plus_IZR. replace v with (r + (v - r)) by ring. eapply Rle_trans; [apply Rabs_triang|]. lra.
  - replace (v - r - 0 * 0) with (v - r) by ring. apply Rle_trans with (1 := D). unfold zr.
    pose proof (floor_gt (e * SC) d Hd) as F. rewrite mult_IZR in F. apply Rmult_le_reg_r with (IZR SC); [lra|].
    replace ((IZR e / IZR d - / IZR SC) * IZR SC) with (IZR e * IZR SC / IZR d - 1) by (field; split; [lra|apply IZR_neq; lia]).
    replace (IZR (e * SC / d) / IZR SC * IZR SC) with (IZR (e * SC / d)) by (field; lra). exact F.
Qed.
Definition F_faz : lfun := fun N l => match l with
  | [d; t; alt] =>
      c1 <- ncos (radians d) ;; s1 <- nsin (radians t) ;; c2 <- ncos (radians alt) ;; c3 <- ncos (radians t) ;; t2 <- ntan (radians d) ;;
      Ok [mul (neg c1) s1; c2; c3; t2]
  | _ => Err Unmodelled
  end.
Lemma F_faz_rel : lrel F_faz. Proof. lrel_tac F_faz. Qed.
Definition I_faz : list abs_val := Eval vm_compute in [around 24 13 100000000000000; around 1000 75 100000000000000; around 90 121 1000000000000].
Definition O_faz : list abs_val := Eval vm_compute in outputs (F_faz AI I_faz).
Lemma faz_ok : F_faz AI I_faz = Ok O_faz. Proof. vm_compute. reflexivity. Qed.
Definition O_n : abs_val := Eval vm_compute in nth 0 O_faz Top.
Definition O_c2 : abs_val := Eval vm_compute in nth 1 O_faz Top.
Definition O_c3 : abs_val := Eval vm_compute in nth 2 O_faz Top.
Definition O_t2 : abs_val := Eval vm_compute in nth 3 O_faz Top.
Lemma O_faz_eq : O_faz = [O_n; O_c2; O_c3; O_t2]. Proof. vm_compute. reflexivity. Qed.
Lemma O_n_fits : fits O_n NoPer (-2) 2 19 1000000000000000 = true. Proof. vm_compute. reflexivity. Qed.
Lemma O_c2_fits : fits O_c2 NoPer (-2) 2 212 100000000000000 = true. Proof. vm_compute. reflexivity. Qed.
Lemma O_c3_fits : fits O_c3 NoPer (-2) 2 16 1000000000000000 = true. Proof. vm_compute. reflexivity. Qed.
Lemma O_t2_fits : fits O_t2 NoPer (-2) 2 5 1000000000000000 = true. Proof. vm_compute. reflexivity. Qed.

Lemma list2_inv {A} (a b c d : A) : [a; b] = [c; d] -> a = c /\ b = d. Proof. intros [= -> ->]. auto. Qed.
Lemma Fin_inj a b : Fin a = Fin b -> a = b. Proof. now intros [= ->]. Qed.
(* angles from their sine *)
Lemma angle_of_sine A w : sind A = w -> (0 <= cosd A -> exists k : Z, A = deg (asin w) + 360 * IZR k) /\
  (cosd A <= 0 -> exists k : Z, A = 180 - deg (asin w) + 360 * IZR k).
Proof.
  intros S. pose proof (sind_bound A) as BS. rewrite S in BS. pose proof (deg_asin_range w) as RG.
  assert (SW : sind (deg (asin w)) = w) by (rewrite sind_deg; now apply sin_asin).
  assert (CW : cosd (deg (asin w)) * cosd (deg (asin w)) = cosd A * cosd A).
  { pose proof (sincosd A). pose proof (sincosd (deg (asin w))). rewrite S in *. rewrite SW in *. lra. }
  assert (PW : 0 <= cosd (deg (asin w))) by (now apply cosd_nonneg).
  split; intros C.
  - assert (E : cosd A = cosd (deg (asin w))) by (apply sqr_eq_nonneg; auto).
    destruct (same_sincos A (deg (asin w)) ltac:(congruence) E) as (k & K). exists k. lra.
  - assert (E : - cosd A = cosd (deg (asin w))) by (apply sqr_eq_nonneg; lra).
    destruct (same_sincos A (180 - deg (asin w))) as (k & K); [rewrite sind_supp; congruence|rewrite cosd_supp; lra|]. exists k. lra.
Qed.
Definition F_rad : lfun := fun N l => match l with [a] => Ok [radians a] | _ => Err Unmodelled end.
Lemma F_rad_rel : lrel F_rad. Proof. lrel_tac F_rad. Qed.
Definition Arad : abs_val := Eval vm_compute in nth 0 (outputs (F_rad AI [Ab A90])) Top.
Lemma Arad_ok : F_rad AI [Ab A90] = Ok [Arad]. Proof. vm_compute. reflexivity. Qed.
Lemma Arad_fits : fits Arad NoPer (-2) 2 4 10000000000000000 = true. Proof. vm_compute. reflexivity. Qed.
Definition F_fin : lfun := fun N l => match l with
  | [a; b] => Ok [sub (lit 180) (degrees a); add (degrees a) (mul (lit 360) b)] | _ => Err Unmodelled end.
Lemma F_fin_rel : lrel F_fin. Proof. lrel_tac F_fin. Qed.
Definition Afin : list abs_val := Eval vm_compute in outputs (F_fin AI [exact_in (2 * SC); exact_in SC]).
Lemma Afin_ok : F_fin AI [exact_in (2 * SC); exact_in SC] = Ok Afin. Proof. vm_compute. reflexivity. Qed.
Lemma Afin_fits : forallb (fun a => fits a NoPer (-500) 500 3 10000000000000) Afin = true. Proof. vm_compute. reflexivity. Qed.

Lemma hoelder_const3 : PI * 8.1e-6 <= rad 1.46e-3. Proof. unfold rad. interval. Qed.
Lemma cos_gap3 : 0.0099 <= cos (rad 89.429). Proof. unfold rad. interval. Qed.
Lemma lip_const3 : PI / 2 * 1.31e-10 / 0.0099 <= rad 1.2e-6. Proof. unfold rad. interval. Qed.
Lemma cosd_gap : 1.74e-5 <= cosd 89.999 /\ 0.01745 <= cosd 89. Proof. unfold cosd. split; interval. Qed.
Lemma cosd_even_decr a b : Rabs a <= b -> b <= 90 -> cosd b <= cosd a.
Proof.
  intros A B. assert (E : cosd a = cosd (Rabs a)) by (unfold Rabs; destruct (Rcase_abs a); [now rewrite cosd_opp|reflexivity]). rewrite E.
  pose proof (Rabs_pos a). rewrite !cosd_rad. pose proof PI_RGT_0. assert (rad 90 = PI / 2) by apply rad_90. assert (rad b <= rad 90) by (now apply rad_le).
  assert (0 <= rad (Rabs a)) by (rewrite <- rad_0; now apply rad_le). apply cos_decr_1; try lra; try (apply rad_le; lra).
  apply Rle_trans with (rad b); [apply rad_le|]; lra. rewrite <- rad_0. apply rad_le. lra.
Qed.

Section L.
Variable L : libm.
Hypothesis HL : accurate L.
Notation N := (B64 L).

Lemma tan64 x lat : val x lat -> Rabs lat <= 89.999 ->
  exists q t, ntan (n := N) (radians (n := N) x) = Ok q /\ val q t /\ cosd lat * Rabs (t - tand lat) <= 2.4e-11 /\ Rabs t <= 58000.
Proof.
  intros V B. assert (B90 : Rabs lat <= 90) by lra.
  destruct (transport L HL F_rad F_rad_rel [Ab A90] [x] [Fin lat] _ ltac:(repeat constructor; now apply (exact_sat x lat 90)) Arad_ok) as (l1 & l2 & T1 & T2 & A).
  inv3 A. destruct (fits_nop _ _ _ _ _ _ _ Arad_fits eq_refl S) as (r & ? & VR & ER & _ & _ & E).
  unfold F_rad in T1, T2. rewrite radians_R in T2. apply Ok_inj in T1, T2. injection T1 as T1. injection T2 as T2. subst. injection ER as <-.
  destruct cosd_gap as [G _]. pose proof (cosd_even_decr lat 89.999 B ltac:(lra)) as CL. pose proof (cosd_bound lat) as CB.
  change (radians (n := N) x) with (Bmult mode_NE x deg_to_rad). set (xr := Bmult mode_NE x deg_to_rad) in *. rewrite !cosd_rad in *. set (l := rad lat) in *.
  replace (4 / 10000000000000000) with 4e-16 in E by lra.
  assert (CR : cos l - 4e-16 <= cos r).
  { pose proof (cos_lip r l). apply Rabs_le_inv in E as E'. assert (Rabs (cos r - cos l) <= 4e-16) by lra. apply Rabs_le_inv in H0. lra. }
  assert (CRP : 1.739e-5 <= cos r) by lra.
  assert (TR : Rabs (tan r) <= 57600).
  { unfold tan, Rdiv. rewrite Rabs_mult, Rabs_inv, (Rabs_pos_eq (cos r)) by lra. pose proof (SIN_bound r). assert (Rabs (sin r) <= 1) by (apply Rabs_le; lra).
    assert (/ cos r <= / 1.739e-5) by (apply Rinv_le; lra). assert (0 < / cos r) by (apply Rinv_0_lt_compat; lra). pose proof (Rabs_pos (sin r)).
    replace 57600 with (1 * 57600) by ring. apply Rmult_le_compat; lra. }
  pose proof (ac_tan L HL xr r VR) as C. pose proof (tan_fits (Rabs (tan r)) ltac:(lra)) as TF. specialize (C TF).
  exists (l_tan L xr). destruct C as (t & VT & ET). exists t.
  split; [exact (math1_close ValueError _ _ _ (ac_tan L HL xr r VR TF))|]. split; [exact VT|].
  change (bpow radix2 (-52)) with (/ 4503599627370496) in ET. pose proof eps_small as EP.
  split.
  2:{ replace t with (tan r + (t - tan r)) by ring. eapply Rle_trans; [apply Rabs_triang|]. lra. }
  rewrite tand_rad. fold l.
  assert (D : tan r - tan l = sin (r - l) / (cos r * cos l)).
  { unfold tan. rewrite sin_minus. field. lra. }
  assert (D1 : cos l * Rabs (tan r - tan l) <= 4e-16 / 1.739e-5).
  { rewrite D. unfold Rdiv. rewrite Rabs_mult, Rabs_inv, Rabs_mult, (Rabs_pos_eq (cos r)), (Rabs_pos_eq (cos l)) by lra.
    replace (cos l * (Rabs (sin (r - l)) * / (cos r * cos l))) with (Rabs (sin (r - l)) * / cos r) by (field; lra).
    apply Rmult_le_compat; [apply Rabs_pos|left; apply Rinv_0_lt_compat; lra| |apply Rinv_le; lra].
    eapply Rle_trans; [apply abs_sin|]. exact E. }
  assert (D2 : cos l * Rabs (t - tan r) <= 3e-16).
  { assert (X : cos l * Rabs (tan r) <= 1.001).
    { unfold tan, Rdiv. rewrite Rabs_mult, Rabs_inv, (Rabs_pos_eq (cos r)) by lra. pose proof (SIN_bound r). assert (Rabs (sin r) <= 1) by (apply Rabs_le; lra). pose proof (Rabs_pos (sin r)).
      apply Rmult_le_reg_r with (cos r); [lra|]. replace (cos l * (Rabs (sin r) * / cos r) * cos r) with (cos l * Rabs (sin r)) by (field; lra). nra. }
    apply Rle_trans with (cos l * (Rabs (tan r) * / 4503599627370496 + bpow radix2 (-1074))); [apply Rmult_le_compat_l; lra|]. nra. }
  replace (t - tan l) with ((t - tan r) + (tan r - tan l)) by ring.
  apply Rle_trans with (cos l * (Rabs (t - tan r) + Rabs (tan r - tan l))); [apply Rmult_le_compat_l; [lra|apply Rabs_triang]|].
  rewrite Rmult_plus_distr_l. lra.
Qed.

Lemma asin_tail3 sq w s : val sq w -> -1 <= s <= 1 -> Rabs (w - s) <= 1.31e-10 ->
  (exists a al, nasin (n := N) sq = Ok a /\ val a al /\ Rabs al <= 2 /\ Rabs (deg al - deg (asin s)) <= 1.461e-3 /\ 
     (Rabs (deg (asin s)) <= 89.4275 -> Rabs (deg al - deg (asin s)) <= 1.21e-6)) \/
  (nasin (n := N) sq = Err ValueError /\ 1 - 1.31e-10 <= Rabs s).
Proof.
  intros VW BS EW.
  destruct (Rle_lt_dec (Rabs w) 1) as [W1|W1].
  - left. pose proof (ac_asin L HL _ _ VW W1) as C. 
    assert (RT : nasin (n := N) sq = Ok (l_asin L sq)) by exact (math1_close ValueError _ _ _ C).
    destruct C as (a & VA & EA). change (bpow radix2 (-52)) with (/ 4503599627370496) in EA. pose proof eps_small as EP.
    assert (AW : Rabs (asin w) <= 1.6) by (assert (PI / 2 <= 1.6) by interval; pose proof (asin_bound w); apply Rabs_le; lra).
    assert (EA' : Rabs (a - asin w) <= 4e-16) by lra. clear EA.
    assert (A2 : Rabs a <= 2). { replace a with (asin w + (a - asin w)) by ring. eapply Rle_trans; [apply Rabs_triang|]. lra. }
    exists (l_asin L sq), a. split; [exact RT|]. split; [exact VA|]. split; [exact A2|].
    assert (W2 : -1 <= w <= 1) by now apply Rabs_le_inv. destruct rad_consts as (K1 & K2 & K3).
    assert (D1 : Rabs (deg (a - asin w)) <= 1e-13) by (apply deg_abs; lra).
    assert (D2 : Rabs (deg (asin w - asin s)) <= 1.46e-3).
    { apply deg_abs. eapply Rle_trans; [apply (asin_hoelder w s 8.1e-6); try lra|exact hoelder_const3]. }
    assert (TR : forall b, Rabs (deg (asin w - asin s)) <= b -> Rabs (deg a - deg (asin s)) <= b + 1e-13).
    { intros b Hb. replace (deg a - deg (asin s)) with (deg (a - asin w) + deg (asin w - asin s)) by (rewrite !deg_minus; ring). eapply Rle_trans; [apply Rabs_triang|]. lra. }
    split; [apply TR in D2; lra|]. intros H89.
    assert (D3 : Rabs (deg (asin w - asin s)) <= 1.2e-6).
    { apply deg_abs. apply Rle_trans with (2 := lip_const3).
      assert (MS : Rabs (asin s) <= rad 89.429) by (apply rad_abs_le; lra).
      assert (MW : Rabs (asin w) <= rad 89.429).
      { apply rad_abs_le. replace (deg (asin w)) with (deg (asin s) + deg (asin w - asin s)) by (rewrite deg_minus; ring). eapply Rle_trans; [apply Rabs_triang|]. lra. }
      assert (MM : 0 <= rad 89.429 < PI / 2). { split; [unfold rad; interval|]. rewrite <- rad_90. apply rad_lt. lra. }
      eapply Rle_trans; [apply (asin_lip_inner w s (rad 89.429)); try assumption; lra|].
      pose proof cos_gap3 as G. set (c := cos (rad 89.429)) in *. pose proof PI_RGT_0.
      unfold Rdiv at 1 3. apply Rmult_le_compat; [|left; apply Rinv_0_lt_compat; lra| |apply Rinv_le_contravar; lra].
      - apply Rmult_le_pos; [lra|apply Rabs_pos].
      - apply Rmult_le_compat_l; lra. }
    apply TR in D3. lra.
  - right. split.
    + change (math_1 ValueError (l_asin L) sq = Err ValueError). unfold math_1.
      rewrite (ac_asin_dom L HL _ _ VW W1). destruct (val_fin _ _ VW) as [-> _]. reflexivity.
    + assert (Rabs w <= Rabs s + Rabs (w - s)) by (replace w with (s + (w - s)) at 1 by ring; apply Rabs_triang). lra.
Qed.

Lemma az_fast_assemble (K : Num) (dt : datetime) (lat lon y d t al n c2 c3 t1 t2 : T K) : tm_yday (clock_math K) dt = Ok y -> get_declination y = Ok d ->
  get_hour_angle (C := clock_math K) dt lon = Ok t -> get_altitude_fast (C := clock_math K) lat lon dt = Ok al ->
  F_faz K [d; t; al] = Ok [n; c2; c3; t2] -> ntan (radians lat) = Ok t1 ->
  get_azimuth_fast (C := clock_math K) lat lon dt =
    (q <- div n c2 ;; a <- nasin q ;;
     Ok (where_ (le t2 (mul c3 t1)) (sub (lit 180) (degrees a)) (add (degrees a) (mul (lit 360) (of_bool (lt a (lit 0))))))).
Proof.
  intros Y D G H F T. unfold F_faz in F. binv F. apply Ok_inj in F. injection F as <- <- <- <-.
  unfold get_azimuth_fast. rewrite Y. cbn [bind]. rewrite D. cbn [bind]. cbv zeta. rewrite G. cbn [bind]. rewrite H. cbn [bind].
  rewrite E. cbn [bind]. rewrite E0. cbn [bind]. rewrite E1. cbn [bind].
  destruct (div _ _) as [q|]; [|reflexivity]. cbn [bind]. destruct (nasin q) as [a|]; [|reflexivity]. cbn [bind].
  rewrite E2. cbn [bind]. rewrite T. cbn [bind]. rewrite E3. reflexivity.
Qed.

Lemma finish64 a al b : val a al -> Rabs al <= 2 -> (exists v v' , val (sub (n := N) (lit (n := N) 180) (degrees (n := N) a)) v /\ Rabs (v - (180 - deg al)) <= 3e-13 /\
  val (add (n := N) (degrees (n := N) a) (mul (n := N) (lit (n := N) 360) (of_bool (n := N) b))) v' /\ Rabs (v' - (deg al + 360 * (if b then 1 else 0))) <= 3e-13).
Proof.
  intros V A. set (z := of_bool (n := N) b).
  assert (VZ : val z (if b then 1 else 0)) by (unfold z; destruct b; [apply (val_int 1); lia|split; reflexivity]).
  assert (SZ : satv (exact_in SC) z (Fin (if b then 1 else 0))) by (apply (exact_sat z _ 1 VZ); destruct b; [rewrite Rabs_R1|rewrite Rabs_R0]; lra).
  destruct (transport L HL F_fin F_fin_rel [exact_in (2 * SC); exact_in SC] [a; z] [Fin al; Fin (if b then 1 else 0)] _ ltac:(repeat constructor; [now apply exact_sat|exact SZ]) Afin_ok) as (l1 & l2 & T1 & T2 & Z).
  pose proof Afin_fits as FI. unfold Afin in Z, FI. inv3 Z. cbn [forallb] in FI. rewrite !andb_true_iff in FI. destruct FI as (F1 & F2 & _).
  unfold F_fin in T1, T2. apply Ok_inj in T1, T2. apply list2_inv in T1 as [T1 T1'], T2 as [T2 T2'].
  destruct (fits_nop _ _ _ _ _ _ _ F1 eq_refl S) as (v & w & V1 & W1 & _ & _ & E1).
  destruct (fits_nop _ _ _ _ _ _ _ F2 eq_refl S0) as (v' & w' & V2 & W2 & _ & _ & E2).
  rewrite <- T1 in V1. rewrite <- T1' in V2. rewrite W1 in T2. rewrite W2 in T2'. exists v, v'.
  rewrite degrees_R, lit_R, sub_R in T2. rewrite degrees_R, lit_R, mul_R, add_R in T2'.
  apply Fin_inj in T2, T2'. replace (Q2R 180) with 180 in T2 by (unfold Q2R; simpl; lra). replace (Q2R 360) with 360 in T2' by (unfold Q2R; simpl; lra).
  rewrite T2, T2'. split; [exact V1|]. split; [lra|]. split; [exact V2|]. lra.
Qed.

Lemma sind_90_sub a : sind (90 - a) = cosd a.
Proof. rewrite sind_rad, cosd_rad. replace (rad (90 - a)) with (PI / 2 - rad a) by (unfold rad; field). apply sin_shift. Qed.
Lemma near_right th : -90 <= th <= 90 -> cosd th <= 1.5e-9 -> 90 - Rabs th <= 1e-7.
Proof.
  intros B C. apply Rnot_lt_le. intros G. assert (E : cosd th = sind (90 - Rabs th)).
  { rewrite sind_90_sub. unfold Rabs. destruct (Rcase_abs th); [now rewrite cosd_opp|reflexivity]. }
  assert (X : 1.6e-9 <= sind 1e-7) by (unfold sind; interval with (i_prec 80)). pose proof (Rabs_pos th).
  assert (sind 1e-7 < sind (90 - Rabs th)) by (apply sind_incr; lra). lra.
Qed.
Lemma inner_right th : -90 <= th <= 90 -> 0.01 <= cosd th -> Rabs th <= 89.4275.
Proof.
  intros B C. apply Rnot_lt_le. intros G. assert (X : cosd 89.4275 <= 0.00999999) by (unfold cosd; interval).
  assert (Rabs th <= 90) by (apply Rabs_le; lra). assert (E : cosd th = cosd (Rabs th)) by (unfold Rabs; destruct (Rcase_abs th); [now rewrite cosd_opp|reflexivity]).
  pose proof (cosd_even_decr 89.4275 (Rabs th)). rewrite (Rabs_pos_eq 89.4275) in H0 by lra. lra.
Qed.

(* the choice between the two halves of the horizon *)
Lemma choose_half A w (b : bool) be : sind A = w -> (if b then cosd A <= 1.5e-9 else - (1.5e-9) <= cosd A) ->
  forall th, Rabs (th - deg (asin w)) <= be -> exists k : Z, let r := Rabs ((if b then 180 - th else th) - A - 360 * IZR k) in
    r <= be + 2e-7 /\ (1.5e-9 < Rabs (cosd A) -> r <= be).
Proof.
  intros S C th Ht. destruct (angle_of_sine A w S) as [P1 P2]. pose proof (deg_asin_range w) as RG. set (ts := deg (asin w)) in *.
  assert (SW : sind ts = w) by (pose proof (sind_bound A) as X; rewrite S in X; unfold ts; rewrite sind_deg; now apply sin_asin).
  assert (CW : cosd ts = Rabs (cosd A)).
  { apply sqr_eq_nonneg; [now apply cosd_nonneg|apply Rabs_pos|]. rewrite <- Rabs_mult, Rabs_pos_eq by apply Rle_0_sqr. pose proof (sincosd A). pose proof (sincosd ts). rewrite S in *. rewrite SW in *. lra. }
  apply Rabs_le_inv in Ht as Ht'.
  assert (WR : Rabs (cosd A) <= 1.5e-9 -> 90 - Rabs ts <= 1e-7) by (intros X; apply near_right; [exact RG|lra]).
  assert (GO : forall (k : Z) z y, z - A - 360 * IZR k = y -> Rabs y <= be -> exists k : Z, let r := Rabs (z - A - 360 * IZR k) in r <= be + 2e-7 /\ (1.5e-9 < Rabs (cosd A) -> r <= be)).
  { intros k z y E Y. exists k. cbv zeta. rewrite E. split; [lra|auto]. }
  assert (BAD : Rabs (cosd A) <= 1.5e-9 -> forall (k : Z) z y, z - A - 360 * IZR k = y -> Rabs y <= be + 2e-7 -> exists k : Z, let r := Rabs (z - A - 360 * IZR k) in r <= be + 2e-7 /\ (1.5e-9 < Rabs (cosd A) -> r <= be)).
  { intros X k z y E Y. exists k. cbv zeta. rewrite E. split; [lra|]. intros. lra. }
  assert (HB : forall k : Z, Rabs (IZR k) = IZR (Z.abs k)) by (intros; now rewrite abs_IZR).
  destruct b; destruct (Rle_lt_dec (cosd A) 0) as [Z|Z].
  - destruct (P2 Z) as (k & K). apply (GO (- k)%Z _ (ts - th)); [rewrite opp_IZR; lra|]. now rewrite Rabs_minus_sym.
  - destruct (P1 ltac:(lra)) as (k & K). assert (X : Rabs (cosd A) <= 1.5e-9) by (rewrite Rabs_pos_eq; lra). specialize (WR X).
    unfold Rabs in WR. destruct (Rcase_abs ts).
    + apply (BAD X (1 - k)%Z _ (180 - th - ts - 360)); [rewrite minus_IZR; lra|]. apply Rabs_le. lra.
    + apply (BAD X (- k)%Z _ (180 - th - ts)); [rewrite opp_IZR; lra|]. apply Rabs_le. lra.
  - destruct (Req_dec (cosd A) 0) as [Z0|Z0].
    + destruct (P1 ltac:(lra)) as (k & K). apply (GO (- k)%Z _ (th - ts)); [rewrite opp_IZR; lra|exact Ht].
    + destruct (P2 Z) as (k & K). assert (X : Rabs (cosd A) <= 1.5e-9) by (rewrite Rabs_left1; lra). specialize (WR X).
      unfold Rabs in WR. destruct (Rcase_abs ts).
      * apply (BAD X (-1 - k)%Z _ (th - 180 + ts + 360)); [rewrite minus_IZR; lra|]. apply Rabs_le. lra.
      * apply (BAD X (- k)%Z _ (th - 180 + ts)); [rewrite opp_IZR; lra|]. apply Rabs_le. lra.
  - destruct (P1 ltac:(lra)) as (k & K). apply (GO (- k)%Z _ (th - ts)); [rewrite opp_IZR; lra|exact Ht].
Qed.

Lemma F_faz_R D T E : cosd D <> 0 -> F_faz MathR [Fin D; Fin T; Fin E] = Ok [Fin (- cosd D * sind T); Fin (cosd E); Fin (cosd T); Fin (tand D)].
Proof. intros H. unfold F_faz. rewrite !radians_R, !nsin_R, !ncos_R, ntan_R by now apply cos_rad_ne0. cbn [bind]. now rewrite neg_R, !mul_R, !sind_rad, !cosd_rad, !tand_rad. Qed.

Lemma sq_small v : v * v <= 2.62e-10 -> Rabs v <= 1.7e-5.
Proof. intros H. apply Rnot_lt_le. intros G. assert (Q : Rabs v * Rabs v = v * v) by (rewrite <- Rabs_mult, Rabs_pos_eq; [reflexivity|apply Rle_0_sqr]). nra. Qed.
Lemma prod_hi a e : 0.01745 <= e -> 0 < a -> a * e <= 2.6e-11 -> a <= 1.5e-9.
Proof. intros. nra. Qed.
Lemma prod_lo a e : 0.01745 <= e -> a < 0 -> - (2.6e-11) <= a * e -> - (1.5e-9) <= a.
Proof. intros. nra. Qed.
Lemma unit_lo c p q : 0 <= c <= 1 -> - q <= p -> 0 <= q -> - q <= c * p.
Proof. intros. nra. Qed.
Lemma unit_hi c p q : 0 <= c <= 1 -> p <= q -> 0 <= q -> c * p <= q.
Proof. intros. nra. Qed.
Lemma prod_bound u v m n : Rabs u <= m -> Rabs v <= n -> Rabs (u * v) <= m * n.
Proof. intros. rewrite Rabs_mult. apply Rmult_le_compat; try apply Rabs_pos; assumption. Qed.

Lemma az_core x lat qd d qt t qa e D T E A : val x lat -> val qd d -> val qt t -> val qa e -> Rabs lat <= 89.999 ->
  Rabs (d - D) <= 1.2e-13 -> Rabs D <= 24 -> Rabs (t - T) <= 7.4e-13 -> Rabs T <= 1000 -> Rabs (e - E) <= 1.2e-10 -> Rabs E <= 89 ->
  horizontal_coordinates lat (equatorial D T) A E ->
  exists n c2 c3 t1 t2, F_faz N [qd; qt; qa] = Ok [n; c2; c3; t2] /\ ntan (n := N) (radians (n := N) x) = Ok t1 /\
    let RES := (q <- div (n := N) n c2 ;; a <- nasin (n := N) q ;;
     Ok (where_ (n := N) (le (n := N) t2 (mul (n := N) c3 t1)) (sub (n := N) (lit (n := N) 180) (degrees (n := N) a))
       (add (n := N) (degrees (n := N) a) (mul (n := N) (lit (n := N) 360) (of_bool (n := N) (lt (n := N) a (lit (n := N) 0))))))) in
    (exists q a (k : Z), RES = Ok q /\ val q a /\ Rabs (a - A - 360 * IZR k) <= 0.0015 /\ (0.01 <= Rabs (cosd A) -> Rabs (a - A - 360 * IZR k) <= 1.3e-6)) \/
    (RES = Err ValueError /\ Rabs (cosd A) <= 1.7e-5).
Proof.
  intros V Vd Vt Ve BL D1 BD D2 BT D3 BE (H1 & H2 & H3).
  assert (SCB : / IZR SC <= 1e-20). { replace 1e-20 with (/ 1e20) by lra. apply Rinv_le; [lra|]. unfold SC. lra. }
  assert (CD : 0 < cosd D) by (apply cosd_pos; apply Rabs_le_inv in BD; lra).
  destruct (transport L HL F_faz F_faz_rel I_faz [qd; qt; qa] [Fin D; Fin T; Fin E] _
    ltac:(repeat constructor; [apply (around_sat 24 13 100000000000000 _ d)|apply (around_sat 1000 75 100000000000000 _ t)|apply (around_sat 90 121 1000000000000 _ e)]; (assumption || lia || lra)) faz_ok) as (l1 & l2 & T1 & T2 & Z).
  rewrite O_faz_eq in Z. inv3 Z. rewrite F_faz_R in T2 by lra. apply Ok_inj in T2. injection T2 as <- <- <- <-.
  destruct (fits_nop _ _ _ _ _ _ _ O_n_fits eq_refl S) as (n & ? & VN & [= <-] & _ & BN & EN).
  destruct (fits_nop _ _ _ _ _ _ _ O_c2_fits eq_refl S0) as (c2 & ? & VC & [= <-] & _ & _ & EC).
  destruct (fits_nop _ _ _ _ _ _ _ O_c3_fits eq_refl S1) as (c3 & ? & VC3 & [= <-] & BC3 & _ & EC3).
  destruct (fits_nop _ _ _ _ _ _ _ O_t2_fits eq_refl S2) as (t2 & ? & VT2 & [= <-] & _ & _ & ET2).
  clear S S0 S1 S2. destruct (tan64 x lat V BL) as (q1 & t1 & RT1 & VT1 & ET1 & BT1).
  exists x0, x1, x2, q1, x3. split; [exact T1|]. split; [exact RT1|]. clear T1 RT1.
  destruct cosd_gap as [G1 G2]. pose proof (cosd_even_decr lat 89.999 BL ltac:(lra)) as CL. pose proof (cosd_even_decr E 89 BE ltac:(lra)) as CE.
  pose proof (cosd_bound lat) as CBL. pose proof (cosd_bound E) as CBE. pose proof (cosd_bound T) as CBT. pose proof (cosd_bound D) as CBD.
  (* the quotient *)
  assert (HN : - cosd D * sind T = sind A * cosd E).
  { rewrite <- H1. unfold dot, equatorial, east. ring. }
  assert (WS : (- cosd D * sind T) / cosd E = sind A) by (rewrite HN; field; lra).
  apply Rabs_le_inv in EC as EC'. assert (C2P : 0.0174 <= c2) by lra.
  assert (QE : Rabs (n / c2 - sind A) <= 1.3e-10).
  { replace (n / c2 - sind A) with ((n - - cosd D * sind T + sind A * (cosd E - c2)) / c2) by (rewrite HN; field; lra).
    unfold Rdiv. rewrite Rabs_mult, Rabs_inv, (Rabs_pos_eq c2) by lra. pose proof (sind_bound A).
    assert (Rabs (sind A * (cosd E - c2)) <= 2.12e-12).
    { rewrite Rabs_mult. assert (Rabs (sind A) <= 1) by (apply Rabs_le; lra). assert (Rabs (cosd E - c2) <= 2.12e-12) by (rewrite Rabs_minus_sym; lra). pose proof (Rabs_pos (sind A)). pose proof (Rabs_pos (cosd E - c2)). nra. }
    apply Rle_trans with (2.15e-12 * / 0.0174); [|lra].
    apply Rmult_le_compat; [apply Rabs_pos|left; apply Rinv_0_lt_compat; lra| |apply Rinv_le; lra].
    eapply Rle_trans; [apply Rabs_triang|]. lra. }
  pose proof (sind_bound A) as BSA.
  assert (QB : Rabs (n / c2) <= 2). { replace (n / c2) with (sind A + (n / c2 - sind A)) by ring. eapply Rle_trans; [apply Rabs_triang|]. assert (Rabs (sind A) <= 1) by (apply Rabs_le; lra). lra. }
  assert (QB' : Rabs (n / c2) <= 1e30) by lra. assert (NZ : c2 <> 0) by lra. pose proof (val_div x0 x1 n c2 VN VC NZ (big_num _ QB')) as VQ.
  assert (QZ : div (n := N) x0 x1 = Ok (Bdiv mode_NE x0 x1)) by (cbn [div B64]; rewrite (val_nz x1 c2 VC) by lra; reflexivity).
  set (fq := Bdiv mode_NE x0 x1) in *. set (w := rnd (n / c2)) in *.
  assert (WE : Rabs (w - sind A) <= 1.31e-10).
  { replace (w - sind A) with ((w - n / c2) + (n / c2 - sind A)) by ring. eapply Rle_trans; [apply Rabs_triang|].
    pose proof (B64Refr.rnd_up (n / c2) 2 QB). fold w in H. lra. }
  cbv zeta. rewrite QZ. cbn [bind].
  destruct (asin_tail3 fq w (sind A) VQ BSA WE) as [(a & al & RA & VA & BA & EA & EA')|[RA GA]]; rewrite RA; cbn [bind]; [left|right].
  2:{ split; [reflexivity|]. pose proof (sincosd A) as SA. assert (Q : Rabs (sind A) * Rabs (sind A) = sind A * sind A) by (rewrite <- Rabs_mult, Rabs_pos_eq; [reflexivity|apply Rle_0_sqr]).
      apply sq_small. clear - SA Q GA BSA. nra. }
  (* the comparison *)
  set (fc := mul (n := N) x2 q1). assert (C3' : Rabs c3 <= 2) by (replace c3 with (cosd T + (c3 - cosd T)) by ring; eapply Rle_trans; [apply Rabs_triang|]; assert (Rabs (cosd T) <= 1) by (apply Rabs_le; lra); lra).
  pose proof (prod_bound c3 t1 2 58000 C3' BT1) as PB.
  assert (PB' : Rabs (c3 * t1) <= 1e30) by lra. pose proof (val_mul x2 q1 c3 t1 VC3 VT1 (big_num _ PB')) as VP. change (Bmult mode_NE x2 q1) with fc in VP.
  assert (BCMP : le (n := N) x3 fc = Rle_bool t2 (rnd (c3 * t1))) by exact (val_le x3 fc t2 _ VT2 VP).
  assert (PE : cosd lat * Rabs (rnd (c3 * t1) - cosd T * tand lat) <= 2.5e-11).
  { assert (R1 : Rabs (rnd (c3 * t1) - c3 * t1) <= Rabs (c3 * t1) * 1.1103e-16 + 1e-20) by (apply B64Refr.rnd_up; lra).
    assert (TL : cosd lat * Rabs (tand lat) <= 1).
    { rewrite tand_def. unfold Rdiv. rewrite Rabs_mult, Rabs_inv, (Rabs_pos_eq (cosd lat)) by lra. pose proof (sind_bound lat). assert (Rabs (sind lat) <= 1) by (apply Rabs_le; lra).
      replace (cosd lat * (Rabs (sind lat) * / cosd lat)) with (Rabs (sind lat)) by (field; lra). lra. }
    assert (TL1 : cosd lat * Rabs t1 <= 1.001).
    { apply Rle_trans with (cosd lat * (Rabs (tand lat) + Rabs (t1 - tand lat))); [|rewrite Rmult_plus_distr_l; lra].
      apply Rmult_le_compat_l; [lra|]. replace t1 with (tand lat + (t1 - tand lat)) at 1 by ring. apply Rabs_triang. }
    assert (C3 : Rabs c3 <= 1.01). { replace c3 with (cosd T + (c3 - cosd T)) by ring. eapply Rle_trans; [apply Rabs_triang|]. assert (Rabs (cosd T) <= 1) by (apply Rabs_le; lra). lra. }
    replace (rnd (c3 * t1) - cosd T * tand lat) with ((rnd (c3 * t1) - c3 * t1) + ((c3 - cosd T) * t1 + cosd T * (t1 - tand lat))) by ring.
    apply Rle_trans with (cosd lat * ((Rabs c3 * Rabs t1 * 1.1103e-16 + 1e-20) + (Rabs (c3 - cosd T) * Rabs t1 + 1 * Rabs (t1 - tand lat)))).
    - apply Rmult_le_compat_l; [lra|]. eapply Rle_trans; [apply Rabs_triang|]. apply Rplus_le_compat; [rewrite <- Rabs_mult; exact R1|].
      eapply Rle_trans; [apply Rabs_triang|]. rewrite !Rabs_mult. assert (Rabs (cosd T) <= 1) by (apply Rabs_le; lra). apply Rplus_le_compat; [lra|]. apply Rmult_le_compat_r; [apply Rabs_pos|lra].
    - set (z := Rabs t1) in *. set (y := Rabs (t1 - tand lat)) in *. set (c := cosd lat) in *. set (cc := Rabs c3) in *. set (dc := Rabs (c3 - cosd T)) in *.
      assert (0 <= cc /\ 0 <= z /\ 0 <= dc) by (repeat split; apply Rabs_pos).
      replace (c * (cc * z * 1.1103e-16 + 1e-20 + (dc * z + 1 * y))) with ((cc * 1.1103e-16 + dc) * (c * z) + c * 1e-20 + c * y) by lra.
      assert ((cc * 1.1103e-16 + dc) * (c * z) <= 1.7e-14 * 1.001); [|lra]. apply Rmult_le_compat; try lra. apply Rmult_le_pos; lra. }
  assert (NO : cosd A * cosd E = (tand D - cosd T * tand lat) * cosd lat * cosd D).
  { rewrite <- H2. rewrite !tand_def. unfold dot, equatorial, north. field. split; lra. }
  set (b := Rle_bool t2 (rnd (c3 * t1))) in *.
  assert (HB : if b then cosd A <= 1.5e-9 else - (1.5e-9) <= cosd A).
  { set (p := rnd (c3 * t1)) in *. apply Rabs_le_inv in ET2.
    assert (PE' : - (2.5e-11) <= cosd lat * (p - cosd T * tand lat) <= 2.5e-11).
    { apply Rabs_le_inv. rewrite Rabs_mult, (Rabs_pos_eq (cosd lat)) by lra. exact PE. }
    unfold b. destruct (Rle_bool_spec t2 p) as [Q|Q].
    - assert (X : (tand D - cosd T * tand lat) * cosd lat <= 2.6e-11).
      { replace ((tand D - cosd T * tand lat) * cosd lat) with (cosd lat * (p - cosd T * tand lat) + cosd lat * (tand D - p)) by ring.
        pose proof (unit_hi (cosd lat) (tand D - p) 1e-14). lra. }
      destruct (Rle_lt_dec (cosd A) 0); [lra|]. apply (prod_hi (cosd A) (cosd E)); [lra|assumption|]. rewrite NO, Rmult_comm. apply unit_hi; lra.
    - assert (X : - (2.6e-11) <= (tand D - cosd T * tand lat) * cosd lat).
      { replace ((tand D - cosd T * tand lat) * cosd lat) with (cosd lat * (p - cosd T * tand lat) + cosd lat * (tand D - p)) by ring.
        pose proof (unit_lo (cosd lat) (tand D - p) 1e-14). lra. }
      destruct (Rle_lt_dec 0 (cosd A)); [lra|]. apply (prod_lo (cosd A) (cosd E)); [lra|assumption|]. rewrite NO, Rmult_comm. apply unit_lo; lra. }
  set (b2 := lt (n := N) a (lit (n := N) 0)). destruct (finish64 a al b2 VA BA) as (v & v' & F1 & F2 & F3 & F4).
  destruct (choose_half A (sind A) b 1.461e-3 eq_refl HB (deg al) EA) as (k & K1 & K2). cbv zeta in K1, K2.
  assert (SM : 0.01 <= Rabs (cosd A) -> Rabs (deg al - deg (asin (sind A))) <= 1.21e-6).
  { intros X. apply EA'. apply inner_right; [apply deg_asin_range|]. 
    assert (CW : cosd (deg (asin (sind A))) = Rabs (cosd A)); [|lra].
    apply sqr_eq_nonneg; [apply cosd_nonneg, deg_asin_range|apply Rabs_pos|]. rewrite <- Rabs_mult, Rabs_pos_eq by apply Rle_0_sqr.
    rewrite cosd_deg, cos_asin_sqr by exact BSA. pose proof (sincosd A). lra. }
  assert (R : exists q r (j : Z), (if b then sub (n := N) (lit (n := N) 180) (degrees (n := N) a) else add (n := N) (degrees (n := N) a) (mul (n := N) (lit (n := N) 360) (of_bool (n := N) b2))) = q /\
     val q r /\ Rabs (r - (if b then 180 - deg al else deg al) - 360 * IZR j) <= 3e-13).
  { destruct b; [exists (sub (n := N) (lit (n := N) 180) (degrees (n := N) a)), v, 0%Z|exists (add (n := N) (degrees (n := N) a) (mul (n := N) (lit (n := N) 360) (of_bool (n := N) b2))), v', (if b2 then 1 else 0)%Z];
      (split; [reflexivity|]); (split; [assumption|]).
    - replace (v - (180 - deg al) - 360 * 0) with (v - (180 - deg al)) by ring. exact F2.
    - replace (v' - deg al - 360 * IZR (if b2 then 1 else 0)%Z) with (v' - (deg al + 360 * (if b2 then 1 else 0))) by (destruct b2; ring). exact F4. }
  destruct R as (q & r & j & RQ & VR & ER).
  assert (WH : where_ (n := N) (le (n := N) x3 fc) (sub (n := N) (lit (n := N) 180) (degrees (n := N) a)) (add (n := N) (degrees (n := N) a) (mul (n := N) (lit (n := N) 360) (of_bool (n := N) b2))) = q).
  { rewrite BCMP. exact RQ. }
  assert (FIN : forall be, (exists k : Z, Rabs ((if b then 180 - deg al else deg al) - A - 360 * IZR k) <= be) -> exists k : Z, Rabs (r - A - 360 * IZR k) <= be + 3e-13).
  { intros be (k' & K'). exists (k' + j)%Z. rewrite plus_IZR. set (y := if b then 180 - deg al else deg al) in *.
    replace (r - A - 360 * (IZR k' + IZR j)) with ((r - y - 360 * IZR j) + (y - A - 360 * IZR k')) by ring. eapply Rle_trans; [apply Rabs_triang|]. lra. }
  destruct (Rle_lt_dec 0.01 (Rabs (cosd A))) as [BIG|SMALL].
  - destruct (choose_half A (sind A) b 1.21e-6 eq_refl HB (deg al) (SM BIG)) as (k2 & _ & K4). cbv zeta in K4. specialize (K4 ltac:(lra)).
    destruct (FIN _ (ex_intro _ k2 K4)) as (k3 & K3). exists q, r, k3. split; [now rewrite WH|]. split; [exact VR|]. split; [lra|]. intros _. lra.
  - destruct (FIN _ (ex_intro _ k K1)) as (k3 & K3). exists q, r, k3. split; [now rewrite WH|]. split; [exact VR|]. split; [lra|]. intros; lra.
Qed.

Lemma azimuth_fast64 lat lon x xo dt u E : instant dt u -> in_range u = true -> val x lat -> val xo lon -> -89.999 <= lat <= 89.999 -> -360 <= lon <= 360 ->
  get_altitude_fast (N := MathR) (C := clock_math MathR) (Fin lat) (Fin lon) dt = Ok (Fin E) -> Rabs E <= 89 ->
  exists A, get_azimuth_fast (N := MathR) (C := clock_math MathR) (Fin lat) (Fin lon) dt = Ok (Fin A) /\
    ((exists q a (k : Z), get_azimuth_fast (N := N) (C := clock_math N) x xo dt = Ok q /\ val q a /\ Rabs (a - A - 360 * IZR k) <= 0.0015 /\
       (0.01 <= Rabs (cosd A) -> Rabs (a - A - 360 * IZR k) <= 1.3e-6)) \/
     (get_azimuth_fast (N := N) (C := clock_math N) x xo dt = Err ValueError /\ Rabs (cosd A) <= 1.7e-5)).
Proof.
  intros Hi Hr V Vo B Bo HE BE. destruct (civil_clock_exists u) as (day & h & m & Hc).
  destruct (fast64 L HL lat lon x xo dt u day h m Hi Hr Hc V Vo ltac:(lra) Bo) as (qd & qe & qh & qs & d & e & t & s & F & VD & VE & VH & VS & ED & EE & EH & BH & ES).
  destruct (clock64 L dt u day h m Hi Hr Hc) as (AW & C1 & C2 & C3).
  destruct (fast_assemble N dt x xo _ _ _ _ _ _ _ AW C1 C2 C3 F) as (R1 & R2 & R3 & _).
  destruct (altitude_fast64 L HL lat lon x xo dt u Hi Hr V Vo ltac:(lra) Bo) as (E' & HE' & R). rewrite HE in HE'. apply Ok_inj, Fin_inj in HE'. subst E'.
  destruct R as [(qa & a & R4 & VA & _ & EA)|[_ G]]; [|lra]. specialize (EA BE).
  destruct (altitude_fast_val dt u day h m lat lon Hi Hr Hc) as (Hb & Ea). cbv zeta in Hb, Ea. rewrite HE in Ea. apply Ok_inj, Fin_inj in Ea.
  destruct (azimuth_fast_cases dt u day h m lat lon Hi Hr Hc ltac:(lra)) as [[Z0 _]|(CP & A & HA & RA & HC)]; rewrite <- Ea in *.
  { destruct cosd_gap as [_ G2]. pose proof (cosd_even_decr E 89 BE ltac:(lra)). lra. }
  exists A. split; [exact HA|]. pose proof (masters_declination_range (IZR day)) as RD.
  destruct (az_core x lat qd d qh t qa a _ _ E A V VD VH VA ltac:(apply Rabs_le; lra) ED ltac:(apply Rabs_le; lra) EH BH EA BE HC) as (n & c2 & c3 & t1 & t2 & P1 & P2 & P3).
  rewrite (az_fast_assemble N dt x xo _ _ _ _ _ _ _ _ _ C1 R1 R3 R4 P1 P2). exact P3.
Qed.
End L.

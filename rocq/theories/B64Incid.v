(* The incidence angle and the elevation formulas in binary64 against exact arithmetic. *)
From Coq Require Import Reals Qreals Lra Lia List ZifyBool.
From Flocq Require Import Core IEEE754.BinarySingleNaN.
From Interval Require Import Tactic.
From Verif Require Import Py Num Cal TzCheck Clock Constants SolarTime Solar RInst RTac SpecGeom Trig GeoProofs SphereProofs
  B64 SpecB64 B64Lemmas B64Ranges Rel Absint AbsintSound B64Lift B64Topo B64Pos B64Horiz AngleLip B64Fast B64FastAz B64Sunrise.
Import ListNotations.
Local Open Scope R_scope.

Definition F_ic : lfun := fun N l => match l with
  | [z; s; o; a] =>
      c1 <- ncos (radians z) ;; c2 <- ncos (radians s) ;; s1 <- nsin (radians s) ;; s2 <- nsin (radians z) ;;
      c3 <- ncos (sub (sub (radians a) npi) (radians o)) ;; Ok [add (mul c1 c2) (mul (mul s1 s2) c3)]
  | _ => Err Unmodelled
  end.
Lemma F_ic_rel : lrel F_ic. Proof. lrel_tac F_ic. Qed.
Definition I_ic : list abs_val := [exact_in (360 * SC); exact_in (360 * SC); exact_in (360 * SC); exact_in (360 * SC)].
Definition O_ic : list abs_val := Eval vm_compute in outputs (F_ic AI I_ic).
Lemma ic_ok : F_ic AI I_ic = Ok O_ic. Proof. vm_compute. reflexivity. Qed.
Lemma ic_fits : forallb (fun a => fits a NoPer (-3) 3 1 100000000000000) O_ic = true. Proof. vm_compute. reflexivity. Qed.

Definition F_dg : lfun := fun N l => match l with [a] => Ok [degrees a] | _ => Err Unmodelled end.
Lemma F_dg_rel : lrel F_dg. Proof. lrel_tac F_dg. Qed.
Definition I_dg : list abs_val := [exact_in (4 * SC)].
Definition O_dg : list abs_val := Eval vm_compute in outputs (F_dg AI I_dg).
Lemma dg_ok : F_dg AI I_dg = Ok O_dg. Proof. vm_compute. reflexivity. Qed.
Lemma dg_fits : forallb (fun a => fits a NoPer (-230) 230 1 10000000000000) O_dg = true. Proof. vm_compute. reflexivity. Qed.

Lemma ic_consts : PI / 2 * 1e-14 / 0.14 <= 1.13e-13 /\ 180 / PI <= 57.3. Proof. split; interval. Qed.
Lemma inner_cos i : 0.00001 <= i <= 179.99999 -> Rabs (cosd i) <= 1 - 1e-14.
Proof.
  intros H. rewrite cosd_rad. set (x := rad i).
  assert (X : rad 0.00001 <= x <= PI - rad 0.00001).
  { unfold x. split; [apply rad_le; lra|]. replace (PI - rad 0.00001) with (rad (180 - 0.00001)) by (rewrite rad_minus, rad_180; reflexivity). apply rad_le; lra. }
  assert (C : cos (rad 0.00001) <= 1 - 1e-14) by (unfold rad; interval with (i_prec 100)).
  assert (P : 0 < rad 0.00001 < 1) by (unfold rad; split; interval). pose proof PI_RGT_0 as PP.
  assert (P3 : 3 < PI) by interval.
  apply Rabs_le. split.
  - assert (Q : cos (PI - rad 0.00001) <= cos x) by (apply cos_decr_1; lra). rewrite Rtrigo_facts.cos_pi_minus in Q. lra.
  - assert (Q : cos x <= cos (rad 0.00001)) by (apply cos_decr_1; lra). lra.
Qed.
Lemma middle_cos i : 10 <= i <= 170 -> Rabs (cosd i) <= 0.99.
Proof. intros H. unfold cosd, rad. apply Rabs_le. split; interval. Qed.

Section L.
Context (L : libm) (HL : accurate L).
Local Notation N := (B64 L).

Lemma acos_end q w c : val q w -> Rabs (w - c) <= 1e-14 -> -1 <= c <= 1 ->
  (exists a al, nacos (n := N) q = Ok a /\ val a al /\ Rabs al <= 4 /\ Rabs (al - acos c) <= PI * 7.0711e-8 + 1e-15 /\
     (Rabs c <= 0.99 -> Rabs (al - acos c) <= 1.14e-13)) \/
  (1 - 1e-14 < Rabs c /\ nacos (n := N) q = Err ValueError).
Proof.
  intros VW EW C1. assert (CW : Rabs w <= Rabs c + Rabs (w - c)) by (replace w with (c + (w - c)) at 1 by ring; apply Rabs_triang).
  destruct (Rle_lt_dec (Rabs w) 1) as [W1|W1].
  - left. pose proof (ac_acos L HL _ _ VW W1) as C.
    assert (RT : nacos (n := N) q = Ok (l_acos L q)) by exact (math1_close ValueError _ _ _ C).
    destruct C as (a & VA & EA). change (bpow radix2 (-52)) with (/ 4503599627370496) in EA. pose proof eps_small as EP. destruct tail_consts as (K1 & _ & _ & K4). destruct ic_consts as (K2 & _).
    assert (AW : Rabs (acos w) <= 3.15) by (pose proof (acos_bound w); rewrite Rabs_pos_eq; lra).
    assert (EA' : Rabs (a - acos w) <= 1e-15) by lra. clear EA.
    exists (l_acos L q), a. split; [exact RT|]. split; [exact VA|].
    split. { replace a with (acos w + (a - acos w)) by ring. eapply Rle_trans; [apply Rabs_triang|]. lra. }
    assert (W2 : -1 <= w <= 1) by now apply Rabs_le_inv.
    assert (TR : forall b, Rabs (asin w - asin c) <= b -> Rabs (a - acos c) <= b + 1e-15).
    { intros b Hb. replace (a - acos c) with ((acos w - acos c) + (a - acos w)) by ring. rewrite acos_diff by assumption. eapply Rle_trans; [apply Rabs_triang|]. rewrite Rabs_Ropp. lra. }
    split; [apply TR; apply asin_hoelder; lra|]. intros H99. apply Rle_trans with (1.13e-13 + 1e-15); [|lra]. apply TR.
    apply Rle_trans with (2 := K2). assert (M1 : -1 <= 0.9900001 <= 1) by lra.
    assert (MW : Rabs w <= 0.9900001) by lra. assert (MC : Rabs c <= 0.9900001) by lra. apply (asin_le_asin _ _ M1) in MW, MC.
    assert (CM : cos (asin 0.9900001) = sqrt (1 - 0.9900001 * 0.9900001)) by (rewrite cos_asin; [unfold Rsqr; reflexivity|exact M1]).
    assert (MM : 0 <= asin 0.9900001 < PI / 2).
    { split; [pose proof (Rabs_pos (asin w)); lra|]. destruct (asin_bound 0.9900001) as [_ U]. destruct (Rle_lt_or_eq_dec _ _ U) as [?|E]; [assumption|]. exfalso. rewrite E, cos_PI2 in CM. lra. }
    eapply Rle_trans; [apply (asin_lip_inner w c (asin 0.9900001)); assumption|].
    rewrite CM. set (s := sqrt (1 - 0.9900001 * 0.9900001)) in *. pose proof PI_RGT_0.
    unfold Rdiv at 1 3. apply Rmult_le_compat; [|left; apply Rinv_0_lt_compat; lra| |apply Rinv_le_contravar; lra].
    + apply Rmult_le_pos; [lra|apply Rabs_pos].
    + apply Rmult_le_compat_l; lra.
  - right. split; [lra|]. change (math_1 ValueError (l_acos L) q = Err ValueError). unfold math_1.
    rewrite (ac_acos_dom L HL _ _ VW W1). destruct (val_fin _ _ VW) as [-> _]. reflexivity.
Qed.

Lemma dg64 (a : T N) al : val a al -> Rabs al <= 4 -> exists h, val (degrees (n := N) a) h /\ Rabs (h - deg al) <= 1e-13.
Proof.
  intros V B. destruct (transport L HL F_dg F_dg_rel I_dg [a] [Fin al] _ ltac:(repeat constructor; now apply exact_sat) dg_ok) as (l1 & l2 & T1 & T2 & A).
  pose proof dg_fits as FI. unfold O_dg in A, FI. inv3 A. cbn [forallb] in FI. rewrite !andb_true_iff in FI. destruct FI as (F1 & _).
  destruct (fits_nop _ _ _ _ _ _ _ F1 eq_refl S) as (h & w & V1 & W1 & B1 & _ & E1).
  unfold F_dg in T1, T2. revert T2. rx. intros T2. apply Ok_inj in T2. assert (T2' : Fin (deg al) = y) by congruence. rewrite W1 in T2'. apply Fin_inj in T2'.
  apply Ok_inj in T1. assert (T1' : degrees (n := N) a = x) by congruence. rewrite T1'.
  exists h. split; [exact V1|]. rewrite T2'. lra.
Qed.

Lemma deg_scale a b e : Rabs (a - b) <= e -> Rabs (deg a - deg b) <= e * (180 / PI).
Proof.
  intros H. pose proof PI_RGT_0. assert (0 < 180 / PI) by (apply Rdiv_lt_0_compat; lra).
  replace (deg a - deg b) with ((a - b) * (180 / PI)) by (unfold deg; field; lra). rewrite Rabs_mult, (Rabs_pos_eq (180 / PI)) by lra. apply Rmult_le_compat_r; lra.
Qed.

Lemma incidence64 (z s o a : T N) rz rs ro ra : val z rz -> val s rs -> val o ro -> val a ra -> Rabs rz <= 360 -> Rabs rs <= 360 -> Rabs ro <= 360 -> Rabs ra <= 360 ->
  exists i, get_incidence_angle (N := MathR) (Fin rz) (Fin rs) (Fin ro) (Fin ra) = Ok (Fin i) /\
    ((exists y r, get_incidence_angle (N := N) z s o a = Ok y /\ val y r /\ Rabs (r - i) <= 1.28e-5 /\ (10 <= i <= 170 -> Rabs (r - i) <= 7e-12)) \/
     ((i < 0.00001 \/ 179.99999 < i) /\ get_incidence_angle (N := N) z s o a = Err ValueError)).
Proof.
  intros Vz Vs Vo Va Bz Bs Bo Ba. destruct (incidence_correct rz rs ro ra) as (i & EI & RI & CI & _). exists i. split; [exact EI|].
  destruct (transport L HL F_ic F_ic_rel I_ic [z; s; o; a] [Fin rz; Fin rs; Fin ro; Fin ra] _ ltac:(repeat constructor; now apply exact_sat) ic_ok) as (l1 & l2 & T1 & T2 & A).
  pose proof ic_fits as FI. unfold O_ic in A, FI. inv3 A. cbn [forallb] in FI. rewrite !andb_true_iff in FI. destruct FI as (F1 & _).
  destruct (fits_nop _ _ _ _ _ _ _ F1 eq_refl S) as (w & c & V1 & W1 & B1 & _ & E1).
  assert (CC : c = dot (enu ra rz) (enu (180 + ro) rs)).
  { revert T2. unfold F_ic. rx. intros T2. apply Ok_inj in T2. assert (T2' : Fin (cos (rad rz) * cos (rad rs) + sin (rad rs) * sin (rad rz) * cos (rad ra - PI - rad ro)) = y) by congruence.
    rewrite W1 in T2'. apply Fin_inj in T2'. rewrite <- T2'. rewrite enu_dot. rewrite <- !sind_rad, <- !cosd_rad.
    replace (rad ra - PI - rad ro) with (rad (ra - (180 + ro))) by (rewrite rad_minus, rad_plus, rad_180; ring). rewrite <- cosd_rad. ring. }
  assert (EI2 : Fin i = Fin (deg (acos (dot (enu ra rz) (enu (180 + ro) rs))))) by (apply Ok_inj; rewrite <- EI; apply incidence_val). apply Fin_inj in EI2.
  rewrite <- CC in CI, EI2. clear CC.
  assert (GI : get_incidence_angle (N := N) z s o a = (k <- nacos (n := N) x ;; Ok (degrees (n := N) k))).
  { revert T1. unfold F_ic, get_incidence_angle. cbv zeta. destruct (ncos (n := N) (radians z)) as [c1|]; [|discriminate]. destruct (ncos (n := N) (radians s)) as [c2|]; [|discriminate].
    destruct (nsin (n := N) (radians s)) as [s1|]; [|discriminate]. destruct (nsin (n := N) (radians z)) as [s2|]; [|discriminate].
    cbn [bind]. destruct (ncos (n := N) (sub (sub (radians a) npi) (radians o))) as [c3|]; [|discriminate]. cbn [bind]. intros T1. apply Ok_inj in T1.
    assert (T1' : add (n := N) (mul c1 c2) (mul (mul s1 s2) c3) = x) by congruence. rewrite T1'. reflexivity. }
  rewrite GI. clear GI T1 T2. assert (C1 : -1 <= c <= 1) by (rewrite <- CI; apply cosd_bound).
  assert (E1' : Rabs (w - c) <= 1e-14) by lra.
  destruct (acos_end x w c V1 E1' C1) as [(k & al & RK & VK & BK & EK & EK')|[NC RK]]; rewrite RK; cbn [bind].
  - left. destruct (dg64 k al VK BK) as (h & VH & EH). exists (degrees (n := N) k), h. split; [reflexivity|]. split; [exact VH|]. destruct ic_consts as [_ K]. pose proof PI_RGT_0 as PP.
    assert (TR : forall e, Rabs (al - acos c) <= e -> Rabs (h - i) <= e * (180 / PI) + 1e-13).
    { intros e He. apply deg_scale in He. rewrite EI2. replace (h - deg (acos c)) with ((deg al - deg (acos c)) + (h - deg al)) by ring. eapply Rle_trans; [apply Rabs_triang|]. lra. }
    split.
    + eapply Rle_trans; [apply (TR _ EK)|]. rewrite Rmult_plus_distr_r. replace (PI * 7.0711e-8 * (180 / PI)) with (180 * 7.0711e-8) by (field; lra). lra.
    + intros HI. eapply Rle_trans; [apply (TR _ (EK' ltac:(rewrite <- CI; now apply middle_cos)))|]. lra.
  - right. split; [|reflexivity]. destruct (Rlt_le_dec i 0.00001) as [|I1]; [now left|]. destruct (Rlt_le_dec 179.99999 i) as [|I2]; [now right|].
    exfalso. pose proof (inner_cos i (conj I1 I2)) as Q. rewrite CI in Q. lra.
Qed.
End L.

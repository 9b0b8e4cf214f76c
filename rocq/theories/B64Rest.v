(* The component functions of rest.py in binary64 against the published parametrisation. *)
From Coq Require Import Reals Qreals Lra Lia List.
From Flocq Require Import Core IEEE754.BinarySingleNaN.
From Interval Require Import Tactic.
From Verif Require Import Py Num Rest RInst RTac SpecEng SpecRest RestProofs RestMore B64 SpecB64 B64Lemmas B64Witness
  B64Ranges Rel Absint AbsintSound B64Lift B64Topo B64Pos SpecClose.
Import ListNotations.

(* The rational functions, the squares being arguments of their own: the abstract arithmetic does not know that a
   square is not negative. *)
Local Open Scope num_scope.
Definition F_TR1 : lfun := fun N l => match l with
  | [m; m2] => r <- div (lit 1 + lit 1.8169 * m + lit 0.033454 * m2) (lit 1 + lit 2.063 * m + lit 0.31978 * m2) ;; Ok [r]
  | _ => Err Unmodelled end.
Definition F_TR2 : lfun := fun N l => match l with
  | [m; m2] => r <- div (lit 1 - lit 0.010394 * m) (lit 1 - lit 0.00011042 * m2) ;; Ok [r]
  | _ => Err Unmodelled end.
Definition F_Tg1 : lfun := fun N l => match l with
  | [m; m2] => r <- div (lit 1 + lit 0.95885 * m + lit 0.012871 * m2) (lit 1 + lit 0.96321 * m + lit 0.015455 * m2) ;; Ok [r]
  | _ => Err Unmodelled end.
Definition F_Tg2 : lfun := fun N l => match l with
  | [m; m2] => r <- div (lit 1 + lit 0.27284 * m - lit 0.00063699 * m2) (lit 1 + lit 0.30306 * m) ;; Ok [r]
  | _ => Err Unmodelled end.
Definition F_BR1 : lfun := fun N l => match l with
  | [m; m2] => Ok [lit 0.5 * (lit 0.89013 - lit 0.049558 * m + lit 0.000045721 * m2)]
  | _ => Err Unmodelled end.
Definition F_To1 : lfun := fun N l => match l with
  | [m; m2; uo; u2] =>
    f1 <- div (uo * (lit 10.979 - lit 8.5421 * uo)) (lit 1 + lit 2.0115 * uo + lit 40.189 * u2) ;;
    f2 <- div (uo * (lit (-0.027589) - lit 0.005138 * uo)) (lit 1 - lit 2.4857 * uo + lit 13.942 * u2) ;;
    f3 <- div (uo * (lit 10.995 - lit 5.5001 * uo)) (lit 1 + lit 1.6784 * uo + lit 42.406 * u2) ;;
    r <- div (lit 1 + f1 * m + f2 * m2) (lit 1 + f3 * m) ;; Ok [r]
  | _ => Err Unmodelled end.
Definition F_Tw1 : lfun := fun N l => match l with
  | [m; _; w; _] =>
    h1 <- div (w * (lit 0.065445 + lit 0.00029901 * w)) (lit 1 + lit 1.2728 * w) ;;
    h2 <- div (w * (lit 0.065687 + lit 0.0013218 * w)) (lit 1 + lit 1.2008 * w) ;;
    r <- div (lit 1 + h1 * m) (lit 1 + h2 * m) ;; Ok [r]
  | _ => Err Unmodelled end.
Definition F_Tw2 : lfun := fun N l => match l with
  | [m; m2; w; w2] =>
    c1 <- div (w * (lit 19.566 - lit 1.6506 * w + lit 1.0672 * w2)) (lit 1 + lit 5.4248 * w + lit 1.6005 * w2) ;;
    c2 <- div (w * (lit 0.50158 - lit 0.14732 * w + lit 0.047584 * w2)) (lit 1 + lit 1.1811 * w + lit 1.0699 * w2) ;;
    c3 <- div (w * (lit 21.286 - lit 0.39232 * w + lit 1.2692 * w2)) (lit 1 + lit 4.8318 * w + lit 1.412 * w2) ;;
    c4 <- div (w * (lit 0.70992 - lit 0.23155 * w + lit 0.096514 * w2)) (lit 1 + lit 0.44907 * w + lit 0.75425 * w2) ;;
    r <- div (lit 1 + c1 * m + c2 * m2) (lit 1 + c3 * m + c4 * m2) ;; Ok [r]
  | _ => Err Unmodelled end.
Definition F_rs1 : lfun := fun N l => match l with
  | [a1; _; b1; _] =>
    q1 <- div (b1 * (lit 0.37567 + lit 0.22946 * a1)) (lit 1 - lit 0.10832 * a1) ;;
    q2 <- div (b1 * (lit 0.84057 + lit 0.68683 * a1)) (lit 1 - lit 0.08158 * a1) ;;
    r <- div (lit 0.13363 + lit 0.00077358 * a1 + q1) (lit 1 + q2) ;; Ok [r]
  | _ => Err Unmodelled end.
Definition F_rs2 : lfun := fun N l => match l with
  | [a2; _; b2; _] =>
    q1 <- div (b2 * (lit 0.14618 + lit 0.062758 * a2)) (lit 1 - lit 0.19402 * a2) ;;
    q2 <- div (b2 * (lit 0.58101 + lit 0.17426 * a2)) (lit 1 - lit 0.17586 * a2) ;;
    r <- div (lit 0.010191 + lit 0.00085547 * a2 + q1) (lit 1 + q2) ;; Ok [r]
  | _ => Err Unmodelled end.
Definition F_F1 : lfun := fun N l => match l with
  | [ma; m2; tau_a; _] =>
    g0 <- div (lit 3.715 + lit 0.368 * ma + lit 0.036294 * m2) (lit 1 + lit 0.0009391 * m2) ;;
    g1 <- div (lit (-0.164) - lit 0.72567 * ma + lit 0.20701 * m2) (lit 1 + lit 0.001901 * m2) ;;
    g2 <- div (lit (-0.052288) + lit 0.31902 * ma + lit 0.17871 * m2) (lit 1 + lit 0.0069592 * m2) ;;
    r <- div (g0 + g1 * tau_a) (lit 1 + g2 * tau_a) ;; Ok [r]
  | _ => Err Unmodelled end.
Definition F_Tn1 : lfun := fun N l => match l with
  | [mw; m2] =>
    u2 <- powi un 2 ;;
    g1 <- div (lit 0.17499 + lit 41.654 * un - lit 2146.4 * u2) (lit 1 + lit 22295.0 * u2) ;;
    g2 <- div (un * (lit (-1.2134) + lit 59.324 * un)) (lit 1 + lit 8847.8 * u2) ;;
    g3 <- div (lit 0.17499 + lit 61.658 * un + lit 9196.4 * u2) (lit 1 + lit 74109.0 * u2) ;;
    q <- div (lit 1 + g1 * mw + g2 * m2) (lit 1 + g3 * mw) ;; Ok [q]
  | _ => Err Unmodelled end.
Definition F_ae : lfun := fun N l => match l with
  | [m; _; t; _] => Ok [- m * t]
  | _ => Err Unmodelled end.
Definition F_aes (w : Q) : lfun := fun N l => match l with
  | [m; _; t; _] => Ok [- m * lit w * t]
  | _ => Err Unmodelled end.
Local Close Scope num_scope.

Lemma F_TR1_rel : lrel F_TR1. Proof. lrel_tac F_TR1. Qed.
Lemma F_TR2_rel : lrel F_TR2. Proof. lrel_tac F_TR2. Qed.
Lemma F_Tg1_rel : lrel F_Tg1. Proof. lrel_tac F_Tg1. Qed.
Lemma F_Tg2_rel : lrel F_Tg2. Proof. lrel_tac F_Tg2. Qed.
Lemma F_BR1_rel : lrel F_BR1. Proof. lrel_tac F_BR1. Qed.
Lemma F_To1_rel : lrel F_To1. Proof. lrel_tac F_To1. Qed.
Lemma F_Tw1_rel : lrel F_Tw1. Proof. lrel_tac F_Tw1. Qed.
Lemma F_Tw2_rel : lrel F_Tw2. Proof. lrel_tac F_Tw2. Qed.
Lemma F_rs1_rel : lrel F_rs1. Proof. lrel_tac F_rs1. Qed.
Lemma F_rs2_rel : lrel F_rs2. Proof. lrel_tac F_rs2. Qed.
Lemma F_F1_rel : lrel F_F1. Proof. lrel_tac F_F1. Qed.
Lemma F_Tn1_rel : lrel F_Tn1. Proof. unfold un. lrel_tac F_Tn1; unfold un. all: repeat lrel_step. Qed.
Lemma F_ae_rel : lrel F_ae. Proof. lrel_tac F_ae. Qed.
Lemma F_aes_rel w : lrel (F_aes w). Proof. lrel_tac F_aes. Qed.

(* lo <= x <= hi, exactly, and the square of such an x *)
Definition segab (lo hi : Z) : ab := mkab lo hi (Z.max (Z.abs lo) (Z.abs hi)) 0 NoPer.
Definition seg2 (lo hi : Z) : abs_val :=
  match a_powi (segab lo hi) 2 with Ok (Ab z) => Ab (mkab (lo * lo / SC) (a_hi z) (a_mag z) (a_err z) (a_per z)) | _ => Top end.
Definition S16 : Z := Eval vm_compute in (SC / 16)%Z.
Definition pairs (l : list Z) : list (Z * Z) := combine l (tl l).
Definition scaled (l : list Z) : list Z := map (Z.mul S16) l.
Definition seg a b := Ab (segab a b).
(* the error of F on every piece is at most e * 1e-16 *)
Definition small (F : lfun) (e : Z) (I : list abs_val) : bool := match F AI I with Ok [o] => fits o NoPer (-100000000) 100000000 e 10000000000000000 | _ => false end.
Definition on (p : Z * Z) : list abs_val := [seg (fst p) (snd p); seg2 (fst p) (snd p)].
Definition check1 (F : lfun) (bs : list Z) (e : Z) : bool := forallb (fun p => (0 <=? fst p)%Z && small F e (on p)) (pairs (scaled bs)).
Definition check2 (F : lfun) (bs cs : list Z) (e : Z) : bool :=
  forallb (fun p => (0 <=? fst p)%Z && forallb (fun q => (0 <=? fst q)%Z && small F e (on p ++ on q)) (pairs (scaled cs))) (pairs (scaled bs)).
Definition M := [0; 640]%Z.
Definition U := [0; 4; 8]%Z.
Definition W := [0; 48; 96]%Z.
Definition W1 := [0; 96]%Z.
Definition A := [0; 40]%Z.
Definition B := [0; 16]%Z.
Lemma TR1_ok : check1 F_TR1 M 408944 = true. Proof. vm_compute. reflexivity. Qed.
Lemma TR2_ok : check1 F_TR2 M 7 = true. Proof. vm_compute. reflexivity. Qed.
Lemma Tg1_ok : check1 F_Tg1 M 18973 = true. Proof. vm_compute. reflexivity. Qed.
Lemma Tg2_ok : check1 F_Tg2 M 563 = true. Proof. vm_compute. reflexivity. Qed.
Lemma BR1_ok : check1 F_BR1 M 6 = true. Proof. vm_compute. reflexivity. Qed.
Lemma Tn1_ok : check1 F_Tn1 M 633 = true. Proof. vm_compute. reflexivity. Qed.
Lemma To1_ok : check2 F_To1 M U 317580 = true. Proof. vm_compute. reflexivity. Qed.
Lemma Tw1_ok : check2 F_Tw1 M W1 10231 = true. Proof. vm_compute. reflexivity. Qed.
Lemma Tw2_ok : check2 F_Tw2 M W 8097378652 = true. Proof. vm_compute. reflexivity. Qed.
Lemma F1_ok : check2 F_F1 M B 9735850 = true. Proof. vm_compute. reflexivity. Qed.
Lemma ae_ok : check2 F_ae M B 200 = true. Proof. vm_compute. reflexivity. Qed.
Lemma aeh_ok : check2 (F_aes 0.92) M B 200 = true. Proof. vm_compute. reflexivity. Qed.
Lemma ael_ok : check2 (F_aes 0.84) M B 200 = true. Proof. vm_compute. reflexivity. Qed.
Lemma rs1_ok : check2 F_rs1 A B 53 = true. Proof. vm_compute. reflexivity. Qed.
Lemma rs2_ok : check2 F_rs2 A B 19 = true. Proof. vm_compute. reflexivity. Qed.

Local Open Scope R_scope.
Lemma Fin_inj a b : Fin a = Fin b -> a = b. Proof. now intros [= ->]. Qed.
Lemma zr_16 k : zr (S16 * k) = IZR k / 16.
Proof. assert (E : (16 * (S16 * k) = k * SC)%Z) by (replace SC with (16 * S16)%Z by reflexivity; ring). pose proof (f_equal zr E) as Q. rewrite zr_int, zr_scale in Q. lra. Qed.
Lemma cover m : forall l, l <> [] -> (2 <= List.length l)%nat -> zr (hd 0%Z l) <= m <= zr (last l 0%Z) -> exists lo hi, In (lo, hi) (pairs l) /\ zr lo <= m <= zr hi.
Proof.
  induction l as [|a [|b l] IH]; [easy|cbn; lia|]. intros _ _ H. destruct (Rle_dec m (zr b)) as [G|G].
  - exists a, b. split; [now left|]. cbn [hd] in H. lra.
  - destruct l as [|c l]; [cbn in H; lra|]. destruct IH as (lo & hi & I & J); [discriminate|cbn; lia| |exists lo, hi; split; [now right|exact J]].
    change (last (a :: b :: c :: l) 0%Z) with (last (b :: c :: l) 0%Z) in H. cbn [hd] in *. lra.
Qed.
Lemma cover16 m k l : hd 0%Z (scaled l) = 0%Z -> last (scaled l) 0%Z = (S16 * k)%Z -> (2 <= List.length l)%nat -> 0 <= m <= IZR k / 16 ->
  exists p, In p (pairs (scaled l)) /\ zr (fst p) <= m <= zr (snd p).
Proof.
  intros H1 H2 H3 H. destruct (cover m (scaled l)) as (lo & hi & I & J); [destruct l; [cbn in H3; lia|discriminate]|unfold scaled; now rewrite map_length| |now exists (lo, hi)].
  rewrite H1, H2, zr_0, zr_16. exact H.
Qed.

Section L.
Variable L : libm.
Hypothesis HL : accurate L.
Notation N := (B64 L).

Lemma seg_sat lo hi x m : val x m -> zr lo <= m <= zr hi -> sat (segab lo hi) x (Fin m).
Proof.
  intros V H. exists m, m, 0%Z. cbn [segab a_lo a_hi a_mag a_err a_per turn]. split; [exact V|]. split; [reflexivity|]. split; [exact H|]. split.
  - apply Rabs_le. pose proof (zr_le _ _ (Z.le_max_l (Z.abs lo) (Z.abs hi))). pose proof (zr_le _ _ (Z.le_max_r (Z.abs lo) (Z.abs hi))).
    assert (zr (- Z.abs lo) <= zr lo) by (apply zr_le; lia). assert (zr hi <= zr (Z.abs hi)) by (apply zr_le; lia). rewrite zr_opp in *. lra.
  - replace (m - m - 0 * 0) with 0 by ring. rewrite Rabs_R0, zr_0. lra.
Qed.
Lemma zr_floor a : zr (a / SC) <= zr a / IZR SC.
Proof.
  unfold zr. pose proof SC_pos. apply Rmult_le_compat_r; [left; now apply Rinv_0_lt_compat|]. apply Rmult_le_reg_r with (IZR SC); [exact H|].
  unfold Rdiv. rewrite Rmult_assoc, Rinv_l, Rmult_1_r by lra. rewrite <- mult_IZR. apply IZR_le. rewrite Z.mul_comm. apply Z.mul_div_le. reflexivity.
Qed.
Lemma seg2_sat lo hi x m q : val x m -> zr lo <= m <= zr hi -> 0 <= zr lo -> powi (n := N) x 2 = Ok q -> satv (seg2 lo hi) q (Fin (m ^ 2)).
Proof.
  intros V H P Q. unfold seg2. destruct (a_powi (segab lo hi) 2) as [z|] eqn:E; [|exact I].
  destruct (powi_sound L HL _ _ _ _ _ (seg_sat lo hi x m V H) E) as (q' & p & Q' & P' & S). rewrite Q in Q'. apply Ok_inj in Q'. subst q'.
  rewrite powi_R in P'. apply Ok_inj in P'. subst p. destruct z as [|z]; [exact I|]. destruct S as (v & r & j & S1 & S2 & S3 & S4 & S5).
  exists v, r, j. cbn [a_lo a_hi a_mag a_err a_per]. repeat (split; [assumption|]). split; [|split; [exact S4|exact S5]].
  split; [|lra]. apply Fin_inj in S2. rewrite <- S2. apply Rle_trans with (1 := zr_floor _).
  replace (zr (lo * lo) / IZR SC) with (zr lo * zr lo); [|unfold zr; rewrite mult_IZR; field; pose proof SC_pos; lra].
  simpl. rewrite Rmult_1_r. apply Rmult_le_compat; lra.
Qed.
Lemma sq64 x m : val x m -> 0 <= m <= 80 -> exists q, powi (n := N) x 2 = Ok q.
Proof.
  intros V H. assert (E : exists z, a_powi (segab 0 (80 * SC)) 2 = Ok z) by (eexists; vm_compute; reflexivity). destruct E as (z & E).
  destruct (powi_sound L HL _ x (Fin m) _ _ (seg_sat 0 (80 * SC) x m V ltac:(rewrite zr_0, zr_int; lra)) E) as (q & _ & Q & _). now exists q.
Qed.

Lemma run_small F lx ly I e : lrel F -> small F e I = true -> all3 I lx ly ->
  exists q v v', F N lx = Ok [q] /\ val q v /\ F MathR ly = Ok [Fin v'] /\ Rabs (v - v') <= IZR e / 10000000000000000.
Proof.
  intros R C S. unfold small in C. destruct (F AI I) as [[|o [|? ?]]|] eqn:E; try discriminate C.
  destruct (transport L HL F R _ _ _ _ S E) as (l1 & l2 & T1 & T2 & A). inv3 A.
  destruct (fits_nop _ _ _ _ _ _ _ C eq_refl S0) as (v & v' & V & -> & _ & _ & D). eexists _, v, v'. split; [exact T1|]. split; [exact V|]. split; [exact T2|exact D].
Qed.
Lemma all3_app la lx ly lb mx my : all3 la lx ly -> all3 lb mx my -> all3 (la ++ lb) (lx ++ mx) (ly ++ my).
Proof. intros A B. induction A; cbn [app]; [exact B|]. now constructor. Qed.
Lemma on_sat p x m q : (0 <=? fst p)%Z = true -> val x m -> zr (fst p) <= m <= zr (snd p) -> powi (n := N) x 2 = Ok q -> all3 (on p) [x; q] [Fin m; Fin (m ^ 2)].
Proof.
  intros P V H Q. assert (P' : 0 <= zr (fst p)) by (rewrite <- zr_0; apply zr_le; now apply Z.leb_le).
  unfold on. constructor; [exact (seg_sat _ _ _ _ V H)|]. constructor; [exact (seg2_sat _ _ _ _ _ V H P' Q)|constructor].
Qed.
Definition starts (l : list Z) (k : Z) : bool := (hd 0 (scaled l) =? 0)%Z && (last (scaled l) 0 =? S16 * k)%Z && (2 <=? List.length l)%nat && (k <=? 1280)%Z.
Lemma run1 F bs e k x m : lrel F -> check1 F bs e = true -> starts bs k = true -> val x m -> 0 <= m <= IZR k / 16 ->
  exists q2 q v v', powi (n := N) x 2 = Ok q2 /\ F N [x; q2] = Ok [q] /\ val q v /\ F MathR [Fin m; Fin (m ^ 2)] = Ok [Fin v'] /\ Rabs (v - v') <= IZR e / 10000000000000000.
Proof.
  intros R C S V H. unfold starts in S. rewrite !andb_true_iff, !Z.eqb_eq, Nat.leb_le, Z.leb_le in S. destruct S as (((S1 & S2) & S3) & S4). apply IZR_le in S4.
  destruct (sq64 x m V ltac:(lra)) as (q2 & Q2). destruct (cover16 m k bs S1 S2 S3 H) as (p & I & J).
  unfold check1 in C. rewrite forallb_forall in C. specialize (C p I). apply andb_true_iff in C as (P & C).
  destruct (run_small F _ _ _ e R C (on_sat p x m q2 P V J Q2)) as (q & v & v' & T). exists q2, q, v, v'. split; [exact Q2|exact T].
Qed.
Lemma run2 F bs cs e k j x m y n : lrel F -> check2 F bs cs e = true -> starts bs k = true -> starts cs j = true -> val x m -> 0 <= m <= IZR k / 16 -> val y n -> 0 <= n <= IZR j / 16 ->
  exists q2 r2 q v v', powi (n := N) x 2 = Ok q2 /\ powi (n := N) y 2 = Ok r2 /\ F N [x; q2; y; r2] = Ok [q] /\ val q v /\ F MathR [Fin m; Fin (m ^ 2); Fin n; Fin (n ^ 2)] = Ok [Fin v'] /\ Rabs (v - v') <= IZR e / 10000000000000000.
Proof.
  intros R C S S' V H V' H'. unfold starts in S, S'. rewrite !andb_true_iff, !Z.eqb_eq, Nat.leb_le, Z.leb_le in S, S'.
  destruct S as (((S1 & S2) & S3) & S4). destruct S' as (((S5 & S6) & S7) & S8). apply IZR_le in S4, S8.
  destruct (sq64 x m V ltac:(lra)) as (q2 & Q2). destruct (cover16 m k bs S1 S2 S3 H) as (p & I & J).
  destruct (sq64 y n V' ltac:(lra)) as (r2 & R2). destruct (cover16 n j cs S5 S6 S7 H') as (p' & I' & J').
  unfold check2 in C. rewrite forallb_forall in C. specialize (C p I). apply andb_true_iff in C as (P & C). rewrite forallb_forall in C. specialize (C p' I'). apply andb_true_iff in C as (P' & C).
  destruct (run_small F _ _ _ e R C (all3_app _ _ _ _ _ _ (on_sat p x m q2 P V J Q2) (on_sat p' y n r2 P' V' J' R2))) as (q & v & v' & T). exists q2, r2, q, v, v'. split; [exact Q2|]. split; [exact R2|exact T].
Qed.
Lemma single {A} (r : res A) q : (v <- r ;; Ok [v]) = Ok [q] -> r = Ok q.
Proof. destruct r; cbn [bind]; [intros H; apply Ok_inj in H; now injection H as ->|discriminate]. Qed.

Ltac fin T F := unfold F in T; binv T; apply Ok_inj in T; injection T as <-;
  repeat match goal with
  | E : ?a = Ok _ |- context [bind ?a _] => rewrite E; cbn [bind]
  | E : ?a = Ok ?v |- ?a = Ok ?v => exact E
  | |- Ok ?v = Ok ?v => reflexivity
  end.
Ltac val_of v' lem := match goal with D : Rabs (_ - v') <= _ |- Rabs (_ - ?r) <= _ => 
  let E := fresh in assert (E : v' = r); [|rewrite <- E; lra] end; apply Fin_inj, (f_equal (fun x => x)); 
  match goal with |- ?a = ?b => apply (Ok_inj a b) end; rewrite <- lem by lra; symmetry.
Ltac one F rel ok V := match goal with V : val ?x ?m |- _ => destruct (run1 F M _ 640 x m rel ok eq_refl V ltac:(lra)) as (q2 & q & v & v' & Q2 & T1 & VV & T2 & D) end;
  match goal with VV : val ?q ?v, D : Rabs (?v - _) <= _ |- _ => exists q, v; split; [|split; [exact VV|]] end.
Ltac two F rel ok bs cs k j V V' := match type of V with val ?x ?m => match type of V' with val ?y ?n =>
  destruct (run2 F bs cs _ k j x m y n rel ok eq_refl eq_refl V ltac:(lra) V' ltac:(lra)) as (q2 & r2 & q & v & v' & Q2 & R2 & T1 & VV & T2 & D) end end;
  match goal with VV : val ?q ?v, D : Rabs (?v - _) <= _ |- _ => exists q, v; split; [|split; [exact VV|]] end.

Lemma TR1_64 x m : val x m -> 0 <= m <= 40 -> within 4.1e-11 (get_rayleigh_transmittance (N := N) high x) (rest2_TR1 m).
Proof.
  intros V H. one F_TR1 F_TR1_rel TR1_ok V.
  - unfold get_rayleigh_transmittance. change (is_high high) with true. cbv iota. fin T1 F_TR1.
  - val_of v' (TR1_val m). unfold get_rayleigh_transmittance. change (is_high high) with true. cbv iota. rewrite powi_R. cbn [bind]. fin T2 F_TR1.
Qed.
Lemma TR2_64 x m : val x m -> 0 <= m <= 40 -> within 7e-16 (get_rayleigh_transmittance (N := N) low x) (rest2_TR2 m).
Proof.
  intros V H. one F_TR2 F_TR2_rel TR2_ok V.
  - unfold get_rayleigh_transmittance. change (is_high low) with false. cbv iota. fin T1 F_TR2.
  - val_of v' (TR2_val m). unfold get_rayleigh_transmittance. change (is_high low) with false. cbv iota. rewrite powi_R. cbn [bind]. fin T2 F_TR2.
Qed.
Lemma Tg1_64 x m : val x m -> 0 <= m <= 40 -> within 1.9e-12 (get_gas_transmittance (N := N) high x) (rest2_Tg1 m).
Proof.
  intros V H. one F_Tg1 F_Tg1_rel Tg1_ok V.
  - unfold get_gas_transmittance. change (is_high high) with true. cbv iota. fin T1 F_Tg1.
  - val_of v' (Tg1_val m). unfold get_gas_transmittance. change (is_high high) with true. cbv iota. rewrite powi_R. cbn [bind]. fin T2 F_Tg1.
Qed.
Lemma Tg2_64 x m : val x m -> 0 <= m <= 40 -> within 5.7e-14 (get_gas_transmittance (N := N) low x) (rest2_Tg2 m).
Proof.
  intros V H. one F_Tg2 F_Tg2_rel Tg2_ok V.
  - unfold get_gas_transmittance. change (is_high low) with false. cbv iota. fin T1 F_Tg2.
  - val_of v' (Tg2_val m). unfold get_gas_transmittance. change (is_high low) with false. cbv iota. rewrite powi_R. cbn [bind]. fin T2 F_Tg2.
Qed.
Lemma BR1_64 x m : val x m -> 0 <= m <= 40 -> within 6e-16 (get_rayleigh_extinction_forward_scattering_fraction (N := N) high x) (rest2_BR1 m).
Proof.
  intros V H. one F_BR1 F_BR1_rel BR1_ok V.
  - unfold get_rayleigh_extinction_forward_scattering_fraction. change (is_high high) with true. cbv iota. rewrite Q2. cbn [bind]. unfold F_BR1 in T1. apply Ok_inj, (f_equal (hd x)) in T1. cbn [hd] in T1. now rewrite T1.
  - val_of v' (BR1_val m). unfold get_rayleigh_extinction_forward_scattering_fraction. change (is_high high) with true. cbv iota. rewrite powi_R. cbn [bind]. unfold F_BR1 in T2. apply Ok_inj, (f_equal (hd (Fin 0))) in T2. cbn [hd] in T2. now rewrite T2.
Qed.
Lemma To1_64 x m y u : val x m -> 0 <= m <= 40 -> val y u -> 0 <= u <= 0.5 -> within 3.2e-11 (get_ozone_transmittance (N := N) high x y) (rest2_To1 m u).
Proof.
  intros V H V' H'. two F_To1 F_To1_rel To1_ok M U 640%Z 8%Z V V'.
  - unfold get_ozone_transmittance. change (is_high high) with true. cbv iota. fin T1 F_To1.
  - val_of v' (To1_val m u). unfold get_ozone_transmittance. change (is_high high) with true. cbv iota. rewrite !powi_R. cbn [bind]. fin T2 F_To1.
Qed.
Lemma Tw1_64 x m y w : val x m -> 0 <= m <= 40 -> val y w -> 0 <= w <= 6 -> within 1.1e-12 (get_water_vapor_transmittance (N := N) high x y) (rest2_Tw1 m w).
Proof.
  intros V H V' H'. two F_Tw1 F_Tw1_rel Tw1_ok M W1 640%Z 96%Z V V'.
  - unfold get_water_vapor_transmittance, water_coeffs_high. change (is_high high) with true. cbv iota. fin T1 F_Tw1.
  - val_of v' (Tw1_val m w). unfold get_water_vapor_transmittance, water_coeffs_high. change (is_high high) with true. cbv iota. fin T2 F_Tw1.
Qed.
Lemma Tw2_64 x m y w : val x m -> 0 <= m <= 40 -> val y w -> 0 <= w <= 6 -> within 8.1e-7 (get_water_vapor_transmittance (N := N) low x y) (rest2_Tw2 m w).
Proof.
  intros V H V' H'. two F_Tw2 F_Tw2_rel Tw2_ok M W 640%Z 96%Z V V'.
  - unfold get_water_vapor_transmittance, water_coeffs_low. change (is_high low) with false. cbv iota. fin T1 F_Tw2.
  - val_of v' (Tw2_val m w). unfold get_water_vapor_transmittance, water_coeffs_low. change (is_high low) with false. cbv iota. rewrite !powi_R. cbn [bind]. fin T2 F_Tw2.
Qed.
Lemma F1_64 x m y t : val x m -> 0 <= m <= 40 -> val y t -> 0 <= t <= 1 -> within 9.8e-10 (get_aerosol_scattering_correction_factor (N := N) high x y) (rest2_F1 m t).
Proof.
  intros V H V' H'. two F_F1 F_F1_rel F1_ok M B 640%Z 16%Z V V'.
  - unfold get_aerosol_scattering_correction_factor. change (is_high high) with true. cbv iota. fin T1 F_F1.
  - val_of v' (F1_val m t). unfold get_aerosol_scattering_correction_factor. change (is_high high) with true. cbv iota. rewrite !powi_R. cbn [bind]. fin T2 F_F1.
Qed.
Lemma rs1_64 x a y b : val x a -> 0 <= a <= 2.5 -> val y b -> 0 <= b <= 1 -> within 5.3e-15 (get_sky_albedo (N := N) high x y) (rest2_rhos1 a b).
Proof.
  intros V H V' H'. two F_rs1 F_rs1_rel rs1_ok A B 40%Z 16%Z V V'.
  - unfold get_sky_albedo. change (is_high high) with true. cbv iota. fin T1 F_rs1.
  - val_of v' (rhos1_val a b). unfold get_sky_albedo. change (is_high high) with true. cbv iota zeta. fin T2 F_rs1.
Qed.
Lemma rs2_64 x a y b : val x a -> 0 <= a <= 2.5 -> val y b -> 0 <= b <= 1 -> within 1.9e-15 (get_sky_albedo (N := N) low x y) (rest2_rhos2 a b).
Proof.
  intros V H V' H'. two F_rs2 F_rs2_rel rs2_ok A B 40%Z 16%Z V V'.
  - unfold get_sky_albedo. change (is_high low) with false. cbv iota. fin T1 F_rs2.
  - val_of v' (rhos2_val a b). unfold get_sky_albedo. change (is_high low) with false. cbv iota zeta. fin T2 F_rs2.
Qed.

Lemma nitrogen_assemble (K : Num) (mw n m2 q : Num.T K) : powi mw 2 = Ok m2 -> F_Tn1 K [mw; m2] = Ok [q] ->
  get_nitrogen_transmittance (N := K) high mw n = (s <- truth (lt q (lit 1)) ;; Ok (if s : bool then q else lit 1)).
Proof.
  intros Q2 T. unfold get_nitrogen_transmittance. change (is_high high) with true. cbv iota. fin T F_Tn1. reflexivity.
Qed.
Lemma Tn1_64 x m y : val x m -> 0 <= m <= 40 -> within 6.4e-14 (get_nitrogen_transmittance (N := N) high x y) (rest2_Tn1 m 0.0003).
Proof.
  intros V H. destruct (run1 F_Tn1 M _ 640 x m F_Tn1_rel Tn1_ok eq_refl V ltac:(lra)) as (q2 & q & v & v' & Q2 & T1 & VV & T2 & D).
  pose proof (nitrogen_assemble N x y q2 q Q2 T1) as E1. pose proof (nitrogen_assemble MathR (Fin m) (Fin 0) (Fin (m ^ 2)) (Fin v') (powi_R m 2) T2) as E2.
  rewrite (Tn1_val m (Fin 0) ltac:(lra)) in E2. clear T1 T2. revert E2. rx. unfold Rbool_lt.
  assert (V1 : val (flit 1) 1) by exact (val_int 1 ltac:(lia)).
  change (truth (n := N) (lt (n := N) q (lit (n := N) 1))) with (Ok (Bltb q (flit 1))) in E1. rewrite (val_lt _ _ _ _ VV V1) in E1. cbn [bind] in E1.
  intros E2. unfold within. rewrite E1. clear E1. apply Rabs_le_inv in D.
  destruct (Rlt_dec v' 1) as [G|G]; cbn [bind] in E2; apply Ok_inj, Fin_inj in E2; rewrite E2; destruct (Rlt_bool_spec v 1) as [G'|G'].
  1,3: exists q, v; split; [reflexivity|split; [exact VV|apply Rabs_le; lra]].
  all: exists (flit 1), 1; split; [reflexivity|split; [exact V1|apply Rabs_le; lra]].
Qed.

Lemma exp64 x v w : val x v -> Rabs (v - w) <= 2e-14 -> w <= 0 -> within 2.1e-14 (nexp (n := N) x) (exp w).
Proof.
  intros V D W. assert (EV : exp v = exp w * exp (v - w)) by (rewrite <- exp_plus; f_equal; ring).
  assert (ET : 1 - 2.01e-14 <= exp (v - w) <= 1 + 2.01e-14).
  { apply Rabs_le_inv in D. set (t := v - w) in *. clearbody t. split; interval with (i_prec 80). }
  assert (X : 0 < exp w <= 1) by (split; [apply exp_pos|]; rewrite <- exp_0; destruct W as [W| ->]; [left; now apply exp_increasing|lra]).
  assert (P52 : bpow radix2 (-52) <= 2.3e-16) by (change (bpow radix2 (-52)) with (/ 4503599627370496); lra).
  assert (P74 : bpow radix2 (-1074) <= 1e-17) by (apply Rle_trans with (bpow radix2 (-60)); [apply bpow_le; lia|change (bpow radix2 (-60)) with (/ 1152921504606846976); lra]).
  assert (EB : exp v <= 1.01) by (rewrite EV; nra). pose proof (exp_pos v) as EP.
  pose proof (ac_exp L HL _ _ V ltac:(apply Rle_trans with (bpow radix2 1); [change (bpow radix2 1) with 2; lra|apply bpow_le; lia])) as CE.
  pose proof (math1_close OverflowError _ _ _ CE) as RE. destruct CE as (r & VR & ER). exists (l_exp L x), r. split; [exact RE|]. split; [exact VR|].
  rewrite (Rabs_pos_eq (exp v)) in ER by lra. assert (Rabs (exp v - exp w) <= 2.01e-14) by (rewrite EV; apply Rabs_le; nra).
  assert (exp v * bpow radix2 (-52) <= 1.01 * 2.3e-16) by (apply Rmult_le_compat; try lra; apply bpow_ge_0).
  replace (r - exp w) with ((r - exp v) + (exp v - exp w)) by ring. eapply Rle_trans; [apply Rabs_triang|]. lra.
Qed.
Lemma aerosol64 x m y t : val x m -> 0 <= m <= 40 -> val y t -> 0 <= t <= 1 ->
  (forall b, within 2.1e-14 (get_aerosol_transmittance (N := N) b x y) (exp (- (m * t)))) /\
  within 2.1e-14 (get_aerosol_scattering_transmittance (N := N) high x y) (exp (- (0.92 * m * t))) /\
  within 2.1e-14 (get_aerosol_scattering_transmittance (N := N) low x y) (exp (- (0.84 * m * t))).
Proof.
  intros V H V' H'. assert (P : 0 <= m * t) by nra.
  split; [intros b|split].
  - destruct (run2 F_ae M B _ 640 16 x m y t F_ae_rel ae_ok eq_refl eq_refl V ltac:(lra) V' ltac:(lra)) as (q2 & r2 & q & v & v' & Q2 & R2 & T1 & VV & T2 & D).
    unfold F_ae in T1, T2. apply Ok_inj, (f_equal (hd x)) in T1. apply Ok_inj, (f_equal (hd (Fin 0))) in T2. cbn [hd] in T1, T2. rewrite neg_R, mul_R in T2. apply Fin_inj in T2.
    unfold get_aerosol_transmittance. rewrite T1. apply (exp64 q v); [exact VV| |lra]. replace (- (m * t)) with v' by (rewrite <- T2; ring). lra.
  - destruct (run2 (F_aes 0.92) M B _ 640 16 x m y t (F_aes_rel _) aeh_ok eq_refl eq_refl V ltac:(lra) V' ltac:(lra)) as (q2 & r2 & q & v & v' & Q2 & R2 & T1 & VV & T2 & D).
    unfold F_aes in T1, T2. apply Ok_inj, (f_equal (hd x)) in T1. apply Ok_inj, (f_equal (hd (Fin 0))) in T2. cbn [hd] in T1, T2. rewrite neg_R, lit_R, !mul_R in T2. apply Fin_inj in T2.
    unfold get_aerosol_scattering_transmittance. replace (albedo (N := N) high) with (Ok (lit (n := N) 0.92)) by reflexivity. cbn [bind]. rewrite T1. apply (exp64 q v); [exact VV| |nra].
    replace (- (0.92 * m * t)) with v' by (rewrite <- T2; unfold Q2R; simpl; lra). lra.
  - destruct (run2 (F_aes 0.84) M B _ 640 16 x m y t (F_aes_rel _) ael_ok eq_refl eq_refl V ltac:(lra) V' ltac:(lra)) as (q2 & r2 & q & v & v' & Q2 & R2 & T1 & VV & T2 & D).
    unfold F_aes in T1, T2. apply Ok_inj, (f_equal (hd x)) in T1. apply Ok_inj, (f_equal (hd (Fin 0))) in T2. cbn [hd] in T1, T2. rewrite neg_R, lit_R, !mul_R in T2. apply Fin_inj in T2.
    unfold get_aerosol_scattering_transmittance. replace (albedo (N := N) low) with (Ok (lit (n := N) 0.84)) by reflexivity. cbn [bind]. rewrite T1. apply (exp64 q v); [exact VV| |nra].
    replace (- (0.84 * m * t)) with v' by (rewrite <- T2; unfold Q2R; simpl; lra). lra.
Qed.
End L.

Lemma rest64 : forall L, accurate L ->
  (forall x m, val x m -> 0 <= m <= 40 ->
    within 4.1e-11 (get_rayleigh_transmittance (N := B64 L) high x) (rest2_TR1 m) /\
    within 7e-16 (get_rayleigh_transmittance (N := B64 L) low x) (rest2_TR2 m) /\
    within 1.9e-12 (get_gas_transmittance (N := B64 L) high x) (rest2_Tg1 m) /\
    within 5.7e-14 (get_gas_transmittance (N := B64 L) low x) (rest2_Tg2 m) /\
    within 6e-16 (get_rayleigh_extinction_forward_scattering_fraction (N := B64 L) high x) (rest2_BR1 m) /\
    (forall y, within 6.4e-14 (get_nitrogen_transmittance (N := B64 L) high x y) (rest2_Tn1 m 0.0003)) /\
    (forall y u, val y u -> 0 <= u <= 0.5 -> within 3.2e-11 (get_ozone_transmittance (N := B64 L) high x y) (rest2_To1 m u)) /\
    (forall y w, val y w -> 0 <= w <= 6 -> within 1.1e-12 (get_water_vapor_transmittance (N := B64 L) high x y) (rest2_Tw1 m w) /\
      within 8.1e-7 (get_water_vapor_transmittance (N := B64 L) low x y) (rest2_Tw2 m w)) /\
    (forall y t, val y t -> 0 <= t <= 1 -> within 9.8e-10 (get_aerosol_scattering_correction_factor (N := B64 L) high x y) (rest2_F1 m t))) /\
  (forall x a y b, val x a -> 0 <= a <= 2.5 -> val y b -> 0 <= b <= 1 ->
    within 5.3e-15 (get_sky_albedo (N := B64 L) high x y) (rest2_rhos1 a b) /\
    within 1.9e-15 (get_sky_albedo (N := B64 L) low x y) (rest2_rhos2 a b)).
Proof.
  intros L HL. split.
  - intros x m V H. split; [exact (TR1_64 L HL x m V H)|]. split; [exact (TR2_64 L HL x m V H)|]. split; [exact (Tg1_64 L HL x m V H)|]. split; [exact (Tg2_64 L HL x m V H)|].
    split; [exact (BR1_64 L HL x m V H)|]. split; [intros y; exact (Tn1_64 L HL x m y V H)|]. split; [intros y u V' H'; exact (To1_64 L HL x m y u V H V' H')|].
    split; [intros y w V' H'; exact (conj (Tw1_64 L HL x m y w V H V' H') (Tw2_64 L HL x m y w V H V' H'))|]. intros y t V' H'. exact (F1_64 L HL x m y t V H V' H').
  - intros x a y b V H V' H'. exact (conj (rs1_64 L HL x a y b V H V' H') (rs2_64 L HL x a y b V H V' H')).
Qed.

(* Running the pipeline on the abstract arithmetic, and the steps it cannot do: the quadrant of the right
   ascension and the flattening of latitudes up to the poles. *)
From Coq Require Import Reals Qreals Lra Lia List.
From Flocq Require Import Core IEEE754.BinarySingleNaN.
From Interval Require Import Tactic.
From Verif Require Import Py Num Cal SolarTime Solar Tables Constants RInst RTac Trig SpaProofs TopoProofs B64 SpecB64 B64Lemmas B64Angles B64Ranges Rel
  Absint AbsintSound.
Import ListNotations.
Local Open Scope R_scope.

(* ---- accuracy of a correctly rounded library *)
Lemma nearest_close r y : Rabs r <= bpow radix2 1000 -> nearest r y -> close y r.
Proof.
  intros H K. unfold nearest in K. rewrite big_ok in K by exact H. exists (rnd r). split; [exact K|].
  eapply Rle_trans; [apply rnd_rel|]. apply Rplus_le_compat_r. apply Rmult_le_compat_l; [apply Rabs_pos|]. apply bpow_le. lia.
Qed.
Lemma small_big r : Rabs r <= 4 -> Rabs r <= bpow radix2 1000.
Proof. intros H. eapply Rle_trans; [exact H|]. change 4 with (bpow radix2 2). now apply bpow_le. Qed.
Lemma cr_accurate L : correctly_rounded L -> accurate L.
Proof.
  intros C. assert (P4 : 3 < PI < 4) by (split; interval).
  split; intros.
  - destruct H as [F <-]. apply nearest_close; [|now apply cr_sin]. apply small_big, Rabs_le. pose proof (SIN_bound (B2R x)). lra.
  - destruct H as [F <-]. apply nearest_close; [|now apply cr_cos]. apply small_big, Rabs_le. pose proof (COS_bound (B2R x)). lra.
  - destruct H as [F <-]. apply nearest_close; [assumption|now apply cr_tan].
  - destruct H as [F <-]. apply nearest_close; [|now apply cr_asin]. apply small_big, Rabs_le. pose proof (asin_bound (B2R x)). lra.
  - destruct H as [F <-]. apply nearest_close; [|now apply cr_acos]. apply small_big, Rabs_le. pose proof (acos_bound (B2R x)). lra.
  - destruct H as [F <-]. now apply cr_asin_dom.
  - destruct H as [F <-]. now apply cr_acos_dom.
  - destruct H as [F <-]. apply nearest_close; [|now apply cr_atan]. apply small_big, Rabs_le. pose proof (atan_bound (B2R x)). lra.
  - destruct H as [F <-]. destruct H0 as [G <-]. apply nearest_close; [|now apply cr_atan2]. apply small_big, Rabs_le. pose proof (atan2_ieee_range y x). lra.
  - destruct H as [F <-]. apply nearest_close; [|now apply cr_exp]. rewrite Rabs_pos_eq; [assumption|left; apply exp_pos].
  - destruct H as [F <-]. destruct H0 as [G <-]. apply nearest_close; [|now apply cr_pow]. rewrite Rabs_pos_eq; [assumption|left; apply exp_pos].
Qed.

(* ---- lists of numbers through a function of the library *)
Inductive all3 : list abs_val -> list f64 -> list Rx -> Prop :=
| all3_nil : all3 [] [] []
| all3_cons a x y la lx ly : satv a x y -> all3 la lx ly -> all3 (a :: la) (x :: lx) (y :: ly).
Definition lfun := forall N : Num, list (T N) -> res (list (T N)).
Definition lrel (F : lfun) : Prop := forall N M (R : NumRel N M) l l',
  Forall2 (rT N M R) l l' -> relres (Forall2 (rT N M R)) (F N l) (F M l').

Section L.
Variable L : libm.
Hypothesis HL : accurate L.
Notation N := (B64 L).
Lemma all3_pair la lx ly : all3 la lx ly -> exists lp, Forall2 (rT AI (Pair N MathR) (ai_pair L HL)) la lp /\
  Forall2 (rT (Pair N MathR) N (pair_fst N MathR)) lp lx /\ Forall2 (rT (Pair N MathR) MathR (pair_snd N MathR)) lp ly.
Proof.
  induction 1 as [|a x y la lx ly S A (lp & P1 & P2 & P3)]; [exists []; repeat constructor|].
  exists ((x, y) :: lp). repeat split; constructor; auto; try reflexivity.
Qed.
Lemma pair_all3 la lp : Forall2 (rT AI (Pair N MathR) (ai_pair L HL)) la lp -> forall lx ly,
  Forall2 (rT (Pair N MathR) N (pair_fst N MathR)) lp lx -> Forall2 (rT (Pair N MathR) MathR (pair_snd N MathR)) lp ly -> all3 la lx ly.
Proof.
  induction 1 as [|a p la lp S A IH]; intros lx ly P2 P3.
  - inversion P2; inversion P3; constructor.
  - inversion P2 as [|? x ? lx' E1 P2']; subst. inversion P3 as [|? y ? ly' E2 P3']; subst. constructor; [|now apply IH].
    cbn in E1, E2. subst x y. exact S.
Qed.
Lemma transport (F : lfun) : lrel F -> forall la lx ly lz, all3 la lx ly -> F AI la = Ok lz ->
  exists lq lp, F N lx = Ok lq /\ F MathR ly = Ok lp /\ all3 lz lq lp.
Proof.
  intros HF la lx ly lz A E. destruct (all3_pair la lx ly A) as (l2 & P1 & P2 & P3).
  destruct (HF _ _ (ai_pair L HL) la l2 P1 lz E) as (l3 & E3 & Q).
  destruct (HF _ _ (pair_fst N MathR) l2 lx P2 l3 E3) as (lq & Eq & Q1). destruct (HF _ _ (pair_snd N MathR) l2 ly P3 l3 E3) as (lp & Ep & Q2).
  exists lq, lp. split; [exact Eq|]. split; [exact Ep|]. exact (pair_all3 _ _ Q _ _ Q1 Q2).
Qed.
End L.

(* ---- nearby points have nearby directions *)
Lemma turns_real x : exists k : Z, - PI <= x - IZR k * (2 * PI) <= PI.
Proof.
  pose proof PI_RGT_0 as P. set (k := Zfloor ((x + PI) / (2 * PI))). exists k.
  pose proof (Zfloor_lb ((x + PI) / (2 * PI))) as A. pose proof (Zfloor_ub ((x + PI) / (2 * PI))) as B. fold k in A, B.
  apply Rmult_le_compat_r with (r := 2 * PI) in A; [|lra]. apply Rmult_lt_compat_r with (r := 2 * PI) in B; [|lra].
  replace ((x + PI) / (2 * PI) * (2 * PI)) with (x + PI) in A, B by (field; lra). lra.
Qed.
Lemma atan2_near x y x' y' rho d : 0 <= d < rho -> rho * rho <= x * x + y * y -> (x' - x) * (x' - x) + (y' - y) * (y' - y) <= d * d ->
  exists k : Z, Rabs (Ratan2 y' x' - Ratan2 y x - IZR k * (2 * PI)) <= d / (rho - d).
Proof.
  intros Hd Hr HD. destruct (atan2_polar y x) as [X Y]. destruct (atan2_polar y' x') as [X' Y']. cbv zeta in *.
  set (r := sqrt (x * x + y * y)) in *. set (r' := sqrt (x' * x' + y' * y')) in *. set (t := Ratan2 y x) in *. set (t' := Ratan2 y' x') in *.
  assert (R0 : rho <= r). { unfold r. rewrite <- (sqrt_square rho) by lra. now apply sqrt_le_1_alt. }
  assert (RR : r * r = x * x + y * y) by (apply sqrt_sqrt; nra). assert (RR' : r' * r' = x' * x' + y' * y') by (apply sqrt_sqrt; nra).
  assert (RP' : 0 <= r') by apply sqrt_pos.
  clearbody r r' t t'.
  (* dot and cross products *)
  set (D := (x' - x) * (x' - x) + (y' - y) * (y' - y)) in *.
  assert (CS : forall a b, Rabs (x * a + y * b) <= r * sqrt (a * a + b * b)).
  { intros a b. pose proof (sqrt_sqrt (a * a + b * b) ltac:(nra)) as Q. pose proof (sqrt_pos (a * a + b * b)) as Q0. set (s := sqrt (a * a + b * b)) in *.
    apply Rsqr_incr_0_var; [|nra]. rewrite <- Rsqr_abs. unfold Rsqr. replace (r * s * (r * s)) with ((x * x + y * y) * (a * a + b * b)) by (rewrite <- RR, <- Q; ring).
    assert (0 <= (x * b - y * a) * (x * b - y * a)) by apply Rle_0_sqr. lra. }
  assert (SD : sqrt D <= d). { rewrite <- (sqrt_square d) by lra. now apply sqrt_le_1_alt. }
  assert (SR : r * sqrt D <= r * d) by (apply Rmult_le_compat_l; lra).
  assert (DOT : r * (r - d) <= x * x' + y * y').
  { pose proof (CS (x' - x) (y' - y)) as K. fold D in K. apply Rabs_le_inv in K. replace (x * x' + y * y') with (r * r + (x * (x' - x) + y * (y' - y))) by (rewrite RR; ring). lra. }
  assert (CRO : Rabs (x * y' - y * x') <= r * d).
  { pose proof (CS (y' - y) (- (x' - x))) as K. replace ((y' - y) * (y' - y) + - (x' - x) * - (x' - x)) with D in K by (unfold D; ring).
    replace (x * y' - y * x') with (x * (y' - y) + y * - (x' - x)) by ring. lra. }
  destruct (turns_real (t' - t)) as (k & Hk). exists k. set (f := t' - t - IZR k * (2 * PI)) in *.
  assert (CF : cos f = cos (t' - t)). { unfold f. replace (t' - t - IZR k * (2 * PI)) with (t' - t + IZR (- k) * (2 * PI)) by (rewrite opp_IZR; ring). 
    replace (IZR (- k) * (2 * PI)) with (2 * IZR (- k) * PI) by ring. apply cos_2kPI. }
  assert (SF : sin f = sin (t' - t)). { unfold f. replace (t' - t - IZR k * (2 * PI)) with (t' - t + IZR (- k) * (2 * PI)) by (rewrite opp_IZR; ring). 
    replace (IZR (- k) * (2 * PI)) with (2 * IZR (- k) * PI) by ring. apply sin_2kPI. }
  assert (DC : x * x' + y * y' = r * r' * cos f). { rewrite CF, cos_minus, <- X, <- Y, <- X', <- Y'. ring. }
  assert (DS : x * y' - y * x' = r * r' * sin f). { rewrite SF, sin_minus, <- X, <- Y, <- X', <- Y'. ring. }
  assert (RP : 0 < r * (r - d)) by nra.
  assert (CP : 0 < cos f). { apply Rnot_le_lt. intros Z. assert (0 <= r * r') by (apply Rmult_le_pos; lra). nra. }
  assert (FB : - (PI / 2) < f < PI / 2).
  { pose proof PI_RGT_0. split; apply Rnot_le_lt; intros Z.
    - assert (cos f <= 0); [|lra]. rewrite <- cos_neg. apply cos_le_0; lra.
    - assert (cos f <= 0); [|lra]. apply cos_le_0; lra. }
  assert (RN : r * r' <> 0). { intros Z. rewrite Z, Rmult_0_l in DC. lra. }
  assert (TF : tan f = (x * y' - y * x') / (x * x' + y * y')).
  { rewrite DC, DS. unfold tan. field. split; [lra|]. split; intros Z; apply RN; rewrite Z; ring. }
  rewrite <- (atan_tan f) by assumption. rewrite TF. eapply Rle_trans; [apply (proj1 (atan_abs _))|].
  unfold Rdiv. rewrite Rabs_mult, Rabs_inv, (Rabs_pos_eq (x * x' + y * y')) by lra.
  apply Rle_trans with (r * d * / (r * (r - d))).
  - apply Rmult_le_compat; [apply Rabs_pos|left; apply Rinv_0_lt_compat; lra|exact CRO|]. apply Rinv_le; lra.
  - replace (r * d * / (r * (r - d))) with (d * / (r - d)) by (field; lra). apply Rmult_le_compat_l; [lra|]. apply Rinv_le; lra.
Qed.
Lemma atan2_near_ieee x y qy qx x' y' rho d : val qy y' -> val qx x' -> 0 <= d < rho -> rho * rho <= x * x + y * y -> (x' - x) * (x' - x) + (y' - y) * (y' - y) <= d * d ->
  exists k : Z, Rabs (atan2_ieee qy qx - Ratan2 y x - IZR k * (2 * PI)) <= d / (rho - d).
Proof.
  intros Vy Vx Hd Hr HD. destruct (atan2_near x y x' y' rho d Hd Hr HD) as (k & K).
  destruct (atan2_ieee_turn qy qx y' x' Vy Vx) as (j & -> & _).
  - destruct (Req_dec y' 0) as [-> |]; [|now left]. right. intros ->. nra.
  - exists (j + k)%Z. rewrite plus_IZR. replace (Ratan2 y' x' + IZR j * (2 * PI) - _ - _) with (Ratan2 y' x' - Ratan2 y x - IZR k * (2 * PI)) by ring. exact K.
Qed.

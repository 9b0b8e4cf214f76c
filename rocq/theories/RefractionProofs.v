(* get_refraction_correction over the reals. *)
From Coq Require Import Reals Qreals Lra Lia Psatz.
From Flocq Require Import Core.
From Interval Require Import Tactic.
From Verif Require Import Py Num Cal Constants SolarTime Solar RInst RTac SpecGeom Trig GeoProofs.
Local Open Scope R_scope.

Lemma refraction_val P T e : e <> -5.11 -> sind (refraction_argument e) <> 0 -> T <> 0 ->
  get_refraction_correction (N := MathR) (Fin P) (Fin T) (Fin e)
  = Ok (Fin (if Rle_dec (-0.83337) e then refraction_formula P T e else 0)).
Proof.
  intros He Hs HT. unfold get_refraction_correction. rx.
  change (Q2R 10.3 / (e + Q2R 5.11)) with (10.3 / (e + 5.11)). fold (refraction_argument e).
  set (a := refraction_argument e) in *.
  assert (W : forall x, (if Rbool_le (-0.83337) e then Fin x else Fin 0) =
                        Fin (if Rle_dec (-0.83337) e then x else 0)).
  { intros x. unfold Rbool_le. now destruct (Rle_dec (-0.83337) e). }
  replace (- Q2R 1.0 * (Q2R 0.26667 + Q2R 0.5667)) with (Q2R (-0.83337)) by (unfold Q2R; simpl; lra).
  destruct (Req_dec (cosd a) 0) as [Hc|Hc].
  - cbn [ntan MathR]. unfold Rtan_x. rewrite Req_bool_true by now rewrite <- cosd_rad.
    assert (E : forall t : Num.T MathR, t = PInf \/ t = NInf ->
       @div MathR (Fin (P * Q2R 2.830 * Q2R 1.02)) (@mul MathR (Fin (Q2R 1010.0 * T * Q2R 60.0)) t) = Ok (Fin 0)).
    { intros t Ht. assert (Hp : Q2R 1010.0 * T * Q2R 60.0 <> 0) by (unfold Q2R; simpl; lra).
      destruct Ht as [-> | ->]; cbn [mul MathR xmul];
        destruct (Rsgn_cases (Q2R 1010.0 * T * Q2R 60.0)) as [[E ?]|[[E ?]|[E ?]]]; try tauto; rewrite E; reflexivity. }
    rewrite bind_Ok, E by (destruct (Rbool_lt 0 (sin (rad a))); auto).
    rx. rewrite W. do 2 f_equal. destruct (Rle_dec _ e); [|reflexivity].
    unfold refraction_formula. fold a. rewrite Hc. lra.
  - rewrite ntan_R by now apply cos_rad_ne0. rx. rewrite div_R.
    2:{ rewrite <- tand_rad, tand_def. unfold Rdiv. repeat apply Rmult_integral_contrapositive_currified; auto;
        try (unfold Q2R; simpl; lra). now apply Rinv_neq_0_compat. }
    rx. rewrite W. do 2 f_equal. destruct (Rle_dec _ e); [|reflexivity].
    unfold refraction_formula. fold a. rewrite <- tand_rad, tand_def. unfold Q2R; simpl. field. tauto.
Qed.

(* where the function cannot fail *)
Lemma refraction_argument_low e : -5.11 < e -> 1.3 < refraction_argument e.
Proof.
  intros H. unfold refraction_argument. set (x := e + 5.11). assert (0 < x) by (unfold x; lra).
  assert (6.41 < x + 10.3 / x); [|unfold x in *; lra].
  apply Rmult_lt_reg_r with x; [lra|]. replace ((x + 10.3 / x) * x) with (x * x + 10.3) by (field; lra).
  pose proof (Rle_0_sqr (x - 3.205)) as S. unfold Rsqr in S. lra.
Qed.
Lemma refraction_argument_high e : -5 <= e <= 90 -> refraction_argument e < 90.11.
Proof.
  intros H. unfold refraction_argument. set (x := e + 5.11). assert (0.11 <= x <= 95.11) by (unfold x; lra).
  assert (x + 10.3 / x < 95.22); [|unfold x in *; lra].
  apply Rmult_lt_reg_r with x; [lra|]. replace ((x + 10.3 / x) * x) with (x * x + 10.3) by (field; lra). nra.
Qed.
Lemma refraction_argument_below e : -90 <= e <= -5.2 -> -180 < refraction_argument e < 0.
Proof.
  intros H. unfold refraction_argument. set (x := - (e + 5.11)). assert (0.09 <= x <= 84.89) by (unfold x; lra).
  replace (10.3 / (e + 5.11)) with (- (10.3 / x)) by (unfold x; field; lra).
  assert (0 < 10.3 / x) by (apply Rdiv_lt_0_compat; lra).
  assert (x + 10.3 / x < 174.8); [|unfold x in *; lra].
  apply Rmult_lt_reg_r with x; [lra|]. replace ((x + 10.3 / x) * x) with (x * x + 10.3) by (field; lra). nra.
Qed.

Lemma refraction_sin_ne0 e : -90 <= e <= 90 -> ~ (-5.2 < e < -5) -> sind (refraction_argument e) <> 0.
Proof.
  intros H1 H2. destruct (Rle_dec e (-5.2)).
  - pose proof (refraction_argument_below e ltac:(lra)). pose proof (sind_pos (- refraction_argument e) ltac:(lra)) as S.
    rewrite sind_opp in S. lra.
  - pose proof (refraction_argument_low e ltac:(lra)). pose proof (refraction_argument_high e ltac:(lra)).
    pose proof (sind_pos (refraction_argument e) ltac:(lra)). lra.
Qed.

Lemma refraction_ok P T e : -90 <= e <= 90 -> ~ (-5.2 < e < -5) -> T <> 0 ->
  get_refraction_correction (N := MathR) (Fin P) (Fin T) (Fin e)
  = Ok (Fin (if Rle_dec (-0.83337) e then refraction_formula P T e else 0)).
Proof. intros H1 H2 HT. apply refraction_val; [lra| |assumption]. now apply refraction_sin_ne0. Qed.

(* C17: false *)
Lemma refraction_raises P T : get_refraction_correction (N := MathR) (Fin P) (Fin T) (Fin (-5.11)) = Err ZeroDivisionError.
Proof. unfold get_refraction_correction. rx. replace (-5.11 + 5.11)%R with 0 by lra. now rewrite div_R0. Qed.

(* every failure is a ZeroDivisionError in (-5.2, -5) *)
Lemma refraction_fails_only P T e x : -90 <= e <= 90 -> T <> 0 ->
  get_refraction_correction (N := MathR) (Fin P) (Fin T) (Fin e) = Err x -> x = ZeroDivisionError /\ -5.2 < e < -5.
Proof.
  intros He HT H. split.
  - destruct (Req_dec e (-5.11)) as [-> |E1].
    + rewrite refraction_raises in H. congruence.
    + destruct (Req_dec (sind (refraction_argument e)) 0) as [E2|E2].
      * revert H. unfold get_refraction_correction. rx.
        change (Q2R 10.3 / (e + Q2R 5.11)) with (10.3 / (e + 5.11)). fold (refraction_argument e).
        set (a := refraction_argument e) in *. pose proof (sincosd a) as SC. rewrite E2 in SC.
        assert (cosd a <> 0) by (intros Z; rewrite Z in SC; lra).
        rewrite ntan_R by now apply cos_rad_ne0. rx. rewrite <- tand_rad, tand_def, E2.
        replace (Q2R 1010.0 * T * Q2R 60.0 * (0 / cosd a)) with 0 by (field; assumption).
        rewrite div_R0. simpl. congruence.
      * rewrite refraction_val in H by assumption. discriminate.
  - apply Classical_Prop.NNPP. intros N. rewrite refraction_ok in H by assumption. discriminate.
Qed.

(* ---------------------------------------------------------------- C16 *)
Lemma sin_small : 0.0226 <= sind 1.3.
Proof. unfold sind. interval. Qed.

Lemma cot_sign e : -0.83337 <= e <= 89.89 -> 0 <= cosd (refraction_argument e) / sind (refraction_argument e).
Proof.
  intros H. assert (1.3 < refraction_argument e) by (apply refraction_argument_low; lra).
  assert (refraction_argument e <= 90).
  { unfold refraction_argument. set (x := e + 5.11). assert (4.27663 <= x <= 95) by (unfold x; lra).
    assert (x + 10.3 / x <= 95.11); [|unfold x in *; lra].
    apply Rmult_le_reg_r with x; [lra|]. replace ((x + 10.3 / x) * x) with (x * x + 10.3) by (field; lra). nra. }
  apply Rmult_le_pos; [apply cosd_nonneg; lra|]. left. apply Rinv_0_lt_compat, sind_pos. lra.
Qed.

Lemma refraction_nonneg P T e : 0 <= P -> 0 < T -> -90 <= e <= 89.89 -> ~ (-5.2 < e < -5) ->
  exists r, get_refraction_correction (N := MathR) (Fin P) (Fin T) (Fin e) = Ok (Fin r) /\ 0 <= r.
Proof.
  intros HP HT He Hne. eexists. split; [apply refraction_ok; lra|]. destruct (Rle_dec _ e); [|lra].
  unfold refraction_formula. apply Rmult_le_pos; [|apply cot_sign; lra].
  apply Rmult_le_pos; [apply Rmult_le_pos|]; try lra. left. apply Rdiv_lt_0_compat; lra.
Qed.

Lemma refraction_negative P T : 0 < P -> 0 < T ->
  exists r, get_refraction_correction (N := MathR) (Fin P) (Fin T) (Fin 90) = Ok (Fin r) /\ r < 0.
Proof.
  intros HP HT. eexists. split; [apply refraction_ok; lra|]. destruct (Rle_dec _ 90); [|lra].
  unfold refraction_formula, refraction_argument. 
  assert (S : 0 < sind (90 + 10.3 / (90 + 5.11))) by (apply sind_pos; lra).
  assert (C : cosd (90 + 10.3 / (90 + 5.11)) < 0) by (unfold cosd; interval).
  assert (C' : cosd (90 + 10.3 / (90 + 5.11)) / sind (90 + 10.3 / (90 + 5.11)) < 0).
  { unfold Rdiv at 1. apply Rinv_0_lt_compat in S. nra. }
  assert (Pp : 0 < P / 101000 * (283 / T) * (1.02 / 60)).
  { apply Rmult_lt_0_compat; [apply Rmult_lt_0_compat|]; try lra. apply Rdiv_lt_0_compat; lra. }
  nra.
Qed.

Lemma refraction_scaling P T e k : -90 <= e <= 90 -> ~ (-5.2 < e < -5) -> T <> 0 -> k <> 0 ->
  exists r, get_refraction_correction (N := MathR) (Fin P) (Fin T) (Fin e) = Ok (Fin r) /\
    get_refraction_correction (N := MathR) (Fin (k * P)) (Fin T) (Fin e) = Ok (Fin (k * r)) /\
    get_refraction_correction (N := MathR) (Fin P) (Fin (k * T)) (Fin e) = Ok (Fin (r / k)).
Proof.
  intros He Hne HT Hk. eexists. split; [apply refraction_ok; assumption|].
  assert (k * T <> 0) by now apply Rmult_integral_contrapositive_currified.
  pose proof (refraction_sin_ne0 e He Hne).
  split; rewrite refraction_ok by assumption; do 2 f_equal; destruct (Rle_dec _ e); unfold refraction_formula; field; auto.
Qed.

Lemma refraction_below P T e : -90 <= e < -0.83337 -> ~ (-5.2 < e < -5) -> T <> 0 ->
  get_refraction_correction (N := MathR) (Fin P) (Fin T) (Fin e) = Ok (Fin 0).
Proof. intros He Hne HT. rewrite refraction_ok by (lra || assumption). destruct (Rle_dec _ e); [lra|reflexivity]. Qed.

(* ---------------------------------------------------------------- C15 *)
Lemma std_P : @standard_pressure MathR = Fin 101325.
Proof. unfold standard_pressure. rx. f_equal. unfold Q2R; simpl; lra. Qed.
Lemma std_T : @standard_temperature MathR = Fin 288.15.
Proof. reflexivity. Qed.

Lemma cot_bound e : -0.83337 <= e <= 90 ->
  -1 < cosd (refraction_argument e) / sind (refraction_argument e) < 45.
Proof.
  intros H. assert (A1 : 1.3 < refraction_argument e) by (apply refraction_argument_low; lra).
  assert (A2 : refraction_argument e < 90.11) by (apply refraction_argument_high; lra).
  set (a := refraction_argument e) in *. clearbody a. pose proof sin_small as S. pose proof (cosd_bound a) as Cb.
  assert (Sa : 0.0226 <= sind a).
  { destruct (Rle_dec a 90).
    - pose proof (sind_incr 1.3 a ltac:(lra) ltac:(lra) ltac:(lra)). lra.
    - unfold sind. assert (90 < a < 90.11) by lra. interval. }
  split.
  - apply Rmult_lt_reg_r with (sind a); [lra|]. replace (cosd a / sind a * sind a) with (cosd a) by (field; lra).
    destruct (Rle_dec a 90).
    + pose proof (cosd_nonneg a ltac:(lra)). lra.
    + assert (90 < a < 90.11) by lra. assert (-0.01 < cosd a) by (unfold cosd; interval). assert (0.9 < sind a) by (unfold sind; interval). lra.
  - apply Rmult_lt_reg_r with (sind a); [lra|]. replace (cosd a / sind a * sind a) with (cosd a) by (field; lra). nra.
Qed.

(* close to the zenith the correction is smaller than the zenith distance *)
Lemma cot_zenith e : 45 <= e <= 90 ->
  cosd (refraction_argument e) / sind (refraction_argument e) <= (90 - e) / 25.
Proof.
  intros H. assert (A : e < refraction_argument e).
  { unfold refraction_argument. assert (0 < 10.3 / (e + 5.11)) by (apply Rdiv_lt_0_compat; lra). lra. }
  assert (A2 : refraction_argument e < 90.11) by (apply refraction_argument_high; lra).
  set (a := refraction_argument e) in *. clearbody a.
  destruct (Rle_dec 90 a) as [L|L].
  - assert (0 < sind a) by (apply sind_pos; lra).
    assert (C : cosd a <= 0).
    { replace a with (180 - (180 - a)) by lra. rewrite cosd_supp. pose proof (cosd_nonneg (180 - a) ltac:(lra)). lra. }
    apply Rle_trans with 0; [|lra]. unfold Rdiv. apply Rinv_0_lt_compat in H0. nra.
  - (* cos a = sin (90 - a) <= (90 - a) pi/180;  sin a >= sin 45 > 0.7 *)
    assert (S : 0.7 <= sind a).
    { assert (45 <= a <= 90) by lra. pose proof (sind_incr 44.9 a ltac:(lra) ltac:(lra) ltac:(lra)).
      assert (0.7 <= sind 44.9) by (unfold sind; interval). lra. }
    assert (C : cosd a <= (90 - a) * 0.018).
    { rewrite cosd_rad, <- sin_shift, <- rad_90, <- rad_minus.
      assert (Pi : 0 <= rad (90 - a)). { rewrite <- rad_0. apply rad_le. lra. }
      assert (B : sin (rad (90 - a)) <= rad (90 - a)).
      { destruct Pi as [Pi|Pi]; [left; now apply sin_lt_x|]. rewrite <- Pi, sin_0. lra. }
      assert (rad (90 - a) <= (90 - a) * 0.018); [|lra]. unfold rad. apply Rmult_le_compat_l; [lra|]. interval. }
    apply Rmult_le_reg_r with (sind a); [lra|]. replace (cosd a / sind a * sind a) with (cosd a) by (field; lra). nra.
Qed.

Lemma std_refraction e : -90 <= e <= 90 -> ~ (-5.2 < e < -5) ->
  exists r, get_refraction_correction (N := MathR) standard_pressure standard_temperature (Fin e) = Ok (Fin r) /\
    -90 <= e + r <= 90 /\ Rabs r < 0.9 /\ (e < -0.83337 -> r = 0).
Proof.
  intros He Hne. rewrite std_P, std_T. eexists. split; [apply refraction_ok; lra|].
  destruct (Rle_dec _ e) as [L|L]; [|rewrite Rabs_R0; lra].
  unfold refraction_formula. pose proof (cot_bound e ltac:(lra)) as B.
  pose proof (fun H => cot_zenith e (conj H (proj2 He))) as Z.
  set (c := cosd (refraction_argument e) / sind (refraction_argument e)) in *. clearbody c.
  set (K := 101325 / 101000 * (283 / 288.15) * (1.02 / 60)).
  assert (KB : 0.016 < K < 0.017) by (unfold K; lra). clearbody K.
  assert (-0.017 < K * c < 0.765) by nra.
  split; [|split; [apply Rabs_def1; lra|lra]].
  split; [lra|]. destruct (Rle_dec 45 e); [|lra]. specialize (Z ltac:(lra)). nra.
Qed.

(* ---------------------------------------------------------------- exactly where it raises *)
Lemma refraction_raises_iff P T e : T <> 0 ->
  (get_refraction_correction (N := MathR) (Fin P) (Fin T) (Fin e) = Err ZeroDivisionError <->
    e = -5.11 \/ sind (refraction_argument e) = 0) /\
  (forall x, get_refraction_correction (N := MathR) (Fin P) (Fin T) (Fin e) = Err x -> x = ZeroDivisionError).
Proof.
  intros HT.
  assert (S : e <> -5.11 -> sind (refraction_argument e) = 0 ->
    get_refraction_correction (N := MathR) (Fin P) (Fin T) (Fin e) = Err ZeroDivisionError).
  { intros E1 E2. unfold get_refraction_correction. rx.
    change (Q2R 10.3 / (e + Q2R 5.11)) with (10.3 / (e + 5.11)). fold (refraction_argument e).
    set (a := refraction_argument e) in *. pose proof (sincosd a) as SC. rewrite E2 in SC.
    assert (cosd a <> 0) by (intros Z; rewrite Z in SC; lra).
    rewrite ntan_R by now apply cos_rad_ne0. rx. rewrite <- tand_rad, tand_def, E2.
    replace (Q2R 1010.0 * T * Q2R 60.0 * (0 / cosd a)) with 0 by (field; assumption).
    now rewrite div_R0. }
  destruct (Req_dec e (-5.11)) as [-> |E1].
  - rewrite refraction_raises. split; [tauto|congruence].
  - destruct (Req_dec (sind (refraction_argument e)) 0) as [E2|E2].
    + rewrite S by assumption. split; [tauto|congruence].
    + rewrite refraction_val by assumption. split; [|congruence]. split; [congruence|tauto].
Qed.

(* whatever pressure and temperature, a result below the threshold is 0 *)
Lemma refraction_returns_below P T e r : e < -0.83337 ->
  get_refraction_correction (N := MathR) P T (Fin e) = Ok r -> r = Fin 0.
Proof.
  intros He H. unfold get_refraction_correction in H.
  apply bind_eq_Ok in H as (q & _ & H). apply bind_eq_Ok in H as (t & _ & H). apply bind_eq_Ok in H as (v & _ & H).
  revert H. rx. replace (- Q2R 1.0 * (Q2R 0.26667 + Q2R 0.5667)) with (Q2R (-0.83337)) by (unfold Q2R; simpl; lra).
  unfold Rbool_le. destruct (Rle_dec (Q2R (-0.83337)) e) as [L|L]; [exfalso; revert L; unfold Q2R in *; simpl in *; lra|].
  intros H. now injection H as <-.
Qed.

Lemma std_refraction_returns e r : -90 <= e <= 90 ->
  get_refraction_correction (N := MathR) standard_pressure standard_temperature (Fin e) = Ok r ->
  exists x, r = Fin x /\ -90 <= e + x <= 90 /\ Rabs x < 0.9 /\ (e < -0.83337 -> x = 0).
Proof.
  intros He H. destruct (Rlt_dec e (-0.83337)) as [L|L].
  - exists 0. rewrite (refraction_returns_below _ _ _ _ L H), Rabs_R0. repeat split; lra.
  - destruct (std_refraction e He ltac:(lra)) as (x & E & B1 & B2 & B3). rewrite E in H. injection H as <-. eauto.
Qed.

Lemma refraction_above P T e : -0.83337 <= e <= 90 -> T <> 0 ->
  get_refraction_correction (N := MathR) (Fin P) (Fin T) (Fin e) = Ok (Fin (refraction_formula P T e)).
Proof.
  intros He HT. rewrite refraction_ok by lra. destruct (Rle_dec (-0.83337) e); [reflexivity|lra].
Qed.
Lemma refraction_claim_false : ~ (forall P T e, 0 < P -> 0 < T -> -90 <= e <= 90 -> ~ (-5.2 < e < -5) ->
  exists r, get_refraction_correction (N := MathR) (Fin P) (Fin T) (Fin e) = Ok (Fin r) /\ 0 <= r).
Proof.
  intros C. destruct (C 1 1 90) as (r & H & L); try lra.
  destruct (refraction_negative 1 1 ltac:(lra) ltac:(lra)) as (r' & H' & L'). rewrite H in H'. injection H' as <-. lra.
Qed.
Lemma refraction_total_false : ~ (forall P T e, 0 < P -> 0 < T -> -90 <= e <= 90 ->
  exists r, get_refraction_correction (N := MathR) (Fin P) (Fin T) (Fin e) = Ok r).
Proof. intros C. destruct (C 1 1 (-5.11)) as (r & H); try lra. rewrite refraction_raises in H. discriminate. Qed.
Lemma refraction_raises_exactly P T e : T <> 0 ->
  (get_refraction_correction (N := MathR) (Fin P) (Fin T) (Fin e) = Err ZeroDivisionError <->
     e = -5.11 \/ sind (refraction_argument e) = 0) /\
  (forall x, get_refraction_correction (N := MathR) (Fin P) (Fin T) (Fin e) = Err x -> x = ZeroDivisionError) /\
  (-90 <= e <= 90 -> ~ (-5.2 < e < -5) -> exists r, get_refraction_correction (N := MathR) (Fin P) (Fin T) (Fin e) = Ok (Fin r)).
Proof.
  intros HT. destruct (refraction_raises_iff P T e HT) as [H1 H2]. split; [exact H1|]. split; [exact H2|].
  intros He Hw. rewrite refraction_ok by assumption. eauto.
Qed.

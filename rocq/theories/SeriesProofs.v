(* The periodic series: get_coeff, heliocentric coordinates, distance, nutation. *)
From Coq Require Import Reals Qreals Lra Lia Psatz.
From Flocq Require Import Core.
From Verif Require Import Py Num Cal Tables Constants SolarTime Solar RInst RTac SpecGeom SpecAstro Trig GeoProofs.
Local Open Scope R_scope.

(* ---------------------------------------------------------------- C23 *)
Lemma coeff_line_val x rows : coeff_line (N := MathR) (Fin x) rows = Ok (Fin (vsop_series x rows)).
Proof.
  unfold coeff_line. rewrite lit_R. replace (Q2R 0.0) with 0 by (unfold Q2R; simpl; lra).
  replace (vsop_series x rows) with (0 + vsop_series x rows) by ring. generalize 0 as acc.
  induction rows as [|[[a b] c] rows IH]; intros acc; cbn [fold_left].
  - simpl. do 2 f_equal. ring.
  - rx. rewrite IH. do 2 f_equal. simpl. ring.
Qed.

Lemma get_coeff_val x tables : get_coeff (N := MathR) (Fin x) tables = Ok (Fin (vsop_sum 0 x tables)).
Proof.
  unfold get_coeff. rewrite !lit_R. replace (Q2R 0.0) with 0 by (unfold Q2R; simpl; lra).
  replace (Q2R 1.0) with (x ^ 0) by (unfold Q2R; simpl; lra).
  assert (G : forall n acc, (st <- fold_left (fun (acc : res (T MathR * T MathR)) line => st <- acc ;;
     (let '(result, y) := st in c <- coeff_line (N := MathR) (Fin x) line ;; Ok (result + c * y, y * Fin x)%num)) tables (Ok (Fin acc, Fin (x ^ n))) ;; Ok (fst st))
     = Ok (Fin (acc + vsop_sum n x tables))).
  { induction tables as [|rows tables IH]; intros n acc; cbn [fold_left].
    - simpl. do 2 f_equal. ring.
    - rewrite bind_Ok, coeff_line_val. rx. replace (x ^ n * x) with (x ^ S n) by (simpl; ring). rewrite IH.
      do 2 f_equal. simpl. ring. }
  rewrite G. do 2 f_equal. ring.
Qed.

(* ---------------------------------------------------------------- bounds *)
Definition amplitude (rows : list (Q * Q * Q)) : Q :=
  fold_right (fun r s => Qred (Qplus (Qabs.Qabs (fst (fst r))) s)) 0%Q rows.

Lemma Q2R_abs q : Q2R (Qabs.Qabs q) = Rabs (Q2R q).
Proof.
  destruct (Qlt_le_dec q 0) as [H|H].
  - rewrite (Qeq_eqR _ _ (Qabs.Qabs_neg q (Qlt_le_weak _ _ H))), Q2R_opp. symmetry. apply Rabs_left.
    apply Qlt_Rlt in H. replace (Q2R 0) with 0 in H by (unfold Q2R; simpl; lra). lra.
  - rewrite (Qeq_eqR _ _ (Qabs.Qabs_pos q H)). symmetry. apply Rabs_right.
    apply Qle_Rle in H. replace (Q2R 0) with 0 in H by (unfold Q2R; simpl; lra). lra.
Qed.
Lemma Q2R_red q : Q2R (Qred q) = Q2R q.
Proof. apply Qeq_eqR, Qred_correct. Qed.

Lemma term_bound a c : -1 <= c <= 1 -> - Rabs a <= a * c <= Rabs a.
Proof. intros H. destruct (Rcase_abs a) as [Ha|Ha]; [rewrite Rabs_left by assumption|rewrite Rabs_right by assumption]; nra. Qed.

Lemma vsop_series_bound x rows : - Q2R (amplitude rows) <= vsop_series x rows <= Q2R (amplitude rows).
Proof.
  induction rows as [|[[a b] c] rows IH].
  - simpl. unfold Q2R; simpl. lra.
  - unfold amplitude; cbn [fold_right]; fold (amplitude rows). cbn [vsop_series fold_right fst].
    fold (vsop_series x rows). rewrite Q2R_red, Q2R_plus, Q2R_abs.
    pose proof (term_bound (Q2R a) (cos (Q2R b + Q2R c * x)) (COS_bound _)). lra.
Qed.

(* the tables' amplitudes, evaluated *)
Ltac amp l q := replace (amplitude l) with q by (vm_compute; reflexivity).

Lemma pow_range x n m : 0 <= m -> - m <= x <= m -> - m ^ n <= x ^ n <= m ^ n.
Proof.
  intros Hm Hx. apply Rabs_le_inv. rewrite <- RPow_abs. apply pow_incr. split; [apply Rabs_pos|]. now apply Rabs_le.
Qed.

Fixpoint amp_sum (n : nat) (m : R) (tables : list (list (Q * Q * Q))) : R :=
  match tables with
  | [] => 0
  | rows :: rest => m ^ n * Q2R (amplitude rows) + amp_sum (S n) m rest
  end.

Lemma amplitude_nonneg rows : 0 <= Q2R (amplitude rows).
Proof. pose proof (vsop_series_bound 0 rows). lra. Qed.

Lemma vsop_sum_bound n m x tables : 0 <= m -> - m <= x <= m ->
  - amp_sum n m tables <= vsop_sum n x tables <= amp_sum n m tables.
Proof.
  intros Hm Hx. revert n. induction tables as [|rows tables IH]; intros n; simpl; [lra|].
  specialize (IH (S n)). pose proof (pow_range x n m Hm Hx) as P. pose proof (vsop_series_bound x rows) as B.
  set (p := x ^ n) in *. set (q := m ^ n) in *. set (v := vsop_series x rows) in *. set (a := Q2R (amplitude rows)) in *.
  assert (- (q * a) <= p * v <= q * a); [|lra]. clearbody p q v a. split; nra.
Qed.

(* ---------------------------------------------------------------- C21 *)
Lemma distance_val x : get_sun_earth_distance (N := MathR) (Fin x) = Ok (Fin (vsop_sum 0 x sun_earth_distance_coeffs / 100000000)).
Proof. unfold get_sun_earth_distance. rewrite get_coeff_val. rx. reflexivity. Qed.

(* first row of the first table is the mean distance *)
Definition distance_rest : list (list (Q * Q * Q)) :=
  match sun_earth_distance_coeffs with
  | (_ :: rows) :: rest => rows :: rest
  | _ => []
  end.
Lemma distance_split x : vsop_sum 0 x sun_earth_distance_coeffs = 100013989 + vsop_sum 0 x distance_rest.
Proof.
  transitivity (x ^ 0 * (Q2R 100013989.0 * cos (Q2R 0 + Q2R 0 * x)) + vsop_sum 0 x distance_rest).
  - cbn -[Q2R pow]. ring.
  - replace (Q2R 0 + Q2R 0 * x) with 0 by (unfold Q2R; simpl; lra). rewrite cos_0. unfold Q2R; simpl. lra.
Qed.

Lemma amp_rest8 : amp_sum 0 8 distance_rest <= 3000000.
Proof.
  cbn [amp_sum distance_rest sun_earth_distance_coeffs].
  repeat match goal with |- context [amplitude ?l] => let q := eval vm_compute in (amplitude l) in replace (amplitude l) with q by (vm_compute; reflexivity) end.
  unfold Q2R; cbn [Qnum Qden pow]. lra.
Qed.
Lemma amp_rest1 : amp_sum 0 1.001 distance_rest <= 1850000.
Proof.
  cbn [amp_sum distance_rest sun_earth_distance_coeffs].
  repeat match goal with |- context [amplitude ?l] => let q := eval vm_compute in (amplitude l) in replace (amplitude l) with q by (vm_compute; reflexivity) end.
  unfold Q2R; cbn [Qnum Qden pow]. lra.
Qed.

Lemma distance_bounds x : -8 <= x <= 8 ->
  exists r, get_sun_earth_distance (N := MathR) (Fin x) = Ok (Fin r) /\ 0.96 <= r <= 1.04 /\
    (-1.001 <= x <= 1.001 -> 0.98 <= r <= 1.02).
Proof.
  intros H. eexists. split; [apply distance_val|]. rewrite distance_split. split.
  - pose proof (vsop_sum_bound 0 8 x distance_rest ltac:(lra) H) as B. pose proof amp_rest8. lra.
  - intros H1. pose proof (vsop_sum_bound 0 1.001 x distance_rest ltac:(lra) ltac:(lra)) as B. pose proof amp_rest1. lra.
Qed.

(* ---------------------------------------------------------------- heliocentric coordinates *)
Lemma helio_latitude_val x : get_heliocentric_latitude (N := MathR) (Fin x) =
  Ok (Fin (deg (vsop_sum 0 x heliocentric_latitude_coeffs / 100000000))).
Proof. unfold get_heliocentric_latitude. rewrite get_coeff_val. rx. reflexivity. Qed.
Lemma helio_longitude_val x : get_heliocentric_longitude (N := MathR) (Fin x) =
  Ok (Fin (Rfmod (deg (vsop_sum 0 x heliocentric_longitude_coeffs / 100000000)) 360)).
Proof. unfold get_heliocentric_longitude. rewrite get_coeff_val. rx. reflexivity. Qed.
Lemma geo_latitude_val x : get_geocentric_latitude (N := MathR) (Fin x) =
  Ok (Fin (- deg (vsop_sum 0 x heliocentric_latitude_coeffs / 100000000))).
Proof. unfold get_geocentric_latitude. rewrite helio_latitude_val. rx. do 2 f_equal. ring. Qed.
Lemma geo_longitude_val x : get_geocentric_longitude (N := MathR) (Fin x) =
  Ok (Fin (Rfmod (deg (vsop_sum 0 x heliocentric_longitude_coeffs / 100000000) + 180) 360)).
Proof.
  unfold get_geocentric_longitude. rewrite helio_longitude_val. rx. do 2 f_equal.
  destruct (Rfmod_eq (deg (vsop_sum 0 x heliocentric_longitude_coeffs / 100000000)) 360) as [k E]. rewrite E.
  replace (deg (vsop_sum 0 x heliocentric_longitude_coeffs / 100000000) - 360 * IZR k + 180) with
    (deg (vsop_sum 0 x heliocentric_longitude_coeffs / 100000000) + 180 + 360 * IZR (- k)) by (rewrite opp_IZR; ring).
  apply Rfmod_shift. lra.
Qed.

Lemma amp_lat8 : amp_sum 0 8 heliocentric_latitude_coeffs <= 700.
Proof.
  cbn [amp_sum heliocentric_latitude_coeffs].
  repeat match goal with |- context [amplitude ?l] => let q := eval vm_compute in (amplitude l) in replace (amplitude l) with q by (vm_compute; reflexivity) end.
  unfold Q2R; cbn [Qnum Qden pow]. lra.
Qed.

Lemma geo_latitude_bound x : -8 <= x <= 8 ->
  exists b, get_geocentric_latitude (N := MathR) (Fin x) = Ok (Fin b) /\ -0.001 < b < 0.001.
Proof.
  intros H. eexists. split; [apply geo_latitude_val|].
  pose proof (vsop_sum_bound 0 8 x heliocentric_latitude_coeffs ltac:(lra) H) as B. pose proof amp_lat8.
  set (v := vsop_sum 0 x heliocentric_latitude_coeffs) in *.
  assert (V : -0.000007 <= v / 100000000 <= 0.000007) by lra. set (w := v / 100000000) in *. clearbody w.
  unfold deg. assert (P : 0 < 180 / PI < 61).
  { pose proof PI_pos. split; [apply Rdiv_lt_0_compat; lra|]. pose proof PI2_3_2.
    apply Rmult_lt_reg_r with PI; [lra|]. replace (180 / PI * PI) with 180 by (field; lra). lra. }
  set (k := 180 / PI) in *. clearbody k. nra.
Qed.

(* ---------------------------------------------------------------- C24 *)
Lemma nutation_args_val t : nutation_args (N := MathR) aberration_coeffs_table (Fin t) =
  Ok [Fin (arg_D t); Fin (arg_M t); Fin (arg_M' t); Fin (arg_F t); Fin (arg_Omega t)].
Proof.
  unfold nutation_args. cbn [fold_right dict_get aberration_coeffs_table String.eqb Ascii.eqb Bool.eqb].
  unfold cubic. rx.
  assert (E : forall a b c d e a' b' c' d' e' : R, a = a' -> b = b' -> c = c' -> d = d' -> e = e' ->
    Ok [Fin a; Fin b; Fin c; Fin d; Fin e] = Ok [Fin a'; Fin b'; Fin c'; Fin d'; Fin e']) by (intros; subst; reflexivity).
  apply E; unfold arg_D, arg_M, arg_M', arg_F, arg_Omega; unfold Q2R; simpl; field.
Qed.

Lemma sigmaxy_val t y :
  sigmaxy (N := MathR) [Fin (arg_D t); Fin (arg_M t); Fin (arg_M' t); Fin (arg_F t); Fin (arg_Omega t)] y
  = Fin (nutation_angle t y).
Proof.
  destruct y as [[[[d m] m'] f] o]. unfold sigmaxy. cbn [combine fold_left fst snd]. rx. f_equal.
  unfold nutation_angle. unfold Q2R; simpl. ring.
Qed.

Definition nut_term (t : R) (r : (Q * Q * Q * Q) * (Z * Z * Z * Z * Z)) : R * R :=
  let '((s0, s1, c0, c1), y) := r in
  ((Q2R s0 + Q2R s1 * t) * sind (nutation_angle t y), (Q2R c0 + Q2R c1 * t) * cosd (nutation_angle t y)).

Lemma nutation_terms_val t : 
  nutation_terms (N := MathR) [Fin (arg_D t); Fin (arg_M t); Fin (arg_M' t); Fin (arg_F t); Fin (arg_Omega t)] (Fin t)
  = Ok (map (fun r => (Fin (fst (nut_term t r)), Fin (snd (nut_term t r)))) (combine nutation_coefficients aberration_sin_terms)).
Proof.
  unfold nutation_terms. generalize (combine nutation_coefficients aberration_sin_terms). intros l.
  induction l as [|[[[[s0 s1] c0] c1] y] l IH]; [reflexivity|]. cbn [fold_right map].
  unfold nutation_term at 1. rewrite sigmaxy_val. rx. rewrite IH. rx. rewrite <- sind_rad, <- cosd_rad. reflexivity.
Qed.

Lemma py_sum_val (l : list R) : py_sum (N := MathR) (map Fin l) = Fin (fold_right Rplus 0 l).
Proof.
  assert (G : forall acc, fold_left (@add MathR) (map Fin l) (Fin acc) = Fin (acc + fold_right Rplus 0 l)).
  { induction l as [|x l IH]; intros acc; cbn [fold_left map fold_right].
    - f_equal. ring.
    - rewrite add_R, IH. f_equal. ring. }
  unfold py_sum. rewrite lit_R, G. f_equal. unfold Q2R; simpl. lra.
Qed.

Lemma nut_sum_lon t l : fold_right Rplus 0 (map (fun r => fst (nut_term t r)) l) =
    fold_right (fun r s => let '((s0, s1, _, _), y) := r in (Q2R s0 + Q2R s1 * t) * sind (nutation_angle t y) + s) 0 l.
Proof. induction l as [|[[[[s0 s1] c0] c1] y] l IH]; [reflexivity|]. cbn [map fold_right]. rewrite IH. reflexivity. Qed.
Lemma nut_sum_obl t l : fold_right Rplus 0 (map (fun r => snd (nut_term t r)) l) =
    fold_right (fun r s => let '((_, _, c0, c1), y) := r in (Q2R c0 + Q2R c1 * t) * cosd (nutation_angle t y) + s) 0 l.
Proof. induction l as [|[[[[s0 s1] c0] c1] y] l IH]; [reflexivity|]. cbn [map fold_right]. rewrite IH. reflexivity. Qed.

Lemma nutation_val t : get_nutation (N := MathR) (Fin t) =
  Ok (mknut (Fin (nutation_longitude t (combine nutation_coefficients aberration_sin_terms)))
            (Fin (nutation_obliquity t (combine nutation_coefficients aberration_sin_terms)))).
Proof.
  unfold get_nutation, get_nutation_st. cbn [get_aberration_coeffs fst]. unfold get_nutation_from.
  rewrite nutation_args_val, bind_Ok, nutation_terms_val, bind_Ok. rewrite !map_map. cbn [fst snd].
  set (l := combine nutation_coefficients aberration_sin_terms).
  change (map (fun x => Fin (fst (nut_term t x))) l) with (map (fun x => Fin ((fun r => fst (nut_term t r)) x)) l).
  change (map (fun x => Fin (snd (nut_term t x))) l) with (map (fun x => Fin ((fun r => snd (nut_term t r)) x)) l).
  rewrite <- (map_map (fun r => fst (nut_term t r)) Fin), <- (map_map (fun r => snd (nut_term t r)) Fin).
  rewrite !py_sum_val. rx.
  replace (Q2R 36000000.0) with 36000000 by (unfold Q2R; simpl; lra). unfold nutation_longitude, nutation_obliquity.
  rewrite nut_sum_lon, nut_sum_obl. reflexivity.
Qed.

(* both tables have 63 rows, so no row is dropped by the pairing *)
Lemma nutation_tables_length : List.length nutation_coefficients = 63%nat /\ List.length aberration_sin_terms = 63%nat.
Proof. split; reflexivity. Qed.

(* sum of |a + b t| over |t| <= m is at most the larger of the two end values (convexity) *)
Definition lin_amp (t : Q) (l : list (Q * Q)) : Q :=
  fold_right (fun r s => Qred (Qabs.Qabs (fst r + snd r * t) + s))%Q 0%Q l.
Definition trig_sum (t : R) (l : list (Q * Q * R)) : R :=
  fold_right (fun r s => let '(a, b, c) := r in (Q2R a + Q2R b * t) * c + s) 0 l.

Lemma trig_sum_bound m t (l : list (Q * Q * R)) : 0 < Q2R m -> - Q2R m <= t <= Q2R m ->
  (forall r, In r l -> -1 <= snd r <= 1) ->
  Rabs (trig_sum t l) <= (1 - t / Q2R m) / 2 * Q2R (lin_amp (- m) (map fst l)) + (1 + t / Q2R m) / 2 * Q2R (lin_amp m (map fst l)).
Proof.
  intros Hm Ht. induction l as [|[[a b] c] l IH]; intros Hl.
  - simpl. rewrite Rabs_R0. unfold Q2R at 2 4. simpl. lra.
  - unfold lin_amp, trig_sum. cbn [map fold_right fst snd]. fold (trig_sum t l) (lin_amp m (map fst l)) (lin_amp (- m) (map fst l)).
    rewrite !Q2R_red, !Q2R_plus, !Q2R_abs, !Q2R_plus, !Q2R_mult, Q2R_opp.
    specialize (IH (fun r H => Hl r (or_intror H))). specialize (Hl (a, b, c) (or_introl eq_refl)). simpl in Hl.
    eapply Rle_trans; [apply Rabs_triang|].
    set (A := Q2R a) in *. set (B := Q2R b) in *. set (M := Q2R m) in *.
    assert (K : Rabs ((A + B * t) * c) <= (1 - t / M) / 2 * Rabs (A + B * - M) + (1 + t / M) / 2 * Rabs (A + B * M)).
    { assert (P1 : 0 <= (1 - t / M) / 2 /\ 0 <= (1 + t / M) / 2).
      { assert (-1 <= t / M <= 1); [|lra]. split; apply Rmult_le_reg_r with M; try lra; replace (t / M * M) with t by (field; lra); lra. }
      rewrite Rabs_mult. apply Rle_trans with (Rabs (A + B * t)).
      - rewrite <- (Rmult_1_r (Rabs (A + B * t))) at 2. apply Rmult_le_compat_l; [apply Rabs_pos|]. apply Rabs_le. lra.
      - replace (A + B * t) with ((1 - t / M) / 2 * (A + B * - M) + (1 + t / M) / 2 * (A + B * M)) by (field; lra).
        eapply Rle_trans; [apply Rabs_triang|]. rewrite !Rabs_mult, (Rabs_pos_eq ((1 - t / M) / 2)), (Rabs_pos_eq ((1 + t / M) / 2)) by tauto. lra. }
    lra.
Qed.

Lemma trig_sum_bound_max m t (l : list (Q * Q * R)) K : 0 < Q2R m -> - Q2R m <= t <= Q2R m ->
  (forall r, In r l -> -1 <= snd r <= 1) ->
  Q2R (lin_amp (- m) (map fst l)) <= K -> Q2R (lin_amp m (map fst l)) <= K -> Rabs (trig_sum t l) <= K.
Proof.
  intros Hm Ht Hl K1 K2. eapply Rle_trans; [apply (trig_sum_bound m); assumption|].
  assert (-1 <= t / Q2R m <= 1).
  { split; apply Rmult_le_reg_r with (Q2R m); try lra; replace (t / Q2R m * Q2R m) with t by (field; lra); lra. }
  set (u := t / Q2R m) in *. clearbody u. nra.
Qed.

Definition lon_part (r : (Q * Q * Q * Q) * (Z * Z * Z * Z * Z)) : Q * Q := let '((s0, s1, _, _), _) := r in (s0, s1).
Definition obl_part (r : (Q * Q * Q * Q) * (Z * Z * Z * Z * Z)) : Q * Q := let '((_, _, c0, c1), _) := r in (c0, c1).
Definition nut_rows := combine nutation_coefficients aberration_sin_terms.

Lemma lon_trig t l : nutation_longitude t l = trig_sum t (map (fun r => (lon_part r, sind (nutation_angle t (snd r)))) l) / 36000000.
Proof.
  unfold nutation_longitude. f_equal. induction l as [|[[[[s0 s1] c0] c1] y] l IH]; [reflexivity|].
  unfold trig_sum. cbn [map fold_right snd lon_part]. rewrite IH. reflexivity.
Qed.
Lemma obl_trig t l : nutation_obliquity t l = trig_sum t (map (fun r => (obl_part r, cosd (nutation_angle t (snd r)))) l) / 36000000.
Proof.
  unfold nutation_obliquity. f_equal. induction l as [|[[[[s0 s1] c0] c1] y] l IH]; [reflexivity|].
  unfold trig_sum. cbn [map fold_right snd obl_part]. rewrite IH. reflexivity.
Qed.

Lemma lon_bound m t K : 0 < Q2R m -> - Q2R m <= t <= Q2R m ->
  Q2R (lin_amp (- m) (map lon_part nut_rows)) <= K -> Q2R (lin_amp m (map lon_part nut_rows)) <= K ->
  Rabs (nutation_longitude t nut_rows) <= K / 36000000.
Proof.
  intros Hm Ht K1 K2. rewrite lon_trig. unfold Rdiv. rewrite Rabs_mult, (Rabs_pos_eq (/ 36000000)) by lra.
  apply Rmult_le_compat_r; [lra|]. apply (trig_sum_bound_max m); [exact Hm|exact Ht|..].
  - intros r H. apply in_map_iff in H as (x & <- & _). apply sind_bound.
  - rewrite map_map. exact K1.
  - rewrite map_map. exact K2.
Qed.
Lemma obl_bound m t K : 0 < Q2R m -> - Q2R m <= t <= Q2R m ->
  Q2R (lin_amp (- m) (map obl_part nut_rows)) <= K -> Q2R (lin_amp m (map obl_part nut_rows)) <= K ->
  Rabs (nutation_obliquity t nut_rows) <= K / 36000000.
Proof.
  intros Hm Ht K1 K2. rewrite obl_trig. unfold Rdiv. rewrite Rabs_mult, (Rabs_pos_eq (/ 36000000)) by lra.
  apply Rmult_le_compat_r; [lra|]. apply (trig_sum_bound_max m); [exact Hm|exact Ht|..].
  - intros r H. apply in_map_iff in H as (x & <- & _). apply cosd_bound.
  - rewrite map_map. exact K1.
  - rewrite map_map. exact K2.
Qed.

Ltac qval := match goal with |- Q2R ?x <= _ => let q := eval vm_compute in x in replace x with q by (vm_compute; reflexivity) end;
  unfold Q2R; cbn [Qnum Qden]; lra.

Lemma nutation_bounds t :
  exists n, get_nutation (N := MathR) (Fin t) = Ok n /\
    n_longitude n = Fin (nutation_longitude t nut_rows) /\ n_obliquity n = Fin (nutation_obliquity t nut_rows) /\
    (-10.01 <= t <= 10.01 -> Rabs (nutation_longitude t nut_rows) < 0.0056 /\ Rabs (nutation_obliquity t nut_rows) < 0.0028) /\
    (-80 <= t <= 80 -> Rabs (nutation_longitude t nut_rows) < 0.0059 /\ Rabs (nutation_obliquity t nut_rows) < 0.0029).
Proof.
  eexists. split; [apply nutation_val|]. split; [reflexivity|]. split; [reflexivity|]. split; intros H; split.
  - eapply Rle_lt_trans; [apply (lon_bound 10.01 t 200000)|lra]; [unfold Q2R; simpl; lra|unfold Q2R in *; simpl in *; lra|qval|qval].
  - eapply Rle_lt_trans; [apply (obl_bound 10.01 t 100790)|lra]; [unfold Q2R; simpl; lra|unfold Q2R in *; simpl in *; lra|qval|qval].
  - assert (E : Q2R 80 = 80) by (unfold Q2R; simpl; lra).
    eapply Rle_lt_trans; [apply (lon_bound 80 t 210000)|lra]; [lra|lra|qval|qval].
  - assert (E : Q2R 80 = 80) by (unfold Q2R; simpl; lra).
    eapply Rle_lt_trans; [apply (obl_bound 80 t 102000)|lra]; [lra|lra|qval|qval].
Qed.

Lemma nutation_correct T :
  let rows := combine nutation_coefficients aberration_sin_terms in
  List.length nutation_coefficients = 63%nat /\ List.length aberration_sin_terms = 63%nat /\
  get_nutation (N := MathR) (Fin T) = Ok (mknut (Fin (nutation_longitude T rows)) (Fin (nutation_obliquity T rows))) /\
  (-10.01 <= T <= 10.01 -> Rabs (nutation_longitude T rows) < 0.0056 /\ Rabs (nutation_obliquity T rows) < 0.0028) /\
  (-80 <= T <= 80 -> Rabs (nutation_longitude T rows) < 0.0059 /\ Rabs (nutation_obliquity T rows) < 0.0029).
Proof.
  cbv zeta. split; [reflexivity|]. split; [reflexivity|]. split; [apply nutation_val|].
  destruct (nutation_bounds T) as (n & _ & _ & _ & B). exact B.
Qed.

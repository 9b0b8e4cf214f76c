(* simulate.py: datetime_range and simulate_span, for any arithmetic. *)
From Coq Require Import Lia ZifyBool.
From Verif Require Import Py Num Cal CalProofs TzCheck Clock Constants SolarTime Solar Radiation Simulate SpecDt.
Local Open Scope Z_scope.

Ltac zlia := Z.to_euclidean_division_equations; lia.

Lemma gen_map_all {A B} (f : A -> res B) (g : A -> B) l : (forall a, In a l -> f a = Ok (g a)) ->
  gen_map f l = mkgen (map g l) (Ok tt).
Proof.
  induction l as [|a l IH]; intros H; cbn [gen_map map]; [reflexivity|].
  rewrite (H a (or_introl eq_refl)), IH by (intros; apply H; right; assumption). reflexivity.
Qed.

Lemma zrange_In k n : In n (zrange k) <-> 0 <= n < k.
Proof.
  unfold zrange. rewrite in_map_iff. split.
  - intros (i & <- & Hi). apply in_seq in Hi. lia.
  - intros H. exists (Z.to_nat n). split; [lia|]. apply in_seq. lia.
Qed.
Lemma zrange_length k : Z.of_nat (List.length (zrange k)) = Z.max 0 k.
Proof. unfold zrange. rewrite map_length, seq_length. lia. Qed.
Lemma zrange_nth k i : (i < Z.to_nat k)%nat -> nth_error (zrange k) i = Some (Z.of_nat i).
Proof.
  intros H. unfold zrange. apply map_nth_error.
  rewrite (nth_error_nth' _ O) by (rewrite seq_length; assumption). now rewrite seq_nth.
Qed.

Lemma steps_div span m : 0 < m -> span / 1000000 / (m * 60) = span / (m * minute_us).
Proof. intros H. unfold minute_us. rewrite Z.div_div by lia. f_equal. lia. Qed.

Theorem datetime_range_spec start stop m span :
  valid_dt start -> dt_sub stop start = Ok span -> 0 < m -> timedelta_ok (m * minute_us) = true ->
  dt_local start + span <= max_us ->
  datetime_range start stop (StepInt m) =
    mkgen (map (nth_time start m) (zrange (span / (m * minute_us)))) (Ok tt).
Proof.
  intros V Hs Hm Ht Hr. unfold datetime_range. rewrite Hs. cbn [bind].
  unfold timedelta_us. replace (m * 60 * 1000000) with (m * minute_us) by (unfold minute_us; lia).
  rewrite Ht. cbn [bind]. destruct (m * 60 =? 0) eqn:E0; [lia|].
  rewrite steps_div by assumption. apply gen_map_all.
  intros n Hn. apply zrange_In in Hn. unfold valid_dt in V. apply in_range_iff in V.
  set (s := m * minute_us) in *. assert (Hs0 : 0 < s) by (unfold s, minute_us; lia).
  assert (B : n * s + s <= span).
  { pose proof (Z.mul_div_le span s Hs0). assert (n + 1 <= span / s) by lia. nia. }
  assert (B0 : 0 <= n * s) by nia.
  assert (T : timedelta_ok (s * n) = true).
  { unfold timedelta_ok, us_per_day. unfold max_us, us_per_day in *. 
    apply Z.leb_le. rewrite Z.abs_eq by (apply Z.div_pos; lia).
    transitivity (3652059 * (86400 * 1000000) / (86400 * 1000000)).
    - apply Z.div_le_mono; lia.
    - rewrite Z.div_mul by lia. lia. }
  rewrite T. cbn [bind]. unfold dt_add, nth_time.
  replace (s * n) with (n * s) by lia.
  destruct (in_range (dt_local start + n * s)) eqn:E; [reflexivity|].
  assert (in_range (dt_local start + n * s) = true) by (apply in_range_iff; lia). congruence.
Qed.

(* properties of the closed form, in terms of local time *)
Lemma range_elements start m span : 0 < m -> forall t,
  In t (map (nth_time start m) (zrange (span / (m * minute_us)))) <->
  exists n, 0 <= n /\ t = nth_time start m n /\ dt_local start + (n + 1) * (m * minute_us) <= dt_local start + span.
Proof.
  intros Hm t. rewrite in_map_iff. assert (Hs0 : 0 < m * minute_us) by (unfold minute_us; lia).
  set (s := m * minute_us) in *. split.
  - intros (n & <- & Hn). apply zrange_In in Hn. exists n. split; [lia|]. split; [reflexivity|].
    pose proof (Z.mul_div_le span s Hs0). nia.
  - intros (n & H0 & -> & H). exists n. split; [reflexivity|]. apply zrange_In. split; [assumption|].
    assert (n + 1 <= span / s) by (apply Z.div_le_lower_bound; lia). lia.
Qed.

Lemma datetime_range_float start stop span us : dt_sub stop start = Ok span ->
  datetime_range start stop (StepFloat (Ok us) false) = mkgen [] (Err TypeError).
Proof. intros H. unfold datetime_range. rewrite H. reflexivity. Qed.

Lemma datetime_range_zero start stop span : dt_sub stop start = Ok span ->
  datetime_range start stop (StepInt 0) = mkgen [] (Err ZeroDivisionError).
Proof. intros H. unfold datetime_range. rewrite H. reflexivity. Qed.

(* same tzinfo object: the span is the wall-clock difference *)
Lemma dt_sub_same a b : same_tz (dt_tz a) (dt_tz b) = true -> dt_sub a b = Ok (dt_local a - dt_local b).
Proof. intros H. unfold dt_sub. now rewrite H. Qed.

(* ---------------------------------------------------------------- simulate_span *)
(* Python's horizon[i] for a non-negative i *)
Lemma py_index_nonneg {A} (l : list A) i a : 0 <= i -> py_index l i = Ok a <-> nth_error l (Z.to_nat i) = Some a.
Proof.
  intros H. unfold py_index. destruct (i <? 0) eqn:?; [lia|]. cbv zeta iota. rewrite Heqb.
  destruct (nth_error l (Z.to_nat i)); split; congruence.
Qed.
Lemma py_index_in_bounds {A} (l : list A) i : 0 <= i < Z.of_nat (List.length l) -> exists a, py_index l i = Ok a.
Proof.
  intros H. destruct (nth_error l (Z.to_nat i)) eqn:E; [|apply nth_error_None in E; lia].
  exists a. apply py_index_nonneg; [lia|assumption].
Qed.
Lemma py_index_out {A} (l : list A) i : Z.of_nat (List.length l) <= i -> py_index l i = Err IndexError.
Proof.
  intros H. unfold py_index. destruct (i <? 0) eqn:?; [lia|]. cbv zeta iota. rewrite Heqb.
  destruct (nth_error l (Z.to_nat i)) eqn:E; [|reflexivity]. assert (nth_error l (Z.to_nat i) <> None) as E' by congruence.
  apply nth_error_Some in E'. lia.
Qed.

Section Span.
Context {N : Num} {C : Clock N} (toD : datetime -> D C).

Lemma simulate_one_sample lat lon horizon el temp pres t item :
  simulate_one toD lat lon horizon el temp pres t = Ok item <-> sample toD lat lon horizon el temp pres t item.
Proof.
  unfold simulate_one, sample. split.
  - intros H.
    apply bind_eq_Ok in H as (alt & H1 & H). apply bind_eq_Ok in H as (azi & H2 & H).
    apply bind_eq_Ok in H as (i & H3 & H). apply bind_eq_Ok in H as (shade & H4 & H).
    apply bind_eq_Ok in H as (s & H5 & H). apply bind_eq_Ok in H as (r & H6 & H).
    apply bind_eq_Ok in H as (sh & H7 & H). apply bind_eq_Ok in H as (rad & H8 & H).
    injection H as <-. repeat split; eauto. exists s, r, sh. repeat split; auto.
    destruct sh; [now injection H8|assumption].
  - destruct item as [[[[t' alt] azi] rad] shade].
    intros (-> & H1 & H2 & (i & H3 & H4) & s & r & sh & H5 & H6 & H7 & H8).
    rewrite H1, H2. cbn [bind]. rewrite H3. cbn [bind]. rewrite H4. cbn [bind]. rewrite H5. cbn [bind].
    rewrite H6. cbn [bind]. rewrite H7. cbn [bind]. destruct sh.
    + subst rad. reflexivity.
    + rewrite H8. reflexivity.
Qed.

Lemma gen_map_prefix {A B} (f : A -> res B) l : 
  exists l1 l2, l = l1 ++ l2 /\ Forall2 (fun a b => f a = Ok b) l1 (g_items (gen_map f l)) /\
    match l2 with
    | [] => g_end (gen_map f l) = Ok tt
    | a :: _ => exists e, f a = Err e /\ g_end (gen_map f l) = Err e
    end.
Proof.
  induction l as [|a l IH]; cbn [gen_map].
  - exists [], []. simpl. auto.
  - destruct (f a) as [b|e] eqn:E.
    + destruct IH as (l1 & l2 & -> & F & G). exists (a :: l1), l2. cbn [g_items g_end app]. split; [reflexivity|]. split; auto.
    + exists [], (a :: l). cbn [g_items g_end app]. split; [reflexivity|]. split; [constructor|]. eauto.
Qed.

(* The tuples are the samples at the first instants of the range, in order; the generator
   runs through all of them unless a position function or the horizon lookup raises, and then
   it ends with that exception at that instant. *)
Theorem simulate_span_spec lat lon horizon start stop step el temp pres :
  let g := simulate_span toD lat lon horizon start stop step el temp pres in
  let r := datetime_range start stop step in
  exists done todo, g_items r = done ++ todo /\
    Forall2 (sample toD lat lon horizon el temp pres) done (g_items g) /\
    match todo with
    | [] => g_end g = g_end r
    | t :: _ => exists e, simulate_one toD lat lon horizon el temp pres t = Err e /\ g_end g = Err e
    end.
Proof.
  cbv zeta. unfold simulate_span, gen_for. cbn [g_items g_end].
  destruct (gen_map_prefix (simulate_one toD lat lon horizon el temp pres) (g_items (datetime_range start stop step)))
    as (l1 & l2 & E & F & G).
  exists l1, l2. split; [assumption|]. split.
  - clear E G. induction F; constructor; auto. now apply simulate_one_sample.
  - destruct l2.
    + rewrite G. reflexivity.
    + destruct G as (e & G1 & G2). exists e. split; [assumption|]. rewrite G2. reflexivity.
Qed.
End Span.

(* ---------------------------------------------------------------- statements *)
Lemma datetime_range_correct start stop m span :
  valid_dt start -> dt_sub stop start = Ok span -> 0 < m -> timedelta_ok (m * minute_us) = true ->
  dt_local start + span <= max_us ->
  let k := Z.max 0 (span / (m * minute_us)) in
  exists l, datetime_range start stop (StepInt m) = mkgen l (Ok tt) /\
    Z.of_nat (List.length l) = k /\
    (forall i, 0 <= i < k -> nth_error l (Z.to_nat i) = Some (nth_time start m i)) /\
    (forall i t, nth_error l i = Some t ->
       dt_local start <= dt_local t < dt_local start + span /\ dt_tz t = dt_tz start) /\
    (span <= 0 -> l = []).
Proof.
  intros V Hs Hm Ht Hr k. eexists. split; [apply (datetime_range_spec start stop m span); assumption|].
  assert (Hs0 : 0 < m * minute_us) by (unfold minute_us; lia).
  split; [rewrite map_length; apply zrange_length|]. split; [|split].
  - intros i Hi. erewrite map_nth_error; [reflexivity|]. rewrite zrange_nth by lia. f_equal. lia.
  - intros i t H. apply nth_error_In in H. apply range_elements in H as (n & H0 & -> & H); [|assumption].
    unfold nth_time; cbn [dt_local dt_tz]. split; [|reflexivity]. nia.
  - intros H. unfold zrange. replace (Z.to_nat _) with 0%nat; [reflexivity|].
    assert (span / (m * minute_us) <= 0) by (apply Z.div_le_upper_bound; lia). lia.
Qed.

Lemma coverage_partial start stop m n span :
  valid_dt start -> dt_sub stop start = Ok span -> 0 < m -> timedelta_ok (m * minute_us) = true ->
  dt_local start + span <= max_us -> span mod (m * minute_us) = 0 -> 0 <= n ->
  dt_local start + n * (m * minute_us) < dt_local start + span ->
  In (nth_time start m n) (g_items (datetime_range start stop (StepInt m))).
Proof.
  intros V Hs Hm Ht Hr Hd Hn Hlt. rewrite (datetime_range_spec start stop m span) by assumption. cbn [g_items].
  apply range_elements; [assumption|]. exists n. split; [assumption|]. split; [reflexivity|].
  set (s := m * minute_us) in *. assert (Hs0 : 0 < s) by (unfold s, minute_us; lia).
  pose proof (Z.div_mod span s ltac:(lia)). assert (n < span / s) by nia. nia.
Qed.

Lemma fractional_steps_refuted :
  (forall start stop span us, dt_sub stop start = Ok span ->
     datetime_range start stop (StepFloat (Ok us) false) = mkgen [] (Err TypeError)) /\
  ~ (forall start stop m n, valid_dt start -> valid_dt stop -> dt_tz start = dt_tz stop -> 0 < m ->
       timedelta_ok (m * minute_us) = true -> 0 <= n ->
       dt_local start + n * (m * minute_us) < dt_local stop ->
       In (nth_time start m n) (g_items (datetime_range start stop (StepInt m)))).
Proof.
  split; [intros; now apply (datetime_range_float _ _ span)|].
  intros H. specialize (H (mk 2020 1 1 0 0 0 0 (Some utc)) (mk 2020 1 1 1 30 0 0 (Some utc)) 60 1).
  specialize (H ltac:(vm_compute; reflexivity) ltac:(vm_compute; reflexivity) eq_refl ltac:(lia) ltac:(vm_compute; reflexivity) ltac:(lia) ltac:(vm_compute; reflexivity)).
  apply (in_map dt_local) in H. vm_compute in H. intuition discriminate.
Qed.

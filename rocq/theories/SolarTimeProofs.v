(* solartime.py: leap seconds, Delta-T, Julian days. *)
From Coq Require Import Lia ZifyBool.
From Verif Require Import Py Num Cal CalProofs TzCheck Tables Constants SolarTime GenProofs SpecTime SpecDt.
Local Open Scope Z_scope.

Ltac zlia := Z.to_euclidean_division_equations; lia.

(* ---------------------------------------------------------------- Meeus = CPython ordinal *)
Lemma meeus_ord y m d : 1 <= m <= 12 -> meeus_day y m d = ymd2ord y m d + 1721425.
Proof.
  intros H. unfold meeus_day, ymd2ord, days_before_month, is_leap, days_before_year.
  assert (m = 1 \/ m = 2 \/ m = 3 \/ m = 4 \/ m = 5 \/ m = 6 \/ m = 7 \/ m = 8 \/ m = 9 \/ m = 10 \/ m = 11 \/ m = 12) as C by lia.
  repeat destruct C as [->|C]; subst; cbn [Z.leb Z.compare Pos.compare Pos.compare_cont Z.ltb andb days_before_month_common];
  try match goal with |- context [306001 * ?k / 10000] => let v := eval vm_compute in (306001 * k / 10000) in change (306001 * k / 10000) with v end;
  destruct (Z.eqb_spec (y mod 4) 0), (Z.eqb_spec (y mod 100) 0), (Z.eqb_spec (y mod 400) 0); cbn [andb orb negb]; zlia.
Qed.

Lemma midnight_us y m d : 1 <= m <= 12 -> midnight y m d = us_of_fields (mkfields y m d 0 0 0 0).
Proof.
  intros H. unfold midnight, us_of_fields; cbn [f_year f_mon f_day f_hour f_min f_sec f_us].
  rewrite meeus_ord by assumption. change (meeus_day 1 1 1) with 1721426. unfold us_per_day. lia.
Qed.

(* first of a month: reached iff (year, month) is *)
Lemma midnight_le y m u : 1 <= m <= 12 ->
  (midnight y m 1 <=? u) = ((y <? f_year (fields_of_us u)) || ((y =? f_year (fields_of_us u)) && (m <=? f_mon (fields_of_us u)))).
Proof.
  intros Hm. rewrite midnight_us by assumption.
  set (f0 := mkfields y m 1 0 0 0 0).
  assert (V : valid_fields f0).
  { unfold valid_fields, valid_date, f0; cbn [f_year f_mon f_day f_hour f_min f_sec f_us].
    pose proof (days_in_month_bound (is_leap y) m Hm). lia. }
  pose proof (us_of_fields_inv u) as [Hu Vu].
  destruct (Z.leb_spec (us_of_fields f0) u) as [L|L].
  - apply fields_of_us_mono in L. rewrite fields_of_us_inv in L by assumption.
    unfold fields_date_le, f0 in L; cbn [f_year f_mon] in L. lia.
  - assert (L' : u <= us_of_fields f0 - 1) by lia.
    (* the day before belongs to an earlier month *)
    unfold valid_fields in Vu.
    remember (fields_of_us u) as g eqn:Eg. clear Eg.
    destruct (date_trichotomy y m 1 (f_year g) (f_mon g) (f_day g)) as [D|[(D1 & D2 & D3)|D]].
    + apply ymd2ord_mono in D; [|apply V|apply Vu]. exfalso. clear L'. rewrite <- Hu in L.
      revert L. destruct Vu as (_ & Vu). clear V Hu.
      unfold us_of_fields, f0; cbn [f_year f_mon f_day f_hour f_min f_sec f_us].
      change us_per_day with 86400000000. lia.
    + exfalso. rewrite <- Hu in L. revert L. destruct Vu as (_ & Vu).
      unfold us_of_fields, f0; cbn [f_year f_mon f_day f_hour f_min f_sec f_us].
      rewrite D1, D2, D3. change us_per_day with 86400000000. lia.
    + unfold date_lt in D. destruct Vu as ((? & ?) & _). lia.
Qed.

(* ---------------------------------------------------------------- leap seconds *)
(* TAI-UTC as a function of UTC year and month *)
Definition tai_ym (y m : Z) : Z :=
  10 + Z.of_nat (List.length (filter (fun '(y0, m0, _) => (y0 <? y) || ((y0 =? y) && (m0 <=? m))) iers_leap_dates)).

Lemma filter_ext_in' {A} (f g : A -> bool) l : (forall a, In a l -> f a = g a) -> filter f l = filter g l.
Proof. induction l; simpl; intros H; auto. rewrite (H a) by auto. rewrite IHl; auto. Qed.

Lemma tai_ym_spec u : tai_minus_utc u = tai_ym (f_year (fields_of_us u)) (f_mon (fields_of_us u)).
Proof.
  unfold tai_minus_utc, tai_ym. f_equal. f_equal. f_equal. apply filter_ext_in'.
  intros [[y m] d] Hin.
  assert (K : forallb (fun '(y, m, d) => (1 <=? m) && (m <=? 12) && (d =? 1)) iers_leap_dates = true) by reflexivity.
  rewrite forallb_forall in K. specialize (K _ Hin). cbn in K.
  assert (d = 1) as -> by lia. apply midnight_le. lia.
Qed.

Definition leap_at (y m : Z) : res (Z * list Z) :=
  leap_loop (List.length leap_seconds_adjustments + 2) y m leap_seconds_base_year 10.

Definition leap_row_ok (y : Z) : bool :=
  all_upto 12 1 (fun m =>
    match leap_at y m with
    | Ok (v, w) => (v =? tai_ym y m) && (match w with [] => true | _ => false end)
    | Err _ => false
    end).
Lemma leap_sweep : all_upto 54 1972 leap_row_ok = true.
Proof. vm_compute. reflexivity. Qed.

(* enough fuel to walk the whole table, whatever the date *)
Lemma leap_loop_late y m : 2026 <= y ->
  leap_at y m = Ok (37, if (2026 <? y) || (6 <? m) then [2025] else []).
Proof.
  intros H. unfold leap_at. set (k := (List.length leap_seconds_adjustments + 2)%nat).
  vm_compute in k. unfold k.
  assert (Z54 : zlen leap_seconds_adjustments = 54) by reflexivity.
  unfold leap_seconds_base_year.
  assert (STEP : forall n year adj a b, year < 2026 -> py_index leap_seconds_adjustments (year - 1972) = Ok (a, b) ->
     leap_loop (S n) y m year adj = leap_loop n y m (year + 1) (adj + (a + b))).
  { intros n year adj a b Hy E. cbn [leap_loop]. rewrite Z54. unfold leap_seconds_base_year.
    destruct (y <? year) eqn:?; [lia|]. destruct (54 <=? year - 1972) eqn:?; [lia|].
    rewrite E. cbn [bind]. destruct (year =? y) eqn:?; [lia|]. reflexivity. }
  do 54 (erewrite STEP; [|reflexivity|vm_compute; reflexivity];
         match goal with |- leap_loop _ _ _ (?y + 1) ?a = _ =>
           let y' := eval vm_compute in (y + 1) in let a' := eval vm_compute in a in
           change (y + 1) with y'; change a with a' end).
  cbn [leap_loop]. rewrite Z54. unfold leap_seconds_base_year.
  destruct (y <? 2026) eqn:?; [lia|]. change (54 <=? 2026 - 1972) with true. cbv iota.
  destruct ((54 <? y - 1972) || ((y - 1972 =? 54) && (6 <? m))) eqn:E1, ((2026 <? y) || (6 <? m)) eqn:E2; try reflexivity; lia.
Qed.

Lemma filter_all {A} (f : A -> bool) l : (forall a, In a l -> f a = true) -> filter f l = l.
Proof. induction l as [|a l IH]; cbn [filter]; intros H; auto. rewrite (H a) by (left; auto). rewrite IH; auto. intros; apply H; right; auto. Qed.
Lemma filter_none {A} (f : A -> bool) l : (forall a, In a l -> f a = false) -> filter f l = [].
Proof. induction l as [|a l IH]; cbn [filter]; intros H; auto. rewrite (H a) by (left; auto). apply IH. intros; apply H; right; auto. Qed.
Lemma leap_years y m d : In (y, m, d) iers_leap_dates -> 1972 <= y < 2018 /\ 1 <= m <= 12 /\ d = 1.
Proof.
  assert (K : forallb (fun '(y, m, d) => (1972 <=? y) && (y <? 2018) && (1 <=? m) && (m <=? 12) && (d =? 1)) iers_leap_dates = true) by reflexivity.
  rewrite forallb_forall in K. intros H. specialize (K _ H). cbn beta iota in K. lia.
Qed.

Lemma tai_ym_late y m : 2018 <= y -> tai_ym y m = 37.
Proof.
  intros H. unfold tai_ym. rewrite filter_all; [reflexivity|].
  intros [[y0 m0] d0] Hin. apply leap_years in Hin. lia.
Qed.
Lemma tai_ym_early y m : y < 1972 -> tai_ym y m = 10.
Proof.
  intros H. unfold tai_ym. rewrite filter_none; [reflexivity|].
  intros [[y0 m0] d0] Hin. apply leap_years in Hin. lia.
Qed.

Lemma leap_loop_early y m : y < 1972 -> leap_at y m = Ok (10, []).
Proof.
  intros H. unfold leap_at. rewrite Nat.add_comm. cbn [Nat.add leap_loop]. unfold leap_seconds_base_year.
  destruct (y <? 1972) eqn:?; [reflexivity|lia].
Qed.

Definition leap_warning (y m : Z) : list Z := if (2026 <? y) || ((y =? 2026) && (6 <? m)) then [2025] else [].

Lemma leap_at_spec y m : 1 <= m <= 12 -> leap_at y m = Ok (tai_ym y m, leap_warning y m).
Proof.
  intros Hm. unfold leap_warning. destruct (Z.ltb_spec y 1972) as [E|E].
  { rewrite leap_loop_early, tai_ym_early by assumption. f_equal. f_equal.
    destruct ((2026 <? y) || ((y =? 2026) && (6 <? m))) eqn:?; [lia|reflexivity]. }
  destruct (Z.leb_spec 2026 y) as [L|L].
  { rewrite leap_loop_late, tai_ym_late by lia. f_equal. f_equal.
    destruct ((2026 <? y) || (6 <? m)) eqn:E1, ((2026 <? y) || ((y =? 2026) && (6 <? m))) eqn:E2; try reflexivity; lia. }
  pose proof (all_upto_spec _ _ _ leap_sweep y ltac:(lia)) as H.
  pose proof (all_upto_spec _ _ _ H m ltac:(lia)) as H1. cbv beta in H1.
  destruct (leap_at y m) as [[v w]|]; [|discriminate].
  apply andb_true_iff in H1 as [H1 H2]. destruct w; [|discriminate].
  assert (v = tai_ym y m) as -> by lia. f_equal. f_equal.
  destruct ((2026 <? y) || ((y =? 2026) && (6 <? m))) eqn:?; [lia|reflexivity].
Qed.

(* the fuel of the model's loop never runs out *)
Lemma leap_loop_fuel y m : 1 <= m <= 12 -> leap_at y m <> Err Unmodelled.
Proof. intros H. rewrite leap_at_spec by assumption. discriminate. Qed.

Lemma fields_mon_range u : 1 <= f_mon (fields_of_us u) <= 12.
Proof. pose proof (us_of_fields_inv u) as [_ ((? & ?) & _)]. assumption. Qed.

Lemma leap_seconds_w_spec d u : instant d u -> in_range u = true ->
  get_leap_seconds_w d = Ok (tai_minus_utc u, if midnight 2026 7 1 <=? u then [2025] else []).
Proof.
  intros Hi Hr. unfold get_leap_seconds_w. rewrite (instant_aware d u Hi), (instant_utctimetuple d u Hi), Hr.
  cbn [bind]. fold (leap_at (f_year (fields_of_us u)) (f_mon (fields_of_us u))).
  rewrite leap_at_spec by apply fields_mon_range.
  rewrite tai_ym_spec. unfold leap_warning. f_equal. f_equal.
  rewrite midnight_le by lia.
  match goal with |- (if ?a then _ else _) = (if ?b then _ else _) => replace a with b; [reflexivity|lia] end.
Qed.

Lemma leap_seconds_spec d u : instant d u -> in_range u = true -> get_leap_seconds d = Ok (tai_minus_utc u).
Proof. intros Hi Hr. unfold get_leap_seconds. now rewrite (leap_seconds_w_spec d u). Qed.

Lemma filter_length_mono {A} (f g : A -> bool) l : (forall a, f a = true -> g a = true) ->
  (List.length (filter f l) <= List.length (filter g l))%nat.
Proof. intros H. induction l as [|a l IH]; simpl; auto. specialize (H a). destruct (f a), (g a); simpl; try lia; discriminate (H eq_refl). Qed.

Lemma tai_mono u v : u <= v -> tai_minus_utc u <= tai_minus_utc v.
Proof.
  intros H. unfold tai_minus_utc.
  pose proof (filter_length_mono (fun '(y, m, d) => midnight y m d <=? u) (fun '(y, m, d) => midnight y m d <=? v) iers_leap_dates) as L.
  specialize (L ltac:(intros [[y m] d]; lia)). lia.
Qed.

Lemma tai_before_1972 u : u < midnight 1972 1 1 -> tai_minus_utc u = 10.
Proof.
  intros H. rewrite tai_ym_spec. apply tai_ym_early.
  pose proof (midnight_le 1972 1 u ltac:(lia)). pose proof (fields_mon_range u). lia.
Qed.
Lemma tai_after_2017 u : midnight 2017 1 1 <= u -> tai_minus_utc u = 37.
Proof.
  intros H. assert (10 <= 37) by lia. unfold tai_minus_utc.
  replace (filter _ _) with iers_leap_dates; [reflexivity|].
  symmetry. assert (K : forallb (fun '(y, m, d) => midnight y m d <=? midnight 2017 1 1) iers_leap_dates = true) by reflexivity.
  revert K. generalize iers_leap_dates. induction l as [|[[y m] d] l IH]; cbn [filter forallb]; intros K; auto.
  apply andb_true_iff in K as [K1 K2]. replace (midnight y m d <=? u) with true by lia. now rewrite IH.
Qed.
Lemma tai_range u : 10 <= tai_minus_utc u <= 37.
Proof.
  unfold tai_minus_utc. pose proof (filter_length_mono (fun '(y, m, d) => midnight y m d <=? u) (fun _ => true) iers_leap_dates ltac:(auto)) as L.
  assert (List.length (filter (fun _ : Z*Z*Z => true) iers_leap_dates) = 27%nat) as E by reflexivity. rewrite E in L. lia.
Qed.

(* ---------------------------------------------------------------- Delta-T *)
(* the tabulated value of a month: row of the year; the first row starts in February *)
Definition dt_at (year month : Z) : res Q :=
  let '(year, month) :=
    if year <? delta_t_base_year then (delta_t_base_year, 1)
    else if year =? delta_t_base_year then (year, Z.max 0 (month - delta_t_base_month) + 1)
    else if delta_t_base_year + zlen delta_t <=? year then (delta_t_base_year + zlen delta_t - 1, month)
    else (year, month) in
  month <- (if year =? delta_t_base_year + zlen delta_t - 1 then
              row <- py_index delta_t (year - delta_t_base_year) ;;
              Ok (Z.min month (zlen row))
            else Ok month) ;;
  row <- py_index delta_t (year - delta_t_base_year) ;;
  py_index row (month - 1).

Lemma delta_t_at d u : instant d u -> in_range u = true ->
  get_delta_t_q d = dt_at (f_year (fields_of_us u)) (f_mon (fields_of_us u)).
Proof.
  intros Hi Hr. unfold get_delta_t_q. rewrite (instant_aware d u Hi), (instant_utctimetuple d u Hi), Hr. reflexivity.
Qed.

(* (year, month) actually looked up *)
Definition dt_clamp (y m : Z) : Z * Z :=
  if (y <? 1973) || ((y =? 1973) && (m <? 2)) then (1973, 2)
  else if 2014 <=? y then (2014, Z.min m 4)
  else (y, m).

Definition Qsame (p q : Q) : bool := (Qnum p =? Qnum q) && (Pos.eqb (Qden p) (Qden q)).
Lemma Qsame_eq p q : Qsame p q = true -> p = q.
Proof. destruct p, q. unfold Qsame. simpl. intros H. apply andb_true_iff in H as [H1 H2]. apply Z.eqb_eq in H1. apply Pos.eqb_eq in H2. now subst. Qed.

Definition dt_row_ok (y : Z) : bool :=
  all_upto 12 1 (fun m =>
    match dt_at y m, (let '(y', m') := dt_clamp y m in dt_entry y' m') with
    | Ok q, Some q' => Qsame q q'
    | _, _ => false
    end).
Lemma dt_sweep : all_upto 43 1972 dt_row_ok = true.
Proof. vm_compute. reflexivity. Qed.

Lemma dt_at_early y m : y < 1973 -> dt_at y m = dt_at 1972 1.
Proof. intros H. unfold dt_at, delta_t_base_year. destruct (y <? 1973) eqn:?; [|lia]. reflexivity. Qed.
Lemma dt_at_late y m : 2014 <= y -> dt_at y m = dt_at 2014 m.
Proof.
  intros H. unfold dt_at, delta_t_base_year. change (zlen delta_t) with 42.
  destruct (y <? 1973) eqn:?; [lia|]. destruct (y =? 1973) eqn:?; [lia|]. change (1973 + 42) with 2015.
  destruct (2015 <=? y) eqn:?. { reflexivity. }
  assert (y = 2014) as -> by lia. reflexivity.
Qed.

Lemma dt_at_spec y m : 1 <= m <= 12 ->
  exists q, dt_at y m = Ok q /\ (let '(y', m') := dt_clamp y m in dt_entry y' m') = Some q.
Proof.
  intros Hm.
  assert (G : forall y, 1972 <= y < 2015 -> exists q, dt_at y m = Ok q /\ (let '(y', m') := dt_clamp y m in dt_entry y' m') = Some q).
  { clear y. intros y Hy. pose proof (all_upto_spec _ _ _ dt_sweep y ltac:(lia)) as H.
    pose proof (all_upto_spec _ _ _ H m ltac:(lia)) as H1. cbv beta in H1.
    destruct (dt_at y m) as [q|]; [|discriminate].
    destruct (let '(y', m') := dt_clamp y m in dt_entry y' m') as [q'|]; [|discriminate].
    apply Qsame_eq in H1 as ->. eauto. }
  destruct (Z.ltb_spec y 1973) as [E|E].
  { destruct (G 1972 ltac:(lia)) as (q & H1 & H2). exists q.
    rewrite (dt_at_early y m E), <- (dt_at_early 1972 m) by lia. split; auto.
    unfold dt_clamp in *. destruct (y <? 1973) eqn:?; [|lia]. exact H2. }
  destruct (Z.leb_spec 2014 y) as [L|L].
  { destruct (G 2014 ltac:(lia)) as (q & H1 & H2). exists q. rewrite dt_at_late by assumption. split; auto.
    unfold dt_clamp in *. destruct (y <? 1973) eqn:?; [lia|]. destruct (y =? 1973) eqn:?; [lia|].
    destruct (2014 <=? y) eqn:?; [|lia]. exact H2. }
  apply G. lia.
Qed.

(* ---------------------------------------------------------------- statements *)
Lemma leap_seconds_official d u : instant d u -> in_range u = true ->
  get_leap_seconds d = Ok (tai_minus_utc u) /\
  (u < midnight 1972 1 1 -> get_leap_seconds d = Ok 10) /\
  (midnight 2017 1 1 <= u -> get_leap_seconds d = Ok 37).
Proof.
  intros Hi Hr. pose proof (leap_seconds_spec d u Hi Hr) as E. split; [assumption|]. rewrite E.
  split; intros H; [rewrite tai_before_1972|rewrite tai_after_2017]; auto.
Qed.

Lemma leap_warning_exact d u : instant d u -> in_range u = true ->
  exists w, get_leap_seconds_w d = Ok (tai_minus_utc u, w) /\
    (w <> [] <-> midnight 2026 7 1 <= u) /\ (List.length w <= 1)%nat.
Proof.
  intros Hi Hr. eexists. split; [apply leap_seconds_w_spec; eassumption|].
  destruct (Z.leb_spec (midnight 2026 7 1) u); cbn [List.length]; (split; [|lia]).
  - split; [auto|discriminate].
  - split; [tauto|lia].
Qed.

Lemma delta_t_total d u : instant d u -> in_range u = true ->
  let y := f_year (fields_of_us u) in
  let m := f_mon (fields_of_us u) in
  exists q, get_delta_t_q d = Ok q /\
    (u < midnight 1973 2 1 -> dt_entry 1973 2 = Some q) /\
    (midnight 1973 2 1 <= u < midnight 2014 5 1 -> dt_entry y m = Some q) /\
    (midnight 2014 5 1 <= u -> exists m', 1 <= m' <= 4 /\ dt_entry 2014 m' = Some q).
Proof.
  intros Hi Hr y m. pose proof (fields_mon_range u) as Hm. fold m in Hm.
  destruct (dt_at_spec y m Hm) as (q & Hq & He). exists q. rewrite (delta_t_at d u Hi Hr). split; [exact Hq|].
  pose proof (midnight_le 1973 2 u ltac:(lia)) as L1. pose proof (midnight_le 2014 5 u ltac:(lia)) as L2.
  fold y m in L1, L2. unfold dt_clamp in He.
  split; [|split]; intros H.
  - destruct (_ || _) eqn:E in He; [exact He|lia].
  - destruct (_ || _) eqn:E in He; [lia|]. destruct (2014 <=? y) eqn:E2 in He; [|exact He].
    replace (Z.min m 4) with m in He by lia. replace 2014 with y in He by lia. exact He.
  - destruct (_ || _) eqn:E in He; [lia|]. destruct (2014 <=? y) eqn:E2 in He; [|lia].
    exists (Z.min m 4). split; [lia|exact He].
Qed.

Lemma delta_t_after_table d u : instant d u -> in_range u = true ->
  midnight 2014 4 1 <= u ->
  get_delta_t_q d = Ok match f_mon (fields_of_us u) with
                       | 1 => 67.2810%Q | 2 => 67.3136%Q | 3 => 67.3457%Q | _ => 67.3890%Q
                       end.
Proof.
  intros Hi Hr Hu. rewrite (delta_t_at d u Hi Hr). pose proof (fields_mon_range u) as Hm.
  pose proof (midnight_le 2014 4 u ltac:(lia)) as L1.
  rewrite dt_at_late by lia. set (m := f_mon (fields_of_us u)) in *. clear Hi Hr Hu L1.
  assert (m = 1 \/ m = 2 \/ m = 3 \/ m = 4 \/ m = 5 \/ m = 6 \/ m = 7 \/ m = 8 \/ m = 9 \/ m = 10 \/ m = 11 \/ m = 12) as C by lia.
  repeat destruct C as [->|C]; try rewrite C; vm_compute; reflexivity.
Qed.

Lemma delta_t_after_table_refuted :
  ~ (forall d u, instant d u -> in_range u = true -> midnight 2014 5 1 <= u -> get_delta_t_q d = Ok 67.3890%Q).
Proof.
  intros H. specialize (H (mk 2020 1 15 0 0 0 0 (Some utc)) (us_of_fields (mkfields 2020 1 15 0 0 0 0))).
  assert (I : instant (mk 2020 1 15 0 0 0 0 (Some utc)) (us_of_fields (mkfields 2020 1 15 0 0 0 0))).
  { do 2 eexists. split; [reflexivity|]. split; [reflexivity|]. split; [reflexivity|]. vm_compute. reflexivity. }
  specialize (H I ltac:(vm_compute; reflexivity) ltac:(vm_compute; discriminate)). vm_compute in H. discriminate.
Qed.

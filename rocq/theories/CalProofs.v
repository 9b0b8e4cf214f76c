(* Calendar facts: the date algorithms of Cal.v are inverse to each other, for all dates. *)
From Coq Require Import Lia ZifyBool.
From Verif Require Import Py Cal.
Local Ltac zlia := Z.to_euclidean_division_equations; lia.

(* an independent notion of a valid proleptic Gregorian date *)
Definition valid_date (y m d : Z) : Prop := 1 <= m <= 12 /\ 1 <= d <= days_in_month (is_leap y) m.

Lemma is_leap_period y k : is_leap (y + 400 * k) = is_leap y.
Proof.
  unfold is_leap.
  replace ((y + 400 * k) mod 4) with (y mod 4) by (replace (y + 400 * k) with (y + (100 * k) * 4) by lia; now rewrite Z_mod_plus_full).
  replace ((y + 400 * k) mod 100) with (y mod 100) by (replace (y + 400 * k) with (y + (4 * k) * 100) by lia; now rewrite Z_mod_plus_full).
  replace ((y + 400 * k) mod 400) with (y mod 400) by (replace (y + 400 * k) with (y + k * 400) by lia; now rewrite Z_mod_plus_full).
  reflexivity.
Qed.

Lemma days_before_year_period y k : days_before_year (y + 400 * k) = days_before_year y + 146097 * k.
Proof.
  unfold days_before_year.
  replace (y + 400 * k - 1) with ((y - 1) + 400 * k) by lia.
  replace ((y - 1 + 400 * k) / 4) with ((y - 1) / 4 + 100 * k) by (replace (y - 1 + 400 * k) with ((y - 1) + (100 * k) * 4) by lia; now rewrite Z_div_plus_full).
  replace ((y - 1 + 400 * k) / 100) with ((y - 1) / 100 + 4 * k) by (replace (y - 1 + 400 * k) with ((y - 1) + (4 * k) * 100) by lia; now rewrite Z_div_plus_full).
  replace ((y - 1 + 400 * k) / 400) with ((y - 1) / 400 + k) by (replace (y - 1 + 400 * k) with ((y - 1) + k * 400) by lia; now rewrite Z_div_plus_full).
  lia.
Qed.

Lemma ymd2ord_period y m d k : ymd2ord (y + 400 * k) m d = ymd2ord y m d + 146097 * k.
Proof. unfold ymd2ord. rewrite is_leap_period, days_before_year_period. lia. Qed.

Lemma ord2ymd_period n k :
  ord2ymd (n + 146097 * k) = let '(y, m, d) := ord2ymd n in (y + 400 * k, m, d).
Proof.
  unfold ord2ymd.
  replace (n + 146097 * k - 1) with ((n - 1) + k * 146097) by lia.
  rewrite Z_div_plus_full, Z_mod_plus_full by lia.
  generalize ((n - 1) mod 146097). intros r.
  set (n1 := r mod 36524 mod 1461 / 365). set (n100 := r / 36524).
  destruct ((n1 =? 4) || (n100 =? 4)).
  - f_equal; f_equal; lia.
  - match goal with |- context [if ?c then _ else _] => destruct c end; f_equal; f_equal; lia.
Qed.

(* one 400-year cycle, checked exhaustively (the domain is genuinely finite) *)
Fixpoint all_upto (n : nat) (z : Z) (f : Z -> bool) : bool :=
  match n with O => true | S n => f z && all_upto n (z + 1) f end.
Lemma all_upto_spec n : forall z f, all_upto n z f = true ->
  forall i, z <= i < z + Z.of_nat n -> f i = true.
Proof.
  induction n as [|n IH]; intros z f H i Hi; [lia|].
  simpl in H. apply andb_true_iff in H as [H1 H2].
  destruct (Z.eq_dec i z) as [->|]; [assumption|]. apply (IH (z + 1) f H2). lia.
Qed.

Definition cycle_ok (n : Z) : bool :=
  let '(y, m, d) := ord2ymd n in
  (ymd2ord y m d =? n) && (1 <=? y) && (y <=? 400) && (1 <=? m) && (m <=? 12)
  && (1 <=? d) && (d <=? days_in_month (is_leap y) m).

Lemma cycle_sweep : all_upto (Z.to_nat 146097) 1 cycle_ok = true.
Proof. vm_cast_no_check (eq_refl true). Qed.

Lemma ord2ymd_cycle n : 1 <= n <= 146097 ->
  let '(y, m, d) := ord2ymd n in ymd2ord y m d = n /\ valid_date y m d /\ 1 <= y <= 400.
Proof.
  intros Hn. pose proof (all_upto_spec _ _ _ cycle_sweep n) as H.
  rewrite Z2Nat.id in H by lia. specialize (H ltac:(lia)). unfold cycle_ok in H.
  destruct (ord2ymd n) as [[y m] d]. unfold valid_date. lia.
Qed.

Lemma cycle_split n : exists k r, n = r + 146097 * k /\ 1 <= r <= 146097.
Proof. exists ((n - 1) / 146097), ((n - 1) mod 146097 + 1). pose proof (Z.mod_pos_bound (n-1) 146097 ltac:(lia)). pose proof (Z.div_mod (n-1) 146097 ltac:(lia)). lia. Qed.

Theorem ord2ymd_ymd2ord n : let '(y, m, d) := ord2ymd n in ymd2ord y m d = n /\ valid_date y m d.
Proof.
  destruct (cycle_split n) as (k & r & -> & Hr). rewrite ord2ymd_period.
  pose proof (ord2ymd_cycle r Hr) as H. destruct (ord2ymd r) as [[y m] d].
  rewrite ymd2ord_period. unfold valid_date in *. rewrite is_leap_period. lia.
Qed.

Lemma days_in_month_bound l m : 1 <= m <= 12 -> 28 <= days_in_month l m <= 31.
Proof.
  intros H. assert (m = 1 \/ m = 2 \/ m = 3 \/ m = 4 \/ m = 5 \/ m = 6 \/ m = 7 \/ m = 8 \/ m = 9 \/ m = 10 \/ m = 11 \/ m = 12) by lia.
  destruct l; repeat destruct H0 as [->|H0]; subst; cbn; lia.
Qed.

Lemma days_before_month_step l m : 1 <= m <= 11 ->
  days_before_month l (m + 1) = days_before_month l m + days_in_month l m.
Proof.
  intros H. assert (m = 1 \/ m = 2 \/ m = 3 \/ m = 4 \/ m = 5 \/ m = 6 \/ m = 7 \/ m = 8 \/ m = 9 \/ m = 10 \/ m = 11) by lia.
  destruct l; repeat destruct H0 as [->|H0]; subst; reflexivity.
Qed.

Lemma days_before_month_mono l m m' : 1 <= m -> m < m' -> m' <= 12 ->
  days_before_month l m + days_in_month l m <= days_before_month l m'.
Proof.
  intros H1 H2 H3.
  replace m' with (m + 1 + Z.of_nat (Z.to_nat (m' - m - 1))) in * by lia.
  remember (Z.to_nat (m' - m - 1)) as k. clear Heqk m'.
  induction k.
  - rewrite Z.add_0_r. rewrite days_before_month_step; lia.
  - rewrite Nat2Z.inj_succ in *.
    replace (m + 1 + Z.succ (Z.of_nat k)) with ((m + 1 + Z.of_nat k) + 1) by lia.
    rewrite days_before_month_step by lia.
    specialize (IHk ltac:(lia) ltac:(lia)).
    pose proof (days_in_month_bound l (m + 1 + Z.of_nat k) ltac:(lia)). lia.
Qed.

Definition year_len (y : Z) : Z := if is_leap y then 366 else 365.

Lemma days_before_year_step y : days_before_year (y + 1) = days_before_year y + year_len y.
Proof.
  unfold days_before_year, year_len, is_leap.
  destruct (Z.eqb_spec (y mod 4) 0), (Z.eqb_spec (y mod 100) 0), (Z.eqb_spec (y mod 400) 0);
    cbn [andb orb negb]; zlia.
Qed.

Lemma yday_range y m d : valid_date y m d -> 1 <= days_before_month (is_leap y) m + d <= year_len y.
Proof.
  intros [Hm Hd]. unfold year_len.
  assert (m = 1 \/ m = 2 \/ m = 3 \/ m = 4 \/ m = 5 \/ m = 6 \/ m = 7 \/ m = 8 \/ m = 9 \/ m = 10 \/ m = 11 \/ m = 12) by lia.
  assert (K : 0 <= days_before_month (is_leap y) m /\
              days_before_month (is_leap y) m + days_in_month (is_leap y) m <= if is_leap y then 366 else 365).
  { destruct (is_leap y); repeat destruct H as [->|H]; subst; vm_compute; split; discriminate. }
  lia.
Qed.

Lemma days_before_year_mono y y' : y < y' -> days_before_year y + year_len y <= days_before_year y'.
Proof.
  intros H. replace y' with (y + 1 + Z.of_nat (Z.to_nat (y' - y - 1))) by lia.
  induction (Z.to_nat (y' - y - 1)) as [|k IH].
  - rewrite Z.add_0_r, days_before_year_step. lia.
  - rewrite Nat2Z.inj_succ. replace (y + 1 + Z.succ (Z.of_nat k)) with ((y + 1 + Z.of_nat k) + 1) by lia.
    rewrite days_before_year_step. unfold year_len at 2. destruct (is_leap _); lia.
Qed.

(* dates in calendar order have ordinals in order *)
Definition date_lt (y m d y' m' d' : Z) : Prop := y < y' \/ (y = y' /\ (m < m' \/ (m = m' /\ d < d'))).

Lemma ymd2ord_mono y m d y' m' d' : valid_date y m d -> valid_date y' m' d' ->
  date_lt y m d y' m' d' -> ymd2ord y m d < ymd2ord y' m' d'.
Proof.
  intros V V' [Hy|[-> [Hm|[-> Hd]]]]; unfold ymd2ord.
  - pose proof (days_before_year_mono _ _ Hy). pose proof (yday_range _ _ _ V). pose proof (yday_range _ _ _ V'). lia.
  - destruct V as [Vm Vd], V' as [Vm' Vd']. pose proof (days_before_month_mono (is_leap y') m m' ltac:(lia) ltac:(lia) ltac:(lia)). lia.
  - lia.
Qed.

Lemma date_trichotomy y m d y' m' d' :
  date_lt y m d y' m' d' \/ (y = y' /\ m = m' /\ d = d') \/ date_lt y' m' d' y m d.
Proof. unfold date_lt. lia. Qed.

Lemma ymd2ord_inj y m d y' m' d' : valid_date y m d -> valid_date y' m' d' ->
  ymd2ord y m d = ymd2ord y' m' d' -> y = y' /\ m = m' /\ d = d'.
Proof.
  intros V V' H. destruct (date_trichotomy y m d y' m' d') as [L|[E|L]]; auto.
  - pose proof (ymd2ord_mono _ _ _ _ _ _ V V' L). lia.
  - pose proof (ymd2ord_mono _ _ _ _ _ _ V' V L). lia.
Qed.

Theorem ymd2ord_ord2ymd y m d : valid_date y m d -> ord2ymd (ymd2ord y m d) = (y, m, d).
Proof.
  intros V. pose proof (ord2ymd_ymd2ord (ymd2ord y m d)) as H.
  destruct (ord2ymd (ymd2ord y m d)) as [[y' m'] d']. destruct H as [H V'].
  apply ymd2ord_inj in H as (-> & -> & ->); auto.
Qed.

(* ---- fields *)
Definition valid_fields (f : fields) : Prop :=
  valid_date (f_year f) (f_mon f) (f_day f) /\
  0 <= f_hour f < 24 /\ 0 <= f_min f < 60 /\ 0 <= f_sec f < 60 /\ 0 <= f_us f < 1000000.

Theorem us_of_fields_inv u : us_of_fields (fields_of_us u) = u /\ valid_fields (fields_of_us u).
Proof.
  unfold us_of_fields, fields_of_us, valid_fields, us_per_day.
  pose proof (ord2ymd_ymd2ord (u / (86400 * 1000000) + 1)) as H.
  destruct (ord2ymd _) as [[y m] d]. destruct H as [H V]. cbn [f_year f_mon f_day f_hour f_min f_sec f_us].
  rewrite H. clear H.
  assert (Hu := Z.div_mod u (86400 * 1000000) ltac:(lia)).
  assert (Hr := Z.mod_pos_bound u (86400 * 1000000) ltac:(lia)).
  set (r := u mod (86400 * 1000000)) in *. set (q := u / (86400 * 1000000)) in *.
  clearbody q r.
  split; [|split; [exact V|]]; zlia.
Qed.

Theorem fields_of_us_inv f : valid_fields f -> fields_of_us (us_of_fields f) = f.
Proof.
  destruct f as [y m d h mi s us]. intros (V & Hh & Hm & Hs & Hu); cbn [f_year f_mon f_day f_hour f_min f_sec f_us] in *.
  unfold us_of_fields, fields_of_us, us_per_day; cbn [f_year f_mon f_day f_hour f_min f_sec f_us].
  set (o := ymd2ord y m d).
  set (t := ((h * 60 + mi) * 60 + s) * 1000000 + us).
  replace ((o - 1) * (86400 * 1000000) + ((h * 60 + mi) * 60 + s) * 1000000 + us) with (t + (o - 1) * (86400 * 1000000)) by (unfold t; lia).
  rewrite Z_div_plus_full, Z_mod_plus_full by lia.
  assert (Ht : 0 <= t < 86400 * 1000000) by (unfold t; lia).
  rewrite (Z.div_small t), (Z.mod_small t) by lia.
  replace (0 + (o - 1) + 1) with o by lia. unfold o. rewrite ymd2ord_ord2ymd by assumption.
  assert (E : t / 1000000 = (h * 60 + mi) * 60 + s) by (unfold t; zlia).
  rewrite E. f_equal; zlia.
Qed.

Lemma fields_of_us_yday u :
  f_yday (fields_of_us u) = u / us_per_day - days_before_year (f_year (fields_of_us u)) + 1.
Proof.
  unfold f_yday, fields_of_us.
  pose proof (ord2ymd_ymd2ord (u / us_per_day + 1)) as H.
  destruct (ord2ymd _) as [[y m] d]. destruct H as [H V]. cbn [f_year f_mon f_day]. unfold ymd2ord in H. lia.
Qed.

(* comparison of calendar readings is comparison of instants *)
Definition fields_date_le (f g : fields) : Prop :=
  f_year f < f_year g \/ (f_year f = f_year g /\ f_mon f <= f_mon g).

Lemma fields_of_us_mono u v : u <= v -> fields_date_le (fields_of_us u) (fields_of_us v).
Proof.
  intros Huv. unfold fields_date_le.
  pose proof (us_of_fields_inv u) as [Hu Vu]. pose proof (us_of_fields_inv v) as [Hv Vv].
  destruct (fields_of_us u) as [y m d h mi s us], (fields_of_us v) as [y' m' d' h' mi' s' us'].
  unfold us_of_fields, us_per_day, valid_fields in *; cbn [f_year f_mon f_day f_hour f_min f_sec f_us] in *.
  destruct (date_trichotomy y m d y' m' d') as [L|[E|L]].
  - unfold date_lt in L. lia.
  - lia.
  - destruct Vu as [Vu ?], Vv as [Vv ?]. pose proof (ymd2ord_mono _ _ _ _ _ _ Vv Vu L). exfalso. lia.
Qed.

(* day-of-range bounds *)
Lemma in_range_iff u : in_range u = true <-> 0 <= u < max_us.
Proof. unfold in_range. lia. Qed.

Lemma fields_year_range u : in_range u = true -> 1 <= f_year (fields_of_us u) <= 9999.
Proof.
  intros H. apply in_range_iff in H.
  pose proof (fields_of_us_mono 0 u ltac:(lia)) as L1.
  pose proof (fields_of_us_mono u (max_us - 1) ltac:(lia)) as L2.
  change (fields_of_us 0) with (mkfields 1 1 1 0 0 0 0) in L1.
  replace (fields_of_us (max_us - 1)) with (mkfields 9999 12 31 23 59 59 999999) in L2 by (vm_compute; reflexivity).
  unfold fields_date_le in *; cbn in *. lia.
Qed.

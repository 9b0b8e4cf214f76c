(* solartime.py: Julian days over the reals. *)
From Coq Require Import Reals Qreals Lra Lia ZifyBool.
From Verif Require Import Py Num Cal CalProofs TzCheck Tables Constants SolarTime GenProofs
  SpecTime SolarTimeProofs RInst RTac SpecDt.
Local Open Scope Z_scope.

(* ---------------------------------------------------------------- consistency of the tables *)
Definition ut1_row_ok (y : Z) : bool :=
  all_upto 12 1 (fun m =>
    match dt_at y m with
    | Ok q => let x := Qminus (Qplus (inject_Z (tai_ym y m)) 32.184) q in
              negb (Qle_bool x (-0.9)) && negb (Qle_bool 0.9 x)
              && negb (Qle_bool q 43) && negb (Qle_bool 68 q)
    | Err _ => false
    end).
(* 1973-01 (clamped to 1973-02) is fine too; 2014-05..12 as well *)
Lemma ut1_sweep : all_upto 42 1973 ut1_row_ok = true.
Proof. vm_compute. reflexivity. Qed.

Lemma Qle_bool_false p q : Qle_bool p q = false -> Qlt q p.
Proof. intros H. apply Qnot_le_lt. intros L. apply Qle_bool_iff in L. congruence. Qed.

Lemma ut1_bounds d u : instant d u -> midnight 1973 2 1 <= u < midnight 2014 5 1 ->
  exists q, get_delta_t_q d = Ok q /\
    (-0.9 < inject_Z (tai_minus_utc u) + 32.184 - q /\ inject_Z (tai_minus_utc u) + 32.184 - q < 0.9)%Q /\
    (43 < q /\ q < 68)%Q.
Proof.
  intros Hi Hu.
  assert (Hr : in_range u = true).
  { apply in_range_iff. assert (0 <= midnight 1973 2 1 /\ midnight 2014 5 1 <= max_us) by (vm_compute; split; discriminate). lia. }
  rewrite (delta_t_at d u Hi Hr), tai_ym_spec.
  pose proof (midnight_le 1973 2 u ltac:(lia)) as L1. pose proof (midnight_le 2014 5 u ltac:(lia)) as L2.
  pose proof (fields_mon_range u) as Hm.
  set (y := f_year (fields_of_us u)) in *. set (m := f_mon (fields_of_us u)) in *.
  pose proof (all_upto_spec _ _ _ ut1_sweep y ltac:(lia)) as H.
  pose proof (all_upto_spec _ _ _ H m ltac:(lia)) as H1. cbv beta in H1.
  destruct (dt_at y m) as [q|]; [|discriminate]. exists q. split; [reflexivity|].
  rewrite !andb_true_iff, !negb_true_iff in H1. destruct H1 as [[[H1 H2] H3] H4].
  apply Qle_bool_false in H1, H2, H3, H4. repeat split; assumption.
Qed.

(* ---------------------------------------------------------------- values over R *)
Local Open Scope R_scope.

(* the Julian date of a UTC instant: Meeus at 0h plus the fraction of the day *)
Definition jd_utc (u : Z) : R := IZR u / 86400000000 + 1721425.5.

Lemma timestamp_R d u : instant d u -> timestamp (N := MathR) d = Ok (Fin (IZR (u - epoch_us) / 1000000)).
Proof. intros H. unfold timestamp. rewrite (instant_timestamp d u H). simpl. reflexivity. Qed.

Lemma epoch_R u : IZR (u - epoch_us) = IZR u - 719162 * 86400000000.
Proof. rewrite minus_IZR. unfold epoch_us, us_per_day. rewrite !mult_IZR. lra. Qed.

Lemma jde_val d u : instant d u -> in_range u = true ->
  get_julian_ephemeris_day (N := MathR) d =
    Ok (Fin (jd_utc u + (IZR (tai_minus_utc u) + 32.184) / 86400)).
Proof.
  intros Hi Hr. unfold get_julian_ephemeris_day, tt_offset, seconds_per_day, gregorian_day_offset, julian_day_offset.
  rewrite (instant_aware d u Hi), (timestamp_R d u Hi), (leap_seconds_spec d u Hi Hr).
  rx. do 2 f_equal. rewrite epoch_R. unfold jd_utc. lra.
Qed.

Lemma jd_val d u q : instant d u -> in_range u = true -> get_delta_t_q d = Ok q ->
  get_julian_solar_day (N := MathR) d =
    Ok (Fin (jd_utc u + (IZR (tai_minus_utc u) + 32.184 - Q2R q) / 86400)).
Proof.
  intros Hi Hr Hq. unfold get_julian_solar_day, tt_offset, seconds_per_day, gregorian_day_offset, julian_day_offset, get_delta_t.
  rewrite (instant_aware d u Hi), (timestamp_R d u Hi), (leap_seconds_spec d u Hi Hr), Hq.
  rx. do 2 f_equal. rewrite epoch_R. unfold jd_utc. lra.
Qed.

Lemma jd_utc_meeus y m d h mi s us : (1 <= m <= 12)%Z ->
  jd_utc (midnight y m d + ((h * 60 + mi) * 60 + s) * 1000000 + us) =
    IZR (meeus_day y m d) - 1/2 + (IZR h * 3600 + IZR mi * 60 + IZR s + IZR us / 1000000) / 86400.
Proof.
  intros Hm. unfold jd_utc, midnight. change (meeus_day 1 1 1) with 1721426%Z.
  rewrite !plus_IZR, !mult_IZR, minus_IZR, !plus_IZR, !mult_IZR, !plus_IZR, !mult_IZR. lra.
Qed.

Lemma jde_increasing d1 d2 u1 u2 : instant d1 u1 -> instant d2 u2 ->
  in_range u1 = true -> in_range u2 = true -> (u1 < u2)%Z ->
  exists j1 j2, get_julian_ephemeris_day (N := MathR) d1 = Ok (Fin j1) /\
    get_julian_ephemeris_day (N := MathR) d2 = Ok (Fin j2) /\ j1 < j2 /\
    IZR (u2 - u1) / 86400000000 <= j2 - j1.
Proof.
  intros H1 H2 R1 R2 L. do 2 eexists. split; [apply jde_val; eassumption|]. split; [apply jde_val; eassumption|].
  pose proof (tai_mono u1 u2 ltac:(lia)) as T. apply IZR_le in T. pose proof (IZR_lt _ _ L) as L'.
  rewrite minus_IZR. unfold jd_utc. lra.
Qed.

(* ---------------------------------------------------------------- Julian (UT1) day *)
Local Open Scope Z_scope.
(* TAI-UTC - Delta-T, constant within a month *)
Definition off_q (y m : Z) : Q :=
  match dt_at y m with Ok q => (inject_Z (tai_ym y m) - q)%Q | Err _ => 0%Q end.

Lemma off_early y m : y < 1972 -> off_q y m = off_q 1971 m.
Proof. intros H. unfold off_q. rewrite (dt_at_early y), (dt_at_early 1971), (tai_ym_early y), (tai_ym_early 1971) by lia. reflexivity. Qed.
Lemma off_late y m : 2018 <= y -> off_q y m = off_q 2018 m.
Proof. intros H. unfold off_q. rewrite (dt_at_late y), (dt_at_late 2018), (tai_ym_late y), (tai_ym_late 2018) by lia. reflexivity. Qed.

Definition next_ym (y m : Z) : Z * Z := if m =? 12 then (y + 1, 1) else (y, m + 1).
Definition adj_row_ok (y : Z) : bool :=
  all_upto 12 1 (fun m =>
    let '(y', m') := next_ym y m in
    Qle_bool (off_q y m - 0.1099) (off_q y' m') && Qle_bool (-34) (off_q y m) && Qle_bool (off_q y m) (-30)).
Lemma adj_sweep : all_upto 48 1971 adj_row_ok = true.
Proof. vm_compute. reflexivity. Qed.

Lemma adj_ok y m : 1 <= m <= 12 ->
  let '(y', m') := next_ym y m in
  (off_q y m - 0.1099 <= off_q y' m')%Q /\ (-34 <= off_q y m)%Q /\ (off_q y m <= -30)%Q.
Proof.
  intros Hm.
  assert (G : forall y, 1971 <= y < 2019 -> let '(y', m') := next_ym y m in
     (off_q y m - 0.1099 <= off_q y' m')%Q /\ (-34 <= off_q y m)%Q /\ (off_q y m <= -30)%Q).
  { clear y. intros y Hy. pose proof (all_upto_spec _ _ _ adj_sweep y ltac:(lia)) as H.
    pose proof (all_upto_spec _ _ _ H m ltac:(lia)) as H1. cbv beta in H1. destruct (next_ym y m) as [y' m'].
    rewrite !andb_true_iff, !Qle_bool_iff in H1. tauto. }
  unfold next_ym in *. destruct (Z.ltb_spec y 1971) as [E|E].
  - specialize (G 1971 ltac:(lia)). destruct (m =? 12) eqn:E12.
    + rewrite (off_early y), (off_early (y + 1)) by lia. replace (off_q 1971 1) with (off_q (1971 + 1) 1); [exact G|].
      unfold off_q. rewrite (dt_at_early 1971), (tai_ym_early 1971) by lia. reflexivity.
    + rewrite !(off_early y) by lia. exact G.
  - destruct (Z.leb_spec 2018 y) as [L|L]; [|apply G; lia].
    specialize (G 2018 ltac:(lia)). destruct (m =? 12) eqn:E12.
    + rewrite (off_late y), (off_late (y + 1)) by lia. rewrite (off_late (2018 + 1)) in G by lia. exact G.
    + rewrite !(off_late y) by lia. exact G.
Qed.

Lemma month_len y m : 1 <= m <= 12 ->
  let '(y', m') := next_ym y m in midnight y m 1 + 28 * 86400000000 <= midnight y' m' 1.
Proof.
  intros H. unfold next_ym. destruct (Z.eqb_spec m 12) as [->|N].
  - unfold midnight. rewrite !meeus_ord by lia. unfold ymd2ord. rewrite days_before_year_step.
    unfold year_len. destruct (is_leap y), (is_leap (y + 1)); cbn; lia.
  - unfold midnight. rewrite !meeus_ord by lia. unfold ymd2ord.
    rewrite days_before_month_step by lia. pose proof (days_in_month_bound (is_leap y) m H). lia.
Qed.

Lemma next_ym_valid y m : 1 <= m <= 12 -> 1 <= snd (next_ym y m) <= 12.
Proof. intros. unfold next_ym. destruct (Z.eqb_spec m 12); simpl; lia. Qed.

(* closer than 28 days: same month or the next one *)
Lemma close_months u1 u2 : u1 <= u2 < u1 + 28 * 86400000000 ->
  (f_year (fields_of_us u2), f_mon (fields_of_us u2)) = (f_year (fields_of_us u1), f_mon (fields_of_us u1)) \/
  (f_year (fields_of_us u2), f_mon (fields_of_us u2)) = next_ym (f_year (fields_of_us u1)) (f_mon (fields_of_us u1)).
Proof.
  intros H. pose proof (fields_of_us_mono u1 u2 ltac:(lia)) as M. unfold fields_date_le in M.
  pose proof (fields_mon_range u1) as R1. pose proof (fields_mon_range u2) as R2.
  set (y1 := f_year (fields_of_us u1)) in *. set (m1 := f_mon (fields_of_us u1)) in *.
  pose proof (next_ym_valid y1 m1 R1) as V1. destruct (next_ym y1 m1) as [ya ma] eqn:Ea. simpl in V1.
  pose proof (next_ym_valid ya ma V1) as V2. pose proof (month_len ya ma V1) as L.
  destruct (next_ym ya ma) as [yb mb] eqn:Eb. simpl in V2.
  pose proof (midnight_le ya ma u1 V1) as A. fold y1 m1 in A.
  pose proof (midnight_le yb mb u2 V2) as B.
  set (y2 := f_year (fields_of_us u2)) in *. set (m2 := f_mon (fields_of_us u2)) in *.
  unfold next_ym in Ea, Eb.
  match goal with |- _ \/ (_, _) = (?a, ?b) => assert (Q : (y2 = y1 /\ m2 = m1) \/ (y2 = a /\ m2 = b)) end.
  { assert (K : (ya = y1 /\ ma = m1 + 1 /\ m1 < 12) \/ (ya = y1 + 1 /\ ma = 1 /\ m1 = 12)).
    { destruct (Z.eqb_spec m1 12); injection Ea as <- <-; lia. }
    assert (K' : (yb = ya /\ mb = ma + 1 /\ ma < 12) \/ (yb = ya + 1 /\ mb = 1 /\ ma = 12)).
    { destruct (Z.eqb_spec ma 12); injection Eb as <- <-; lia. }
    lia. }
  destruct Q as [(-> & ->)|(-> & ->)]; auto.
Qed.

Local Open Scope R_scope.
Lemma jd_off d u : instant d u -> in_range u = true ->
  get_julian_solar_day (N := MathR) d =
    Ok (Fin (jd_utc u + (Q2R (off_q (f_year (fields_of_us u)) (f_mon (fields_of_us u))) + 32.184) / 86400)).
Proof.
  intros Hi Hr. pose proof (delta_t_at d u Hi Hr) as E.
  destruct (dt_at_spec (f_year (fields_of_us u)) (f_mon (fields_of_us u)) (fields_mon_range u)) as (q & Hq & _).
  rewrite Hq in E. rewrite (jd_val d u q Hi Hr E). do 2 f_equal. unfold off_q. rewrite Hq, tai_ym_spec.
  rewrite Q2R_minus, Q2R_inject. lra.
Qed.

Lemma jd_increasing_month d1 d2 u1 u2 : instant d1 u1 -> instant d2 u2 ->
  in_range u1 = true -> in_range u2 = true -> (u1 < u2)%Z ->
  f_year (fields_of_us u1) = f_year (fields_of_us u2) -> f_mon (fields_of_us u1) = f_mon (fields_of_us u2) ->
  exists j1 j2, get_julian_solar_day (N := MathR) d1 = Ok (Fin j1) /\
    get_julian_solar_day (N := MathR) d2 = Ok (Fin j2) /\ j1 < j2 /\ j2 - j1 = IZR (u2 - u1) / 86400000000.
Proof.
  intros H1 H2 R1 R2 L Ey Em. do 2 eexists. split; [apply jd_off; eassumption|]. split; [apply jd_off; eassumption|].
  rewrite Ey, Em. pose proof (IZR_lt _ _ L) as L'. rewrite minus_IZR. unfold jd_utc. lra.
Qed.

Lemma jd_increasing_apart d1 d2 u1 u2 : instant d1 u1 -> instant d2 u2 ->
  in_range u1 = true -> in_range u2 = true -> (u1 + 110000 <= u2)%Z ->
  exists j1 j2, get_julian_solar_day (N := MathR) d1 = Ok (Fin j1) /\
    get_julian_solar_day (N := MathR) d2 = Ok (Fin j2) /\ j1 < j2.
Proof.
  intros H1 H2 R1 R2 L. do 2 eexists. split; [apply jd_off; eassumption|]. split; [apply jd_off; eassumption|].
  pose proof (adj_ok (f_year (fields_of_us u1)) (f_mon (fields_of_us u1)) (fields_mon_range u1)) as A1.
  pose proof (adj_ok (f_year (fields_of_us u2)) (f_mon (fields_of_us u2)) (fields_mon_range u2)) as A2.
  pose proof (IZR_le _ _ L) as L'. rewrite plus_IZR in L'. unfold jd_utc.
  destruct (Z.ltb_spec u2 (u1 + 28 * 86400000000)) as [C|C].
  - destruct (close_months u1 u2 ltac:(lia)) as [E|E].
    + injection E as -> ->. lra.
    + rewrite <- E in A1. destruct A1 as [A1 _]. apply Qle_Rle in A1. rewrite Q2R_minus in A1. lra.
  - apply IZR_le in C. rewrite plus_IZR, mult_IZR in C.
    destruct (next_ym (f_year (fields_of_us u1)) _), (next_ym (f_year (fields_of_us u2)) _). destruct A1 as (_ & A1 & A1'), A2 as (_ & A2 & A2').
    apply Qle_Rle in A1, A1', A2, A2'. rewrite Q2R_int in *. lra.
Qed.

(* ---------------------------------------------------------------- statements *)
Lemma tables_consistent d u : instant d u -> (midnight 1973 2 1 <= u < midnight 2014 5 1)%Z ->
  exists n q, get_leap_seconds d = Ok n /\ get_delta_t_q d = Ok q /\
    (-0.9 < inject_Z n + 32.184 - q /\ inject_Z n + 32.184 - q < 0.9)%Q /\ (43 < q /\ q < 68)%Q.
Proof.
  intros Hi Hu. destruct (ut1_bounds d u Hi Hu) as (q & H1 & H2 & H3). exists (tai_minus_utc u), q.
  split; [|auto]. apply leap_seconds_spec; [assumption|].
  apply in_range_iff. assert (0 <= midnight 1973 2 1 /\ midnight 2014 5 1 <= max_us)%Z by (vm_compute; split; discriminate). lia.
Qed.

Lemma julian_ephemeris_day_meeus dt y m d h mi s us :
  let u := (midnight y m d + ((h * 60 + mi) * 60 + s) * 1000000 + us)%Z in
  (1 <= m <= 12)%Z -> instant dt u -> in_range u = true ->
  get_julian_ephemeris_day (N := MathR) dt =
    Ok (Fin (IZR (meeus_day y m d) - 1/2
             + (IZR h * 3600 + IZR mi * 60 + IZR s + IZR us / 1000000) / 86400
             + (IZR (tai_minus_utc u) + 32.184) / 86400)).
Proof. intros u Hm Hi Hr. rewrite (jde_val dt u Hi Hr). unfold u at 1. now rewrite jd_utc_meeus. Qed.

Lemma jd_increasing_partial d1 d2 u1 u2 : instant d1 u1 -> instant d2 u2 ->
  in_range u1 = true -> in_range u2 = true -> (u1 < u2)%Z ->
  (f_year (fields_of_us u1) = f_year (fields_of_us u2) /\ f_mon (fields_of_us u1) = f_mon (fields_of_us u2)) \/
    (u1 + 110000 <= u2)%Z ->
  exists j1 j2, get_julian_solar_day (N := MathR) d1 = Ok (Fin j1) /\
    get_julian_solar_day (N := MathR) d2 = Ok (Fin j2) /\ (j1 < j2)%R /\
    (f_year (fields_of_us u1) = f_year (fields_of_us u2) -> f_mon (fields_of_us u1) = f_mon (fields_of_us u2) ->
     (j2 - j1 = IZR (u2 - u1) / 86400000000)%R).
Proof.
  intros H1 H2 R1 R2 L [[Ey Em]|A].
  - destruct (jd_increasing_month d1 d2 u1 u2 H1 H2 R1 R2 L Ey Em) as (j1 & j2 & ?). exists j1, j2. tauto.
  - destruct (jd_increasing_apart d1 d2 u1 u2 H1 H2 R1 R2 A) as (j1 & j2 & J1 & J2 & J). exists j1, j2.
    repeat (split; [assumption|]). intros Ey Em.
    destruct (jd_increasing_month d1 d2 u1 u2 H1 H2 R1 R2 L Ey Em) as (k1 & k2 & K1 & K2 & _ & K).
    rewrite J1 in K1. rewrite J2 in K2. injection K1 as <-. injection K2 as <-. exact K.
Qed.

Lemma jd_increasing_refuted :
  ~ (forall d1 d2 u1 u2, instant d1 u1 -> instant d2 u2 -> in_range u1 = true -> in_range u2 = true ->
     (u1 < u2)%Z -> exists j1 j2, get_julian_solar_day (N := MathR) d1 = Ok (Fin j1) /\
       get_julian_solar_day (N := MathR) d2 = Ok (Fin j2) /\ (j1 < j2)%R).
Proof.
  intros H.
  set (d1 := mk 1973 2 28 23 59 59 950000 (Some utc)). set (d2 := mk 1973 3 1 0 0 0 0 (Some utc)).
  set (u1 := us_of_fields (mkfields 1973 2 28 23 59 59 950000)). set (u2 := us_of_fields (mkfields 1973 3 1 0 0 0 0)).
  assert (I1 : instant d1 u1) by (do 2 eexists; (split; [reflexivity|]); (split; [reflexivity|]); (split; [reflexivity|vm_compute; reflexivity])).
  assert (I2 : instant d2 u2) by (do 2 eexists; (split; [reflexivity|]); (split; [reflexivity|]); (split; [reflexivity|vm_compute; reflexivity])).
  assert (R1 : in_range u1 = true) by (vm_compute; reflexivity).
  assert (R2 : in_range u2 = true) by (vm_compute; reflexivity).
  destruct (H d1 d2 u1 u2 I1 I2 R1 R2 ltac:(vm_compute; reflexivity)) as (j1 & j2 & J1 & J2 & J).
  rewrite (jd_off d1 u1 I1 R1) in J1. rewrite (jd_off d2 u2 I2 R2) in J2.
  injection J1 as <-. injection J2 as <-.
  replace (off_q (f_year (fields_of_us u1)) (f_mon (fields_of_us u1))) with (-31.4724)%Q in J by (vm_compute; reflexivity).
  replace (off_q (f_year (fields_of_us u2)) (f_mon (fields_of_us u2))) with (-31.5648)%Q in J by (vm_compute; reflexivity).
  unfold jd_utc in J.
  assert (E : IZR u2 = IZR u1 + 50000) by (rewrite <- plus_IZR; f_equal; vm_compute; reflexivity).
  rewrite E in J. clear - J. clearbody u1. unfold Q2R in J; simpl Qnum in J; simpl Qden in J. lra.
Qed.

(* Julian days in binary64. *)
From Coq Require Import Reals Qreals Lra Lia.
From Flocq Require Import Core IEEE754.BinarySingleNaN.
From Verif Require Import Py Num Cal TzCheck Tables Constants SolarTime RInst B64 SpecB64 B64Lemmas B64Near
  RTac SpecTime SpecDt SpecAstro GenProofs SolarTimeProofs JulianProofs.
Local Open Scope R_scope.

Section J.
Variable L : libm.
Notation N := (B64 L).

Lemma bp k m : (0 <= k)%Z -> IZR (2 ^ k) = m -> bpow radix2 k = m.
Proof. intros H <-. now rewrite <- (IZR_Zpower radix2 k H). Qed.
Lemma vint z : (Z.abs z <= 2 ^ 53)%Z -> val (ofZ (N := N) z) (IZR z).
Proof. apply val_int. Qed.

(* the part common to both: from the seconds to the Julian day *)
Lemma days64 x s e kd kg kj : near x s e -> (0 <= kd <= 30)%Z -> (0 <= kg <= 30)%Z -> (0 <= kj <= 30)%Z ->
  let e1 := e / 86400 + bpow radix2 (kd - 54) in let e2 := e1 + bpow radix2 (kg - 54) in
  0 <= e -> Rabs (s / 86400) + e1 <= bpow radix2 kd -> Rabs (s / 86400 + 719163) + e2 <= bpow radix2 kg ->
  Rabs (s / 86400 + 719163 + 1721424.5) + e2 <= bpow radix2 kj ->
  exists y, (q <- div (n := N) x seconds_per_day ;; Ok (add (add q gregorian_day_offset) julian_day_offset)) = Ok y /\
    near y (s / 86400 + 719163 + 1721424.5) (e2 + bpow radix2 (kj - 54)).
Proof.
  intros X Kd Kg Kj e1 e2 He B1 B2 B3.
  assert (VS : val (seconds_per_day (N := N)) 86400).
  { unfold seconds_per_day. cbn [lit B64]. replace (flit _) with (flit 86400) by (apply B2SF_inj; vm_compute; reflexivity). apply (val_int 86400). lia. }
  assert (VG : val (gregorian_day_offset (N := N)) 719163) by (apply (val_int 719163); lia).
  assert (VJ : val (julian_day_offset (N := N)) 1721424.5).
  { unfold julian_day_offset. cbn [lit B64]. replace (flit _) with (fl 3442849 (-1)) by (apply B2SF_inj; vm_compute; reflexivity).
    replace 1721424.5 with (IZR 3442849 * bpow radix2 (-1)) by (cbn; lra). apply val_fl; lia. }
  assert (P1 : 0 < bpow radix2 (kd - 54)) by apply bpow_gt_0. assert (P2 : 0 < bpow radix2 (kg - 54)) by apply bpow_gt_0.
  cbn [div B64]. rewrite (val_nz _ _ VS) by lra. cbn [bind]. eexists. split; [reflexivity|].
  pose proof (near_div_const _ _ _ _ _ kd X VS ltac:(lra) ltac:(lia) ltac:(unfold e1 in *; lra)) as D. fold e1 in D.
  pose proof (near_add _ _ _ _ _ _ kg D (near_val _ _ VG) ltac:(lia)) as G.
  replace (e1 + 0 + bpow radix2 (kg - 54)) with e2 in G by (unfold e2; ring). specialize (G ltac:(unfold e2 in B2; lra)).
  pose proof (near_add _ _ _ _ _ _ kj G (near_val _ _ VJ) ltac:(lia)) as J.
  replace (e2 + 0 + bpow radix2 (kj - 54)) with (e2 + bpow radix2 (kj - 54)) in J by ring. apply J. lra.
Qed.

(* the seconds: 2^k bounds them *)
Lemma timestamp64 d u k : instant d u -> (0 <= k <= 60)%Z -> Rabs (IZR (u - epoch_us) / 1000000) <= bpow radix2 k ->
  exists x, timestamp (N := N) d = Ok x /\ near x (IZR (u - epoch_us) / 1000000) (bpow radix2 (k - 54)).
Proof.
  intros Hi K B. unfold timestamp. rewrite (instant_timestamp d u Hi). cbn [bind]. eexists. split; [reflexivity|].
  replace (IZR (u - epoch_us) / 1000000) with (Q2R (Qmake (u - epoch_us) 1000000)) in * by (unfold Q2R; cbn; lra).
  apply near_lit; [lia|exact B].
Qed.
Lemma tt64 : near (tt_offset (N := N)) 32.184 (bpow radix2 (-48)).
Proof.
  unfold tt_offset. cbn [lit B64]. replace 32.184 with (Q2R 32.184) by (unfold Q2R; cbn; lra). apply (near_lit _ 6); [lia|].
  rewrite (bp 6 64) by (lia || reflexivity). rewrite Rabs_pos_eq; unfold Q2R; cbn; lra.
Qed.
Lemma dt_range d u : instant d u -> in_range u = true -> exists q, get_delta_t_q d = Ok q /\ 40 <= Q2R q <= 71.
Proof.
  intros Hi Hr. pose proof (delta_t_at d u Hi Hr) as E. pose proof (fields_mon_range u) as F.
  destruct (dt_at_spec (f_year (fields_of_us u)) (f_mon (fields_of_us u)) F) as (q & Hq & _). rewrite Hq in E. exists q. split; [exact E|].
  pose proof (adj_ok (f_year (fields_of_us u)) (f_mon (fields_of_us u)) F) as A. destruct (next_ym _ _). destruct A as (_ & A1 & A2).
  unfold off_q in A1, A2. rewrite Hq, <- tai_ym_spec in A1, A2. pose proof (tai_range u) as T.
  apply Qle_Rle in A1, A2. rewrite Q2R_minus, Q2R_inject in A1, A2. assert (10 <= IZR (tai_minus_utc u) <= 37) by (split; apply IZR_le; lia).
  replace (Q2R (-34)) with (-34) in A1 by (unfold Q2R; cbn; lra). replace (Q2R (-30)) with (-30) in A2 by (unfold Q2R; cbn; lra). lra.
Qed.

Lemma pow_pos_bound k : (0 <= k)%Z -> 1 <= bpow radix2 k.
Proof. intros H. change 1 with (bpow radix2 0). now apply bpow_le. Qed.

(* seconds from the epoch plus leap seconds plus 32.184 [minus Delta-T] *)
Lemma sum64 x y z t l e k : near x t (bpow radix2 (k - 54)) -> val y l -> near z 32.184 e -> 0 <= e <= bpow radix2 (-48) -> 0 <= l <= 37 -> (8 <= k <= 50)%Z ->
  Rabs t + 200 <= bpow radix2 k ->
  near (Bplus mode_NE (Bplus mode_NE x y) z) (t + l + 32.184) (3 * bpow radix2 (k - 54) + e).
Proof.
  intros X Y Z E Hl K B. set (g := bpow radix2 (k - 54)) in *.
  assert (G : 0 < g <= 1).
  { split; [apply bpow_gt_0|]. change 1 with (bpow radix2 0). apply bpow_le. lia. }
  assert (E48 : bpow radix2 (-48) <= 1) by (change 1 with (bpow radix2 0); apply bpow_le; lia).
  assert (A : Rabs (t + l) <= Rabs t + 37). { eapply Rle_trans; [apply Rabs_triang|]. rewrite (Rabs_pos_eq l) by lra. lra. }
  assert (A2 : Rabs (t + l + 32.184) <= Rabs t + 70). { eapply Rle_trans; [apply Rabs_triang|]. rewrite (Rabs_pos_eq 32.184) by lra. lra. }
  pose proof (near_add _ _ _ _ _ _ k X (near_val _ _ Y) ltac:(lia) ltac:(lra)) as S1. fold g in S1.
  pose proof (near_add _ _ _ _ _ _ k S1 Z ltac:(lia) ltac:(lra)) as S2. fold g in S2.
  apply near_weaken with (1 := S2). lra.
Qed.

(* instants whose distance from 1970 is below 2^k - 200 seconds *)
Definition jd_err (k kd kg kj : Z) : R :=
  (4 * bpow radix2 (k - 54) + bpow radix2 (-46)) / 86400 + bpow radix2 (kd - 54) + bpow radix2 (kg - 54) + bpow radix2 (kj - 54).

Lemma jde64 d u k kd kg kj : instant d u -> in_range u = true -> (8 <= k <= 50)%Z -> (0 <= kd <= 30)%Z -> (0 <= kg <= 30)%Z -> (0 <= kj <= 30)%Z ->
  Rabs (IZR (u - epoch_us) / 1000000) + 200 <= bpow radix2 k -> Rabs (IZR (u - epoch_us) / 1000000 / 86400) + 1 <= bpow radix2 kd ->
  Rabs (IZR (u - epoch_us) / 1000000 / 86400 + 719163) + 1 <= bpow radix2 kg -> Rabs (IZR (u - epoch_us) / 1000000 / 86400 + 2440587.5) + 1 <= bpow radix2 kj ->
  (exists y r, get_julian_ephemeris_day (N := N) d = Ok y /\ get_julian_ephemeris_day (N := MathR) d = Ok (Fin r) /\ near y r (jd_err k kd kg kj)) /\
  (exists y r, get_julian_solar_day (N := N) d = Ok y /\ get_julian_solar_day (N := MathR) d = Ok (Fin r) /\ near y r (jd_err k kd kg kj)).
Proof.
  intros Hi Hr K Kd Kg Kj B1 B2 B3 B4. destruct (timestamp64 d u k Hi ltac:(lia) ltac:(lra)) as (x & Ex & X).
  pose proof (tai_range u) as TR. assert (TR' : 10 <= IZR (tai_minus_utc u) <= 37) by (split; apply IZR_le; lia).
  pose proof (vint (tai_minus_utc u) ltac:(lia)) as VL. set (g := bpow radix2 (k - 54)) in *.
  set (t := IZR (u - epoch_us) / 1000000) in *. set (h := bpow radix2 (-48)).
  assert (H48 : 0 < h <= 1) by (split; [apply bpow_gt_0|change 1 with (bpow radix2 0); apply bpow_le; lia]).
  assert (H47 : bpow radix2 (-47) = 2 * h) by (unfold h; change (-47)%Z with (1 + -48)%Z; rewrite bpow_plus; reflexivity).
  assert (H46 : bpow radix2 (-46) = 4 * h) by (unfold h; change (-46)%Z with (2 + -48)%Z; rewrite bpow_plus; reflexivity).
  assert (G : 0 < g <= 1) by (split; [apply bpow_gt_0|change 1 with (bpow radix2 0); apply bpow_le; lia]).
  pose proof (sum64 _ _ _ t _ h k X VL tt64 ltac:(fold h; lra) ltac:(lra) ltac:(lia) ltac:(lra)) as S. fold g in S.
  assert (P : forall j, (j <= 30)%Z -> 0 < bpow radix2 (j - 54) <= / 1024).
  { intros j Hj. split; [apply bpow_gt_0|]. change (/ 1024) with (bpow radix2 (-10)). apply bpow_le. lia. }
  pose proof (P kd ltac:(lia)) as Pd. pose proof (P kg ltac:(lia)) as Pg. pose proof (P kj ltac:(lia)) as Pj.
  assert (ABS : forall a b e, Rabs (b - a) <= e -> Rabs b <= Rabs a + e).
  { intros a b e H. replace b with (a + (b - a)) by ring. eapply Rle_trans; [apply Rabs_triang|]. lra. }
  assert (EP : t / 86400 + 2440587.5 = jd_utc u). { unfold t, jd_utc. rewrite epoch_R. lra. }
  split.
  - rewrite (jde_val d u Hi Hr). unfold get_julian_ephemeris_day. rewrite (instant_aware d u Hi), Ex, (leap_seconds_spec d u Hi Hr). cbn [bind].
    edestruct (days64 _ _ _ kd kg kj S) as (y & Ey & Y); try lia; try lra.
    + eapply Rle_trans; [apply Rplus_le_compat_r; apply (ABS (t / 86400) _ 0.1); apply Rabs_le; lra|]. lra.
    + eapply Rle_trans; [apply Rplus_le_compat_r; apply (ABS (t / 86400 + 719163) _ 0.1); apply Rabs_le; lra|]. lra.
    + eapply Rle_trans; [apply Rplus_le_compat_r; apply (ABS (t / 86400 + 2440587.5) _ 0.1); apply Rabs_le; lra|]. lra.
    + exists y. eexists. split; [exact Ey|]. split; [reflexivity|]. 
      replace (jd_utc u + _) with ((t + IZR (tai_minus_utc u) + 32.184) / 86400 + 719163 + 1721424.5) by lra.
      apply near_weaken with (1 := Y). unfold jd_err. fold g. lra.
  - destruct (dt_range d u Hi Hr) as (q & Hq & Bq).
    rewrite (jd_val d u q Hi Hr Hq). unfold get_julian_solar_day, get_delta_t. rewrite (instant_aware d u Hi), Ex, (leap_seconds_spec d u Hi Hr), Hq. cbn [bind rmap].
    assert (NQ : near (lit (n := N) q) (Q2R q) (2 * h)).
    { rewrite <- H47. apply (near_lit _ 7); [lia|]. rewrite (bp 7 128) by (lia || reflexivity). rewrite Rabs_pos_eq; lra. }
    assert (S' : near (sub (n := N) (Bplus mode_NE (Bplus mode_NE x (ofZ (N := N) (tai_minus_utc u))) (tt_offset (N := N))) (lit q))
       (t + IZR (tai_minus_utc u) + 32.184 - Q2R q) (4 * g + 3 * h)).
    { eapply near_weaken; [eapply near_sub with (k := k); [exact S|exact NQ|lia|]|fold g; lra].
      eapply Rle_trans; [apply Rplus_le_compat_r; apply (ABS t _ 100); apply Rabs_le; lra|]. lra. }
    edestruct (days64 _ _ _ kd kg kj S') as (y & Ey & Y); try lia; try lra.
    + eapply Rle_trans; [apply Rplus_le_compat_r; apply (ABS (t / 86400) _ 0.1); apply Rabs_le; lra|]. lra.
    + eapply Rle_trans; [apply Rplus_le_compat_r; apply (ABS (t / 86400 + 719163) _ 0.1); apply Rabs_le; lra|]. lra.
    + eapply Rle_trans; [apply Rplus_le_compat_r; apply (ABS (t / 86400 + 2440587.5) _ 0.1); apply Rabs_le; lra|]. lra.
    + exists y. eexists. split; [exact Ey|]. split; [reflexivity|]. 
      replace (jd_utc u + _) with ((t + IZR (tai_minus_utc u) + 32.184 - Q2R q) / 86400 + 719163 + 1721424.5) by lra.
      apply near_weaken with (1 := Y). unfold jd_err. fold g. lra.
Qed.

Lemma julian64 d u : instant d u -> in_range u = true ->
  (exists y r, get_julian_ephemeris_day (N := N) d = Ok y /\ get_julian_ephemeris_day (N := MathR) d = Ok (Fin r) /\ near y r 1.7e-9) /\
  (exists y r, get_julian_solar_day (N := N) d = Ok y /\ get_julian_solar_day (N := MathR) d = Ok (Fin r) /\ near y r 1.7e-9).
Proof.
  intros Hi Hr. assert (E : jd_err 38 22 22 23 <= 1.7e-9) by (unfold jd_err; cbn; lra).
  assert (B : 0 <= IZR u < 315537897600000000).
  { unfold in_range in Hr. apply andb_prop in Hr as [A C]. apply Z.leb_le in A. apply Z.ltb_lt in C. split; [apply IZR_le; lia|].
    apply (IZR_lt u 315537897600000000). apply Z.lt_le_trans with (1 := C). vm_compute. discriminate. }
  destruct (jde64 d u 38 22 22 23 Hi Hr) as [(y & r & A1 & A2 & A3) (y' & r' & B1 & B2 & B3)]; try lia;
    try (rewrite epoch_R, ?(bp 38 274877906944), ?(bp 22 4194304), ?(bp 23 8388608) by (lia || reflexivity);
         match goal with |- Rabs ?x + ?c <= ?m => cut (Rabs x <= m - c); [lra|apply Rabs_le; lra] end).
  split; [exists y, r|exists y', r']; (split; [assumption|]); (split; [assumption|]); now apply near_weaken with (2 := E).
Qed.
Lemma julian64_modern d u : instant d u -> (midnight 1834 1 1 <= u < midnight 2106 1 1)%Z ->
  (exists y r, get_julian_ephemeris_day (N := N) d = Ok y /\ get_julian_ephemeris_day (N := MathR) d = Ok (Fin r) /\ near y r 3.1e-10) /\
  (exists y r, get_julian_solar_day (N := N) d = Ok y /\ get_julian_solar_day (N := MathR) d = Ok (Fin r) /\ near y r 3.1e-10).
Proof.
  intros Hi Hu. assert (E : jd_err 32 16 20 22 <= 3.1e-10) by (unfold jd_err; cbn; lra).
  change (midnight 1834 1 1) with 57843849600000000%Z in Hu. change (midnight 2106 1 1) with 66427344000000000%Z in Hu.
  assert (Hr : in_range u = true). { unfold in_range. apply andb_true_intro. split; [apply Z.leb_le; lia|]. apply Z.ltb_lt. apply Z.lt_trans with 66427344000000000%Z; [lia|vm_compute; reflexivity]. }
  assert (B : 57843849600000000 <= IZR u < 66427344000000000) by (split; [apply IZR_le|apply IZR_lt]; lia).
  destruct (jde64 d u 32 16 20 22 Hi Hr) as [(y & r & A1 & A2 & A3) (y' & r' & B1 & B2 & B3)]; try lia;
    try (rewrite epoch_R, ?(bp 32 4294967296), ?(bp 16 65536), ?(bp 20 1048576), ?(bp 22 4194304) by (lia || reflexivity);
         match goal with |- Rabs ?x + ?c <= ?m => cut (Rabs x <= m - c); [lra|apply Rabs_le; lra] end).
  split; [exists y, r|exists y', r']; (split; [assumption|]); (split; [assumption|]); now apply near_weaken with (2 := E).
Qed.

Lemma order64 d1 d2 u1 u2 e g : instant d1 u1 -> instant d2 u2 -> in_range u1 = true -> in_range u2 = true -> (u1 + g <= u2)%Z -> (0 < g)%Z ->
  2 * e < IZR g / 86400000000 ->
  (exists y r, get_julian_ephemeris_day (N := N) d1 = Ok y /\ get_julian_ephemeris_day (N := MathR) d1 = Ok (Fin r) /\ near y r e) ->
  (exists y r, get_julian_ephemeris_day (N := N) d2 = Ok y /\ get_julian_ephemeris_day (N := MathR) d2 = Ok (Fin r) /\ near y r e) ->
  exists x y, get_julian_ephemeris_day (N := N) d1 = Ok x /\ get_julian_ephemeris_day (N := N) d2 = Ok y /\ Bltb x y = true.
Proof.
  intros I1 I2 R1 R2 Hg Hp He (x & r & Ex & Er & v & V & Hv) (y & s & Ey & Es & w & W & Hw). exists x, y. split; [exact Ex|]. split; [exact Ey|].
  destruct (jde_increasing d1 d2 u1 u2 I1 I2 R1 R2 ltac:(lia)) as (j1 & j2 & J1 & J2 & _ & J).
  assert (j1 = r) by congruence. assert (j2 = s) by congruence. subst j1 j2.
  assert (IZR g <= IZR (u2 - u1)) by (apply IZR_le; lia).
  rewrite (val_lt _ _ _ _ V W). apply Rlt_bool_true. apply Rabs_le_inv in Hv, Hw. lra.
Qed.
Lemma jde_order64 d1 d2 u1 u2 : instant d1 u1 -> instant d2 u2 -> in_range u1 = true -> in_range u2 = true -> (u1 + 300 <= u2)%Z ->
  exists x y, get_julian_ephemeris_day (N := N) d1 = Ok x /\ get_julian_ephemeris_day (N := N) d2 = Ok y /\ Bltb x y = true.
Proof.
  intros I1 I2 R1 R2 H. apply (order64 d1 d2 u1 u2 1.7e-9 300); try assumption; try lia; try lra; [apply (julian64 d1 u1)|apply (julian64 d2 u2)]; assumption.
Qed.
Lemma jde_order64_modern d1 d2 u1 u2 : instant d1 u1 -> instant d2 u2 -> (midnight 1834 1 1 <= u1)%Z -> (u2 < midnight 2106 1 1)%Z -> (u1 + 54 <= u2)%Z ->
  exists x y, get_julian_ephemeris_day (N := N) d1 = Ok x /\ get_julian_ephemeris_day (N := N) d2 = Ok y /\ Bltb x y = true.
Proof.
  intros I1 I2 R1 R2 H. assert (IR : forall u, (midnight 1834 1 1 <= u < midnight 2106 1 1)%Z -> in_range u = true).
  { intros u B. unfold in_range. change (midnight 1834 1 1) with 57843849600000000%Z in B. change (midnight 2106 1 1) with 66427344000000000%Z in B.
    apply andb_true_intro. split; [apply Z.leb_le; lia|]. apply Z.ltb_lt. apply Z.lt_trans with 66427344000000000%Z; [lia|vm_compute; reflexivity]. }
  apply (order64 d1 d2 u1 u2 3.1e-10 54); try assumption; try lia; try lra; try (apply IR; lia); [apply (julian64_modern d1 u1)|apply (julian64_modern d2 u2)]; (assumption || lia).
Qed.

Lemma same_res (a b : res f64) x : rmap (fun x => B2SF x) a = rmap (fun x => B2SF x) b -> a = Ok x -> b = Ok x.
Proof. intros F ->. destruct b as [y|]; [|discriminate]. cbn in F. injection F as F. apply B2SF_inj in F. now subst. Qed.
(* one microsecond is not resolved *)
Definition us_a : datetime := mk 2020 6 21 12 0 0 0 (Some utc).
Definition us_b : datetime := mk 2020 6 21 12 0 0 1 (Some utc).
Lemma jde_equal64 : exists x, get_julian_ephemeris_day (N := N) us_a = Ok x /\ get_julian_ephemeris_day (N := N) us_b = Ok x.
Proof.
  assert (F : rmap (fun x => B2SF x) (get_julian_ephemeris_day (N := N) us_a) = rmap (fun x => B2SF x) (get_julian_ephemeris_day (N := N) us_b)) by (vm_compute; reflexivity).
  assert (U : exists u, instant us_a u /\ in_range u = true).
  { eexists. split; [do 2 eexists; (split; [reflexivity|]); (split; [reflexivity|]); (split; [reflexivity|reflexivity])|vm_compute; reflexivity]. }
  destruct U as (u & Hi & Hr). destruct (julian64 us_a u Hi Hr) as [(x & _ & E & _) _]. exists x. split; [exact E|].
  revert F E. apply same_res.
Qed.
End J.

Lemma julian_accuracy64 L d u : instant d u ->
  (in_range u = true ->
    (exists y r, get_julian_ephemeris_day (N := B64 L) d = Ok y /\ get_julian_ephemeris_day (N := MathR) d = Ok (Fin r) /\ near y r 1.7e-9) /\
    (exists y r, get_julian_solar_day (N := B64 L) d = Ok y /\ get_julian_solar_day (N := MathR) d = Ok (Fin r) /\ near y r 1.7e-9)) /\
  ((midnight 1834 1 1 <= u < midnight 2106 1 1)%Z ->
    (exists y r, get_julian_ephemeris_day (N := B64 L) d = Ok y /\ get_julian_ephemeris_day (N := MathR) d = Ok (Fin r) /\ near y r 3.1e-10) /\
    (exists y r, get_julian_solar_day (N := B64 L) d = Ok y /\ get_julian_solar_day (N := MathR) d = Ok (Fin r) /\ near y r 3.1e-10)).
Proof. intros H. split; intros K; [now apply (julian64 L d u)|now apply (julian64_modern L d u)]. Qed.
Lemma jde_not_strict64 L : exists d1 d2 u x,
  instant d1 u /\ instant d2 (u + 1) /\ in_range u = true /\
  get_julian_ephemeris_day (N := B64 L) d1 = Ok x /\ get_julian_ephemeris_day (N := B64 L) d2 = Ok x.
Proof.
  destruct (jde_equal64 L) as (x & A & B). exists us_a, us_b, (us_of_fields (mkfields 2020 6 21 12 0 0 0)), x.
  split; [do 2 eexists; (split; [reflexivity|]); (split; [reflexivity|]); (split; [reflexivity|vm_compute; reflexivity])|].
  split; [do 2 eexists; (split; [reflexivity|]); (split; [reflexivity|]); (split; [reflexivity|vm_compute; reflexivity])|].
  split; [vm_compute; reflexivity|]. now split.
Qed.
Lemma jde_strict64 L d1 d2 u1 u2 : instant d1 u1 -> instant d2 u2 ->
  (in_range u1 = true /\ in_range u2 = true /\ u1 + 300 <= u2 \/
   midnight 1834 1 1 <= u1 /\ u2 < midnight 2106 1 1 /\ u1 + 54 <= u2)%Z ->
  exists x y, get_julian_ephemeris_day (N := B64 L) d1 = Ok x /\ get_julian_ephemeris_day (N := B64 L) d2 = Ok y /\ Bltb x y = true.
Proof. intros I1 I2 [(A & B & C)|(A & B & C)]; [eapply jde_order64|eapply jde_order64_modern]; eassumption. Qed.

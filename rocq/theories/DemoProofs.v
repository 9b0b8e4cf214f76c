(* The demonstration loops in exact arithmetic. *)
From Coq Require Import Reals Qreals Lra Lia ZArith List Sorted.
From Flocq Require Import Core.
From Interval Require Import Tactic.
From Verif Require Import Py Num Cal TzCheck Clock Tables Constants SolarTime Solar Radiation Simulate Elevation ScriptText RInst RTac Demo SpecTime SpecDt SpecGeom SpecAstro SpecEng SpecDemo
  Trig GeoProofs SolarTimeProofs JulianProofs PositionProofs MotionProofs RadiationProofs RefractionProofs IrradianceProofs FastProofs CrossProofs.
Import ListNotations.
Local Open Scope R_scope.

Lemma utc_instant u : instant (utc_datetime u) u.
Proof. exact (at_utc_instant u). Qed.
Lemma lit_lat : @lit MathR 42.364908 = Fin 42.364908. Proof. reflexivity. Qed.
Lemma lit_lon : @lit MathR (-71.112828) = Fin (-71.112828). Proof. reflexivity. Qed.
Lemma lit_0 : @lit MathR 0 = Fin 0. Proof. cbn. f_equal. unfold Q2R; simpl; lra. Qed.

Lemma round_cases u : in_range u = true ->
  (exists alt az p, shows (utc_datetime u) alt az p /\
     solar_test_round (N := MathR) (utc_datetime u) = Ok (if Rlt_dec 0 alt then Some (mkrow (utc_datetime u) (Fin alt : T MathR) (Fin az) (Fin p)) else None) /\
     -90 <= alt <= 90 /\ 0 <= az < 360 /\ (0 < alt -> 0 < p < 1235) /\ (alt <= 0 -> p = 0)) \/
  (exists x, fails (utc_datetime u) x /\ (x = ZeroDivisionError \/ x = OverflowError) /\ solar_test_round (N := MathR) (utc_datetime u) = Err x).
Proof.
  intros Hr. set (d := utc_datetime u). assert (Hi : instant d u) by apply utc_instant.
  destruct (azimuth_total 42.364908 (-71.112828) d 0 u Hi Hr ltac:(lra) ltac:(lra)) as (dec & ha & az & e & E1 & _ & E2 & E3 & _ & A & B).
  assert (EA : get_altitude (N := MathR) (Fin 42.364908) (Fin (-71.112828)) d (Fin 0) standard_temperature standard_pressure =
    (r <- get_refraction_correction (N := MathR) standard_pressure standard_temperature (Fin e) ;; Ok (add (n := MathR) (Fin e) r))).
  { unfold get_altitude. now rewrite (instant_aware d u Hi), bind_Ok, E1, bind_Ok, E2, bind_Ok. }
  unfold solar_test_round, get_altitude_default, get_azimuth_default. rewrite lit_lat, lit_lon, lit_0.
  unfold shows, fails. rewrite E3. destruct (get_refraction_correction (N := MathR) standard_pressure standard_temperature (Fin e)) as [r|x] eqn:ER.
  2:{ rewrite EA. cbn [bind]. right. exists x. split; [left; reflexivity|]. split; [|reflexivity]. left.
      rewrite std_P, std_T in ER. destruct (refraction_raises_exactly 101325 288.15 e ltac:(lra)) as (_ & K & _). exact (K x ER). }
  destruct (std_refraction_returns e r B ER) as (x & -> & BA & _). rewrite EA. cbn [bind]. rewrite add_R. cbn [bind].
  set (alt := e + x) in *. destruct (civil_clock_exists u) as (day & h & m & Hc).
  destruct (Rlt_dec 0 alt) as [P|P].
  - destruct (proj1 (radiation_day d u day h m Hi Hr Hc) alt ltac:(lra)) as (p & f & EP & _ & _ & BP & BP').
    left. exists alt, az, p. rewrite EP. cbn [bind]. split; [auto|]. split.
    { cbn [lt MathR truth bind]. unfold xlt. rewrite Rbool_lt_true by exact P. cbn [bind]. destruct (Rlt_dec 0 alt); [reflexivity|lra]. }
    repeat split; try lra.
  - destruct (proj2 (radiation_night_partial d u alt Hi Hr) ltac:(lra)) as [EP|EP].
    + left. exists alt, az, 0. rewrite EP. cbn [bind]. split; [auto|]. split.
      { cbn [lt MathR truth bind]. unfold xlt. rewrite Rbool_lt_false by lra. cbn [bind]. destruct (Rlt_dec 0 alt); [lra|reflexivity]. }
      repeat split; lra.
    + right. exists OverflowError. rewrite EP. cbn [bind]. split; [right; exists alt; auto|]. split; [now right|reflexivity].
Qed.

Definition later (u : Z) (k : nat) : Z := (u + 1800000000 * Z.of_nat k)%Z.
Lemma later_S u k : later u (S k) = later (u + 1800000000) k. Proof. unfold later. lia. Qed.
Lemma later_0 u : later u 0 = u. Proof. unfold later. lia. Qed.

Definition outcome n u (g : gen (row MathR)) : Prop := exists m ks, (m <= n)%nat /\
  (forall k, (k < m)%nat -> in_range (later u k) = true /\ exists alt az p, shows (utc_datetime (later u k)) alt az p) /\
  StronglySorted Nat.lt ks /\
  (forall k, In k ks <-> (k < m)%nat /\ exists alt az p, shows (utc_datetime (later u k)) alt az p /\ 0 < alt) /\
  Forall2 (fun k (r : row MathR) => exists alt az p, shows (utc_datetime (later u k)) alt az p /\
      r = mkrow (utc_datetime (later u k)) (Fin alt : T MathR) (Fin az) (Fin p) /\ 0 < alt <= 90 /\ 0 <= az < 360 /\ 0 < p < 1235) ks (g_items g) /\
  ((m = n /\ (n = 0%nat \/ in_range (later u n) = true) /\ g_end g = Ok tt) \/
   (in_range (later u m) = false /\ g_end g = Err OverflowError) \/
   (exists x, (m < n)%nat /\ in_range (later u m) = true /\ fails (utc_datetime (later u m)) x /\ (x = ZeroDivisionError \/ x = OverflowError) /\ g_end g = Err x)).

Lemma add_utc u : dt_add (utc_datetime u) 1800000000 = if in_range (u + 1800000000) then Ok (utc_datetime (u + 1800000000)) else Err OverflowError.
Proof. reflexivity. Qed.

Lemma shows_inj d alt az p alt' az' p' : shows d alt az p -> shows d alt' az' p' -> alt = alt'.
Proof. intros (H & _) (H' & _). rewrite H in H'. apply (f_equal (fun r => match r with Ok (Fin x) => x | _ => 0 end)) in H'. exact H'. Qed.

Lemma loop_outcome n : forall u, in_range u = true -> outcome n u (solar_test_loop n (utc_datetime u)).
Proof.
  induction n as [|n IH]; intros u Hr.
  { exists 0%nat, []. split; [lia|]. split; [lia|]. split; [constructor|]. split; [intros k; split; [intros []|lia]|]. split; [constructor|]. left. auto. }
  cbn [solar_test_loop]. destruct (round_cases u Hr) as [(alt & az & p & Sh & E & B1 & B2 & B3 & B4)|(x & Fx & Hx & E)]; rewrite E; cbn beta iota.
  2:{ exists 0%nat, []. split; [lia|]. split; [lia|]. split; [constructor|]. split; [intros k; split; [intros []|lia]|]. split; [constructor|].
      right. right. exists x. rewrite later_0. repeat split; auto. lia. }
  rewrite add_utc. set (pr := match (if Rlt_dec 0 alt then Some (mkrow (utc_datetime u) (Fin alt : T MathR) (Fin az) (Fin p)) else None) with Some r => [r] | None => [] end).
  set (k0 := if Rlt_dec 0 alt then [0%nat] else []).
  assert (F0 : Forall2 (fun k (r : row MathR) => exists alt az p, shows (utc_datetime (later u k)) alt az p /\
      r = mkrow (utc_datetime (later u k)) (Fin alt : T MathR) (Fin az) (Fin p) /\ 0 < alt <= 90 /\ 0 <= az < 360 /\ 0 < p < 1235) k0 pr).
  { unfold k0, pr. destruct (Rlt_dec 0 alt) as [P|P]; [|constructor]. constructor; [|constructor]. rewrite later_0. exists alt, az, p. repeat split; auto; try lra; apply Sh. }
  assert (I0 : forall k, In k k0 <-> (k < 1)%nat /\ exists alt az p, shows (utc_datetime (later u k)) alt az p /\ 0 < alt).
  { intros k. unfold k0. split.
    - destruct (Rlt_dec 0 alt) as [P|P]; [|intros []]. intros [<-|[]]. split; [lia|]. rewrite later_0. eauto 6.
    - intros [K (a & z & q & Sk & Pa)]. assert (k = 0%nat) by lia. subst k. rewrite later_0 in Sk. rewrite <- (shows_inj _ _ _ _ _ _ _ Sh Sk) in Pa. destruct (Rlt_dec 0 alt); [now left|contradiction]. }
  destruct (in_range (u + 1800000000)) eqn:Hr'; cbn beta iota.
  - destruct (IH _ Hr') as (m & ks & M & All & So & Ks & F & En). cbn [g_items g_end]. exists (S m), (k0 ++ map S ks).
    split; [lia|]. split.
    { intros [|k] Hk; [rewrite later_0; eauto 6|]. rewrite later_S. apply All. lia. }
    split.
    { assert (SS : StronglySorted Nat.lt (map S ks)). { clear -So. induction So as [|a l _ IHl Fa]; cbn; constructor; [exact IHl|]. rewrite Forall_map. eapply Forall_impl; [|exact Fa]. intros b Hb. cbn. lia. }
      unfold k0. destruct (Rlt_dec 0 alt); [|exact SS]. cbn [app]. constructor; [exact SS|]. rewrite Forall_map. apply Forall_forall. intros; lia. }
    split.
    { intros k. rewrite in_app_iff, in_map_iff. split.
      - intros [K|(j & <- & K)].
        + apply I0 in K. destruct K as [K K']. split; [lia|exact K'].
        + apply Ks in K. rewrite later_S. destruct K as [K K']. split; [lia|exact K'].
      - intros [K K']. destruct k as [|k]; [left; apply I0; split; [lia|exact K']|]. right. exists k. split; [reflexivity|]. apply Ks. rewrite later_S in K'. split; [lia|exact K']. }
    split.
    { apply Forall2_app; [exact F0|]. revert F. generalize (g_items (solar_test_loop (N := MathR) n (utc_datetime (u + 1800000000)))). clear. intros l F. induction F as [|k r ks l H F IHF]; cbn; constructor; [|exact IHF]. rewrite !later_S. exact H. }
    rewrite !later_S. destruct En as [(-> & _ & En)|[(O & En)|(x & Mn & Rm & Fx & Hx & En)]].
    + destruct n as [|n].
      * left. repeat split; auto. right. rewrite later_0. exact Hr'.
      * destruct (in_range (later (u + 1800000000) (S n))) eqn:Rn; [left; auto|]. exfalso.
        destruct (IH _ Hr') as (m' & ks' & M' & _ & _ & _ & _ & [(-> & [Z|Z] & _)|[(_ & En')|(x & _ & _ & _ & _ & En')]]); [discriminate|congruence|congruence|congruence].
    + right. left. auto.
    + right. right. exists x. repeat split; auto. lia.
  - exists 1%nat, k0. split; [lia|]. split. { intros k Hk. assert (k = 0%nat) by lia. subst k. rewrite later_0. eauto 6. }
    split. { unfold k0. destruct (Rlt_dec 0 alt); repeat constructor. }
    split; [exact I0|]. split; [exact F0|]. right. left. rewrite later_S, later_0. auto.
Qed.
Lemma solar_test_outcome u : in_range u = true -> exists m ks, (m <= 48)%nat /\
  (forall k, (k < m)%nat -> in_range (later u k) = true /\ exists alt az p, shows (utc_datetime (later u k)) alt az p) /\
  StronglySorted Nat.lt ks /\
  (forall k, In k ks <-> (k < m)%nat /\ exists alt az p, shows (utc_datetime (later u k)) alt az p /\ 0 < alt) /\
  Forall2 (fun k (r : row MathR) => exists alt az p, shows (utc_datetime (later u k)) alt az p /\
      r = mkrow (utc_datetime (later u k)) (Fin alt : T MathR) (Fin az) (Fin p) /\ 0 < alt <= 90 /\ 0 <= az < 360 /\ 0 < p < 1235) ks (g_items (solar_test (utc_datetime u))) /\
  ((m = 48%nat /\ in_range (later u 48) = true /\ g_end (solar_test (N := MathR) (utc_datetime u)) = Ok tt) \/
   (in_range (later u m) = false /\ g_end (solar_test (N := MathR) (utc_datetime u)) = Err OverflowError) \/
   (exists x, (m < 48)%nat /\ in_range (later u m) = true /\ fails (utc_datetime (later u m)) x /\ (x = ZeroDivisionError \/ x = OverflowError) /\
      g_end (solar_test (N := MathR) (utc_datetime u)) = Err x)).
Proof.
  intros Hr. destruct (loop_outcome 48 u Hr) as (m & ks & H1 & H2 & H3 & H4 & H5 & H6). exists m, ks. do 5 (split; [assumption|]).
  destruct H6 as [(E & [Z|R] & G)|H6]; [discriminate Z|left; auto|right; exact H6].
Qed.

Lemma altitude_irradiance d u lat lon alt : instant d u -> in_range u = true -> -90 <= lat <= 90 ->
  get_altitude (N := MathR) (Fin lat) (Fin lon) d (Fin 0) standard_temperature standard_pressure = Ok (Fin alt) ->
  -90 <= alt <= 90 /\
  (0 < alt -> exists p, get_radiation_direct (N := MathR) (C := clock_math MathR) d (Fin alt) = Ok (Fin p) /\ 0 < p < 1235) /\
  (alt <= -0.017 \/ alt = 0 -> get_radiation_direct (N := MathR) (C := clock_math MathR) d (Fin alt) = Ok (Fin 0)) /\
  (-0.017 < alt < 0 -> get_radiation_direct (N := MathR) (C := clock_math MathR) d (Fin alt) = Ok (Fin 0) \/
    get_radiation_direct (N := MathR) (C := clock_math MathR) d (Fin alt) = Err OverflowError).
Proof.
  intros Hi Hr Hlat HA. destruct (azimuth_total lat lon d 0 u Hi Hr Hlat ltac:(lra)) as (dec & ha & az & e & E1 & _ & E2 & _ & _ & _ & B).
  assert (R : -90 <= alt <= 90).
  { revert HA. unfold get_altitude. rewrite (instant_aware d u Hi), bind_Ok, E1, bind_Ok, E2, bind_Ok.
    destruct (get_refraction_correction (N := MathR) standard_pressure standard_temperature (Fin e)) as [r|x] eqn:ER; [|discriminate].
    destruct (std_refraction_returns e r B ER) as (x & -> & BA & _). rewrite bind_Ok, add_R. intros HA.
    apply (f_equal (fun r => match r with Ok (Fin x) => x | _ => 0 end)) in HA. cbn beta iota in HA. lra. }
  split; [exact R|]. destruct (civil_clock_exists u) as (day & h & m & Hc). split; [|split].
  - intros P. destruct (proj1 (radiation_day d u day h m Hi Hr Hc) alt ltac:(lra)) as (p & f & EP & _ & _ & BP & BP'). exists p. split; [exact EP|lra].
  - intros P. apply (proj1 (radiation_night_partial d u alt Hi Hr)). lra.
  - intros P. apply (proj2 (radiation_night_partial d u alt Hi Hr)). lra.
Qed.

Lemma loop_stops n d x : solar_test_round (N := MathR) d = Err x -> solar_test_loop (N := MathR) (S n) d = mkgen [] (Err x).
Proof. intros E. cbn [solar_test_loop]. now rewrite E. Qed.
Lemma solar_test_crash (n : Z) : (0 <= n < 3652059)%Z -> exists u, (n * 86400000000 <= u < (n + 1) * 86400000000)%Z /\
  solar_test (N := MathR) (utc_datetime u) = mkgen [] (Err OverflowError).
Proof.
  intros Hn. destruct (crash_each_day n 42.364908 (-71.112828) Hn ltac:(lra)) as (u & Hu & P). exists u. split; [exact Hu|].
  destruct (P _ (utc_instant u)) as (alt & EA & _ & EP). assert (Hr := day_in_range n u Hn Hu).
  destruct (round_cases u Hr) as [(alt' & az & p & (Sh & _ & Sp) & _)|(x & Fx & _ & E)].
  { rewrite EA in Sh. apply (f_equal (fun r => match r with Ok (Fin x) => x | _ => 0 end)) in Sh. cbn in Sh. subst alt'. rewrite EP in Sp. discriminate. }
  rewrite (loop_stops 47 _ x E : solar_test (utc_datetime u) = _). f_equal. f_equal.
  destruct Fx as [Fx|(alt' & Sh & Sp)]; [rewrite EA in Fx; discriminate|]. rewrite EA in Sh.
  apply (f_equal (fun r => match r with Ok (Fin x) => x | _ => 0 end)) in Sh. cbn in Sh. subst alt'. rewrite EP in Sp. now inversion Sp.
Qed.

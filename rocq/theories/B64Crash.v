(* Just below the horizon the irradiance overflows in binary64 too, every day. *)
From Coq Require Import Reals Qreals Lra Lia List.
From Flocq Require Import Core IEEE754.BinarySingleNaN.
From Interval Require Import Tactic.
From Verif Require Import Py Num Cal TzCheck Clock Constants SolarTime Solar Radiation Simulate Demo RInst RTac SpecTime SpecDt SpecGeom SpecAstro SpecEng SpecDemo Trig
  SolarTimeProofs PositionProofs FastProofs RadiationProofs RefractionProofs MotionProofs CrossProofs DemoProofs
  B64 SpecB64 B64Lemmas B64Witness B64Ranges B64Lift B64Final B64Fast B64Rad.
Import ListNotations.
Local Open Scope R_scope.

Section L.
Context (L : libm) (HC : correctly_rounded L).
Local Notation N := (B64 L).
Let HL : accurate L := cr_accurate L HC.

Lemma exp_overflow (x : f64) y : val x y -> 715 <= y -> nexp (n := N) x = Err OverflowError.
Proof.
  intros [F V] Y. cbn [nexp B64]. unfold math_1. pose proof (cr_exp L HC x F) as E. rewrite V in E. unfold nearest in E.
  assert (G : bpow radix2 1024 <= rnd (exp y)).
  { rewrite <- (rnd_id (bpow radix2 1024)) by (apply generic_format_bpow; unfold FLT_exp; lia). apply round_le; try typeclasses eauto.
    apply Rle_trans with (exp 715); [change (bpow radix2 1024) with (IZR (2 ^ 1024)); interval with (i_prec 60)|].
    destruct Y as [Y|<-]; [left; now apply exp_increasing|lra]. }
  pose proof (bpow_gt_0 radix2 1024). rewrite Rlt_bool_false in E by (rewrite Rabs_pos_eq; lra). rewrite E, F. reflexivity.
Qed.

Lemma radiation_crash64 dt u x a : instant dt u -> in_range u = true -> val x a -> -0.011 <= a <= -1e-270 ->
  get_radiation_direct (N := N) (C := clock_math N) dt x = Err OverflowError.
Proof.
  intros Hi Hr V B. destruct (civil_clock_exists u) as (day & h & m & Hc). destruct (yday_bounds u day h m Hc) as (Y & _ & _).
  destruct (clock64 L dt u day h m Hi Hr Hc) as (AW & C1 & _ & _).
  destruct (day_parts64 L HL day Y) as (qf & qo & f & o & RF & VF & EF & RO & VO & EO).
  assert (BA : 1e-270 <= Rabs a <= 90) by (rewrite Rabs_left1; lra).
  destruct (exponent64 L HL x a day qo o V BA VO EO) as (q & RQ & (y & VY & EY)). set (qx := mul (n := N) (mul (n := N) (neg (n := N) (lit (n := N) 1)) qo) q) in *.
  pose proof (depth_range (IZR day)) as DR. set (k := masters_depth (IZR day)) in *. clearbody k.
  assert (Ps : 0 < sind (- a)) by (apply sind_pos; lra).
  assert (Ls : sind (- a) <= 0.000192).
  { apply Rle_trans with (sind 0.011).
    - destruct (Req_dec (- a) 0.011) as [->|]; [lra|]. left. apply sind_incr; lra.
    - unfold sind. interval. }
  assert (720 <= k / sind (- a)) as G.
  { apply Rmult_le_reg_r with (sind (- a)); [lra|]. replace (k / sind (- a) * sind (- a)) with k by (field; lra). lra. }
  replace (- (k / sind a)) with (k / sind (- a)) in EY by (rewrite sind_opp in *; field; lra).
  rewrite (Rabs_pos_eq (k / sind (- a))) in EY by lra. apply Rabs_le_inv in EY.
  pose proof (exp_overflow qx y VY ltac:(lra)) as X.
  unfold get_radiation_direct. rewrite C1. cbn [bind]. rewrite RF. cbn [bind]. rewrite RO. cbn [bind]. rewrite RQ. cbn [bind]. fold qx. rewrite X. reflexivity.
Qed.

Lemma crash_band_T e T : Rabs (e - -0.57) <= 0.0000000042 -> 288.1 <= T <= 288.2 -> -0.0107 <= e + refraction_formula 101325 T e <= -0.0003.
Proof.
  intros H HT. apply Rabs_le_inv in H. assert (B : -0.5700000043 <= e <= -0.5699999957) by lra. unfold refraction_formula, refraction_argument, cosd, sind. split; interval.
Qed.

Lemma std_T64 : exists T, val (standard_temperature (N := N)) T /\ 288.1 <= T <= 288.2.
Proof.
  exists (rnd (Q2R 288.15)). split.
  - apply val_lit. apply Rle_trans with (bpow radix2 9); [change (bpow radix2 9) with 512; unfold Q2R; simpl; rewrite Rabs_pos_eq; lra|apply bpow_le; lia].
  - assert (E : Rabs (rnd (Q2R 288.15) - Q2R 288.15) <= bpow radix2 (9 - 54)).
    { apply rnd_err; [lia|]. change (bpow radix2 9) with 512. unfold Q2R; simpl. rewrite Rabs_pos_eq; lra. }
    assert (bpow radix2 (9 - 54) <= 0.01). { change (bpow radix2 (9 - 54)) with (/ 35184372088832). lra. }
    apply Rabs_le_inv in E. assert (Q2R 288.15 = 288.15) by (unfold Q2R; simpl; lra). lra.
Qed.
Lemma std_P64 : val (standard_pressure (N := N)) 101325.
Proof. unfold standard_pressure. change (lit (n := N) 101325.00) with (flit 101325.00). replace 101325 with (rnd (Q2R 101325.00)).
  - apply val_lit. apply Rle_trans with (bpow radix2 17); [change (bpow radix2 17) with 131072; unfold Q2R; simpl; rewrite Rabs_pos_eq; lra|apply bpow_le; lia].
  - replace (Q2R 101325.00) with (IZR 101325) by (unfold Q2R; simpl; lra). apply rnd_id, fmt_Z. lia.
Qed.

Lemma crash_each_day64 (n : Z) lat lon x xo : (0 <= n < 3652059)%Z -> val x lat -> val xo lon -> -65 <= lat <= 65 -> -360 <= lon <= 360 ->
  exists u, (n * 86400000000 <= u < (n + 1) * 86400000000)%Z /\
    forall d, instant d u -> exists q a,
      get_altitude_default (N := N) x xo d = Ok q /\ val q a /\ -0.011 <= a < 0 /\
      (exists z, get_azimuth_default (N := N) x xo d = Ok z) /\
      get_radiation_direct (N := N) (C := clock_math N) d q = Err OverflowError.
Proof.
  intros Hn Vx Vo Hlat Hlon. destruct (every_level n lat lon 0 (-0.57) Hn Hlat ltac:(lra) ltac:(lra)) as (u & Hu & P). exists u. split; [exact Hu|].
  assert (Hr := day_in_range n u Hn Hu). assert (V0 : val (lit (n := N) 0) 0) by exact (val_int 0 ltac:(lia)).
  destruct std_T64 as (T & VT & BT). pose proof std_P64 as VP.
  intros d Hi. destruct (P d Hi) as (dec & ha & e & E1 & E2 & B). pose proof (crash_band_T e T B BT) as C. apply Rabs_le_inv in B.
  assert (NE : ~ (-5.21 < e < -4.99)) by lra. assert (FE : 1e-5 <= Rabs (e + 0.83337)) by (rewrite Rabs_pos_eq; lra).
  assert (CE : Rabs e <= 89) by (rewrite Rabs_left1; lra).
  destruct (altitude_accuracy64 L HL lat lon 0 x xo _ d u _ T _ 101325 dec ha e Hi Hr Vx Vo V0 ltac:(lra) Hlon ltac:(lra) VT VP ltac:(lra) ltac:(lra) E1 E2 NE FE)
    as [(q & a & a' & EQ & VQ & EA & _ & D & _)|(_ & D)]; [|exfalso; lra].
  assert (EA' : a' = e + refraction_formula 101325 T e).
  { revert EA. unfold get_altitude. rewrite (instant_aware d u Hi), bind_Ok, E1, bind_Ok, E2, bind_Ok, refraction_above, bind_Ok by lra. rewrite add_R.
    intros EA. apply (f_equal (fun r => match r with Ok (Fin x) => x | _ => 0 end)) in EA. cbn beta iota in EA. now rewrite EA. }
  specialize (D CE). apply Rabs_le_inv in D.
  destruct (azimuth_accuracy64 L HL lat lon 0 x xo _ d u dec ha e Hi Vx Vo V0 ltac:(lra) Hlon ltac:(lra) E1 E2) with (c := 2e-6) as (z & _ & _ & _ & EZ & _).
  { assert (-0.5700000043 <= e <= -0.5699999957) by lra. unfold cosd. interval. }
  { left. auto. }
  exists q, a. split; [exact EQ|]. split; [exact VQ|]. split; [lra|]. split; [exists z; exact EZ|].
  apply (radiation_crash64 d u q a Hi Hr VQ). lra.
Qed.

Lemma lit_near (q : Q) r : Q2R q = r -> Rabs r <= 128 -> exists v, val (lit (n := N) q) v /\ Rabs (v - r) <= 0.001.
Proof.
  intros <- B. exists (rnd (Q2R q)). split.
  - apply val_lit. eapply Rle_trans; [exact B|]. change 128 with (bpow radix2 7). apply bpow_le; lia.
  - eapply Rle_trans; [apply (rnd_err _ 7); [lia|exact B]|]. change (bpow radix2 (7 - 54)) with (/ 140737488355328). lra.
Qed.

Lemma loop_stops64 n d x : solar_test_round (N := N) d = Err x -> solar_test_loop (N := N) (S n) d = mkgen [] (Err x).
Proof. intros E. cbn [solar_test_loop]. now rewrite E. Qed.

Lemma solar_test_crash64 (n : Z) : (0 <= n < 3652059)%Z -> exists u, (n * 86400000000 <= u < (n + 1) * 86400000000)%Z /\
  solar_test (N := N) (utc_datetime u) = mkgen [] (Err OverflowError).
Proof.
  intros Hn. destruct (lit_near 42.364908 42.364908 ltac:(unfold Q2R; simpl; lra) ltac:(rewrite Rabs_pos_eq; lra)) as (lat & Vlat & Blat).
  destruct (lit_near (-71.112828) (-71.112828) ltac:(unfold Q2R; simpl; lra) ltac:(rewrite Rabs_left1; lra)) as (lon & Vlon & Blon).
  apply Rabs_le_inv in Blat, Blon.
  destruct (crash_each_day64 n lat lon _ _ Hn Vlat Vlon ltac:(lra) ltac:(lra)) as (u & Hu & P). exists u. split; [exact Hu|].
  destruct (P _ (utc_instant u)) as (q & a & EA & _ & _ & (z & EZ) & EP).
  apply (loop_stops64 47). unfold solar_test_round. rewrite EA. cbn [bind]. rewrite EZ. cbn [bind]. rewrite EP. reflexivity.
Qed.
End L.

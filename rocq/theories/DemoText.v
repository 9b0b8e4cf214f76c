(* The text printed by elevation_test, in exact arithmetic and in binary64. *)
From Coq Require Import Reals Qreals Lra Lia ZArith List Ascii String.
From Flocq Require Import Core IEEE754.BinarySingleNaN.
From Interval Require Import Tactic.
From Verif Require Import Py Num Constants Simulate Elevation ScriptText RInst RTac Demo SpecDemo IrradianceProofs B64 SpecB64 B64Lemmas B64Ranges B64Lift B64Sunrise B64Elev.
Import ListNotations.
Local Open Scope R_scope.

Lemma trunc_is (n : Z) r : (0 <= n)%Z -> IZR n <= r < IZR n + 1 -> Ztrunc r = n.
Proof. intros Hn H. apply IZR_le in Hn. rewrite Ztrunc_floor by lra. apply Zfloor_imp. rewrite plus_IZR. lra. Qed.

Definition levels : list (Z * Z * Z) :=
  [(0, 101325, 288); (1000, 89874, 281); (2000, 79495, 275); (3000, 70108, 268); (4000, 61640, 262); (5000, 54019, 255); (6000, 47181, 249);
   (7000, 41060, 242); (8000, 35599, 236); (9000, 30742, 229); (10000, 26436, 223)]%Z.
Definition level_ok (l : Z * Z * Z) : Prop := let '(h, p, t) := l in (0 <= h <= 10000)%Z /\ (0 <= p)%Z /\ (0 <= t)%Z /\
  IZR t + 0.1 <= 288.15 - 0.0065 * IZR h <= IZR t + 0.9 /\ (h = 0%Z /\ p = 101325%Z \/ IZR p + 0.001 <= standard_atmosphere (IZR h) <= IZR p + 0.999).
Lemma levels_ok : Forall level_ok levels.
Proof.
  unfold levels. repeat (apply Forall_cons; [split; [lia|]; split; [lia|]; split; [lia|]; split; [lra|]|]); try apply Forall_nil.
  1: left; split; reflexivity. all: right; unfold standard_atmosphere; split; interval with (i_prec 60).
Qed.
Lemma lit_Z (h : Z) : @lit MathR (inject_Z h) = Fin (IZR h). Proof. cbn [lit MathR]. f_equal. unfold Q2R. cbn. lra. Qed.
Definition line_of (l : Z * Z * Z) : text := let '(h, p, t) := l in line [show_int h; txt " "; show_int p; txt " "; show_int t].

Lemma run_rows {N : Num} (toint : T N -> res Z) : (forall h p t, level_ok (h, p, t) -> elevation_test_round toint h = Ok (line_of (h, p, t))) ->
  elevation_test toint = mkgen (printed_lines elevation_lines) (Ok tt).
Proof.
  intros H. assert (G : forall l, Forall level_ok l -> gen_map (elevation_test_round toint) (map (fun x => fst (fst x)) l) = mkgen (map line_of l) (Ok tt)).
  { intros l F. induction F as [|[[h p] t] l K _ IH]; [reflexivity|]. cbn [map fst gen_map]. now rewrite (H h p t K), IH. }
  unfold elevation_test. change (map (fun k => k * 1000) (zrange 11))%Z with (map (fun x : Z * Z * Z => fst (fst x)) levels).
  rewrite (G levels levels_ok). cbn [g_items g_end]. f_equal.
Qed.

Lemma elevation_test_R : elevation_test (N := MathR) int_R = mkgen (printed_lines elevation_lines) (Ok tt).
Proof.
  apply (run_rows (N := MathR)). intros h p t (Hh & Hp & Ht & Bt & Bp). assert (HR : 0 <= IZR h <= 10000) by (split; apply IZR_le; lia).
  unfold elevation_test_round. rewrite lit_Z. destruct (proj1 pressure_default_correct (IZR h) ltac:(lra)) as (p' & t' & E1 & E2 & -> & _ & _ & -> & _).
  rewrite E1, E2. fold (standard_atmosphere (IZR h)). cbn [bind int_R].
  rewrite (trunc_is t (288.15 - 0.0065 * IZR h)) by (exact Ht || lra). rewrite (trunc_is p); [reflexivity|exact Hp|].
  destruct Bp as [[-> ->]|Bp]; [|lra]. unfold standard_atmosphere. replace ((288.15 - 0.0065 * 0) / 288.15) with 1 by (field; lra). unfold Rpower. rewrite ln_1, Rmult_0_r, exp_0. lra.
Qed.

Lemma int_64_val x r n : val x r -> (0 <= n)%Z -> IZR n <= r < IZR n + 1 -> int_64 x = Ok n.
Proof. intros [F B] Hn H. rewrite <- B in H. destruct x; cbn [int_64]; try discriminate; rewrite btrunc; f_equal; now apply trunc_is. Qed.

Lemma sea_level_64 L : (P <- pressure_default (N := B64 L) (lit (inject_Z 0)) ;; int_64 P) = Ok 101325%Z.
Proof. vm_compute. reflexivity. Qed.

Lemma elevation_test_64 L : accurate L -> elevation_test (N := B64 L) int_64 = mkgen (printed_lines elevation_lines) (Ok tt).
Proof.
  intros HL. apply (run_rows (N := B64 L)). intros h p t (Hh & Hp & Ht & Bt & Bp). assert (HR : 0 <= IZR h <= 10000) by (split; apply IZR_le; lia).
  unfold elevation_test_round. assert (V : val (lit (n := B64 L) (inject_Z h)) (IZR h)) by (apply val_int; lia).
  destruct (elevation64 L HL (lit (n := B64 L) (inject_Z h)) (IZR h) V ltac:(lra)) as (q & pr & p' & w & E & _ & VP & EM & PP & EP & tt' & VT & ET).
  assert (EQ : pressure_default (N := B64 L) (lit (inject_Z h)) = Ok q). { unfold pressure_default, get_pressure_with_elevation. rewrite E. reflexivity. }
  assert (IT : int_64 (temperature_default (N := B64 L) (lit (inject_Z h))) = Ok t). { apply (int_64_val _ tt'); [exact VT|exact Ht|]. apply Rabs_le_inv in ET. lra. }
  assert (IP : int_64 q = Ok p).
  { destruct Bp as [[-> ->]|Bp].
    - pose proof (sea_level_64 L) as Z. rewrite EQ in Z. exact Z.
    - destruct (proj1 pressure_default_correct (IZR h) ltac:(lra)) as (p2 & t2 & E1 & _ & -> & _ & _ & -> & _). rewrite EM in E1. fold (standard_atmosphere (IZR h)) in E1.
      apply Ok_inj in E1. apply (f_equal (fun x => match x with Fin r => r | _ => 0 end)) in E1. cbn beta iota in E1. subst p'.
      apply (int_64_val _ pr); [exact VP|exact Hp|]. apply Rabs_le_inv in EP.
      assert (standard_atmosphere (IZR h) <= 110000) by (unfold standard_atmosphere; interval). lra. }
  rewrite EQ. cbn [bind]. rewrite IP. cbn [bind]. rewrite IT. reflexivity.
Qed.

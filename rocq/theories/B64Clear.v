(* global_irradiance_clear in binary64.  The standard temperature 288.15 is not a double: the two runs refract for
   temperatures that differ by a rounding. *)
From Coq Require Import Reals Qreals Lra Lia List.
From Flocq Require Import Core IEEE754.BinarySingleNaN.
From Interval Require Import Tactic.
From Verif Require Import Py Num Cal TzCheck Clock SolarTime Solar Constants Util RInst RTac SpecTime SpecDt SpecGeom SpecEng Trig GeoProofs CalProofs GenProofs FastProofs IrradianceProofs B64 SpecB64 B64Lemmas B64Witness
  B64Ranges Rel Absint AbsintSound B64Lift B64Topo B64Pos B64Horiz AngleLip B64Fast Samples RefractionProofs PositionProofs B64Final B64End B64FastAz SpaProofs SpecNear B64Util.
Import ListNotations.
Local Open Scope R_scope.

Definition E_std : Z := Eval vm_compute in (281 * SC / 10 ^ 8 + 1)%Z.
Definition F_diff : lfun := fun N l => match l with
  | [a; TL; KD] => Ok [mul (mul KD (add (add (lit (-21.657)) (mul (lit 41.752) TL)) (mul (mul (lit 0.51905) TL) TL))) a]
  | _ => Err Unmodelled
  end.
Lemma F_diff_rel : lrel F_diff. Proof. lrel_tac F_diff. Qed.
Definition O_diff : abs_val := Eval vm_compute in nth 0 (outputs (F_diff AI [up_in E_std; exact_in (1 * SC); O_kd])) Top.
Lemma diff_ok : F_diff AI [up_in E_std; exact_in (1 * SC); O_kd] = Ok [O_diff]. Proof. vm_compute. reflexivity. Qed.
Lemma O_diff_fits : fits O_diff NoPer (-6000) 6000 181 1000000 = true. Proof. vm_compute. reflexivity. Qed.
Lemma E_std_ok : 2.81e-6 <= zr E_std.
Proof.
  apply Rle_trans with (IZR 281 / 100000000); [lra|]. unfold zr. apply Rmult_le_reg_r with (IZR SC * 100000000); [pose proof SC_pos; lra|].
  replace (IZR 281 / 100000000 * (IZR SC * 100000000)) with (IZR (281 * SC)) by (rewrite mult_IZR; field). replace (IZR E_std / IZR SC * (IZR SC * 100000000)) with (IZR (E_std * 100000000)) by (rewrite mult_IZR; field; pose proof SC_pos; lra).
  apply IZR_le. vm_compute. discriminate.
Qed.

(* the refraction for two nearby temperatures *)
Lemma refraction_temperature P T T' e : 0 <= P <= 110000 -> 180 <= T <= 340 -> 180 <= T' <= 340 -> 0 <= e <= 89 ->
  Rabs (refraction_formula P T e - refraction_formula P T' e) <= 0.01 * Rabs (T - T').
Proof.
  intros HP HT HT' He.
  assert (B : 0 <= refraction_formula P T e <= 1.3) by (destruct (Rle_dec e 45) as [K|K]; [apply lift_low; lra|pose proof (lift_high P T e HP HT ltac:(lra)); lra]).
  assert (EQ : refraction_formula P T e - refraction_formula P T' e = refraction_formula P T e * ((T' - T) / T')).
  { unfold refraction_formula. set (c := cosd _ / _). clearbody c. field. lra. }
  rewrite EQ, Rabs_mult. unfold Rdiv. rewrite Rabs_mult, Rabs_inv, (Rabs_pos_eq T'), (Rabs_minus_sym T'), (Rabs_pos_eq (refraction_formula _ _ _)) by lra.
  assert (I : 0 <= / T' <= / 180) by (split; [left; apply Rinv_0_lt_compat; lra|apply Rinv_le_contravar; lra]).
  set (f := refraction_formula P T e) in *. clearbody f. pose proof (Rabs_pos (T - T')) as AP. set (D := Rabs (T - T')) in *. clearbody D. set (i := / T') in *. clearbody i.
  replace (f * (D * i)) with (f * i * D) by ring. apply Rmult_le_compat_r; [exact AP|]. apply Rle_trans with (1.3 * / 180); [apply Rmult_le_compat; lra|lra].
Qed.

Section L.
Variable L : libm.
Hypothesis HL : accurate L.
Notation N := (B64 L).

Lemma std_temperature64 : exists t, val (standard_temperature (N := N)) t /\ Rabs (t - 288.15) <= 1e-13.
Proof.
  assert (V : val (flit 288.15) (rnd (Q2R 288.15))).
  { apply val_lit. rewrite Rabs_pos_eq by lra. apply Rle_trans with (bpow radix2 9); [change (bpow radix2 9) with 512; lra|now apply bpow_le]. }
  exists (rnd (Q2R 288.15)). split; [exact V|]. eapply Rle_trans; [apply rnd_rel|].
  assert (P53' : bpow radix2 (-53) <= 1.2e-16) by (change (bpow radix2 (-53)) with (/ 9007199254740992); lra).
  assert (X2 : bpow radix2 (-1074) <= 1e-17) by (rewrite bpow_small; interval).
  rewrite Rabs_pos_eq by lra. lra.
Qed.
Lemma exact_lit q z : Q2R q = IZR z -> (Z.abs z <= 2 ^ 53)%Z -> val (flit q) (IZR z).
Proof.
  intros EQ H. rewrite <- (rnd_int z) by exact H. rewrite <- EQ. apply val_lit. rewrite EQ, <- abs_IZR.
  apply Rle_trans with (bpow radix2 53); [|now apply bpow_le]. change (bpow radix2 53) with (IZR (2 ^ 53)). now apply IZR_le.
Qed.

Lemma std_altitude64 lat lon el x xo xe dt u dec ha E : instant dt u -> in_range u = true ->
  val x lat -> val xo lon -> val xe el -> -90 <= lat <= 90 -> -360 <= lon <= 360 -> -100000 <= el <= 100000 ->
  get_topocentric_position (N := MathR) (Fin lat) (Fin lon) dt (Fin el) = Ok (Fin dec, Fin ha) ->
  get_topocentric_elevation_angle (N := MathR) (Fin lat) (Fin dec) (Fin ha) = Ok (Fin E) -> 0.00001 <= E <= 89 ->
  exists q a a', get_altitude (N := N) x xo dt xe standard_temperature standard_pressure = Ok q /\ val q a /\
    get_altitude (N := MathR) (Fin lat) (Fin lon) dt (Fin el) standard_temperature standard_pressure = Ok (Fin a') /\
    0 <= a <= 90 /\ 0 <= a' <= 90 /\ Rabs (a - a') <= 2.81e-6.
Proof.
  intros Hi Hr Vx Vo Ve Hlat Hlon Hel E1 E2 HE.
  destruct std_temperature64 as (T & VT & HT). assert (VP : val (standard_pressure (N := N)) 101325) by (apply (exact_lit 101325.00 101325); [unfold Q2R; simpl; lra|lia]).
  pose proof (Rabs_le_inv _ _ HT) as BT. set (T0 := 288.15) in *. assert (HT0 : T0 = 288.15) by reflexivity. clearbody T0.
  assert (W : ~ (-5.21 < E < -4.99)) by lra. assert (G : 1e-5 <= Rabs (E + 0.83337)) by (rewrite Rabs_pos_eq; lra).
  assert (A89 : Rabs E <= 89) by (rewrite Rabs_pos_eq; lra).
  destruct (altitude_accuracy64 L HL lat lon el x xo xe dt u _ T _ 101325 dec ha E Hi Hr Vx Vo Ve Hlat Hlon Hel VT VP ltac:(lra) ltac:(lra) E1 E2 W G)
    as [(q & a & a1 & Q1 & V & Q2 & _ & B1 & _)|(_ & N0)]; [|rewrite Rabs_pos_eq in N0; lra].
  specialize (B1 A89).
  assert (AV : forall T, 180 <= T <= 340 -> get_altitude (N := MathR) (Fin lat) (Fin lon) dt (Fin el) (Fin T) (Fin 101325) = Ok (Fin (E + refraction_formula 101325 T E))).
  { intros T1 H1. unfold get_altitude. now rewrite (instant_aware dt u Hi), bind_Ok, E1, bind_Ok, E2, bind_Ok, refraction_above, bind_Ok, add_R by lra. }
  rewrite (AV T ltac:(lra)) in Q2. apply Ok_inj, Fin_inj in Q2. subst a1.
  assert (ST : standard_temperature (N := MathR) = Fin T0) by (unfold standard_temperature; rewrite lit_R, HT0; f_equal; unfold Q2R; simpl; lra).
  assert (SP : standard_pressure (N := MathR) = Fin 101325) by (unfold standard_pressure; rewrite lit_R; f_equal; unfold Q2R; simpl; lra).
  exists q, a, (E + refraction_formula 101325 T0 E). split; [exact Q1|]. split; [exact V|]. split; [rewrite ST, SP; apply AV; lra|].
  pose proof (apparent_up 101325 T0 E ltac:(lra) ltac:(lra) ltac:(lra)) as UP. pose proof (apparent_up 101325 T E ltac:(lra) ltac:(lra) ltac:(lra)) as UP'.
  pose proof (refraction_temperature 101325 T T0 E ltac:(lra) ltac:(lra) ltac:(lra) ltac:(lra)) as RT.
  set (f := refraction_formula 101325 T E) in *. set (f0 := refraction_formula 101325 T0 E) in *. clearbody f f0.
  pose proof (Rabs_le_inv _ _ B1) as BB. split; [lra|]. split; [lra|].
  replace (a - (E + f0)) with ((a - (E + f)) + (f - f0)) by ring. eapply Rle_trans; [apply Rabs_triang|]. lra.
Qed.

Lemma global_clear64 lat lon el x xo xe dt u xT T xP P xm AM xt TL dec ha E : instant dt u -> in_range u = true ->
  val x lat -> val xo lon -> val xe el -> -90 <= lat <= 90 -> -360 <= lon <= 360 -> -100000 <= el <= 100000 ->
  val xm AM -> -5 <= AM <= 5 -> val xt TL -> -5 <= TL <= 5 ->
  get_topocentric_position (N := MathR) (Fin lat) (Fin lon) dt (Fin el) = Ok (Fin dec, Fin ha) ->
  get_topocentric_elevation_angle (N := MathR) (Fin lat) (Fin dec) (Fin ha) = Ok (Fin E) -> 0.00001 <= E <= 89 ->
  exists d', declination_degree (N := MathR) dt TY_default = Ok (Fin d') /\
    near (3.85e-3 * exp (-0.8662 * AM * TL * d') + 1.82e-4) (global_irradiance_clear (N := N) x xo dt TY_default xm xt xe xT xP)
      (global_irradiance_clear (N := MathR) (Fin lat) (Fin lon) dt TY_default (Fin AM) (Fin TL) (Fin el) T P).
Proof.
  intros Hi Hr Vx Vo Ve Hlat Hlon Hel Vm Bm Vt Bt E1 E2 HE.
  destruct (std_altitude64 lat lon el x xo xe dt u dec ha E Hi Hr Vx Vo Ve Hlat Hlon Hel E1 E2 HE) as (q & a & a' & Q1 & V & Q2 & BA & BA' & D).
  pose proof (instant_aware dt u Hi) as AW.
  assert (TY : TY_default (N := MathR) = Fin 365) by (unfold TY_default; rewrite lit_R; f_equal; unfold Q2R; simpl; lra).
  assert (T1 : TL_default (N := MathR) = Fin 1) by (unfold TL_default; rewrite lit_R; f_equal; unfold Q2R; simpl; lra).
  destruct (direct_near64 L HL dt u q a a' 2.81e-6 xm AM xt TL Hi Hr V D ltac:(lra) Vm Vt Bm Bt) as (qk & qd & d' & e & p & r & K1 & K2 & K3 & K4 & K5 & K6 & K7 & K8).
  assert (R' : direct_underclear (N := N) x xo dt TY_default xm xt xe standard_temperature standard_pressure = Ok p).
  { unfold direct_underclear. rewrite AW, bind_Ok, K1, bind_Ok. change (TY_default (N := N)) with (flit (inject_Z 365)). rewrite K2, bind_Ok, K3, bind_Ok, Q1, bind_Ok, K4, bind_Ok. now rewrite K5. }
  clear K5. exists d'. rewrite TY. split; [exact K7|].
  destruct (distance_sat L HL dt u Hi Hr) as (qk' & K1' & SK). rewrite K1 in K1'. apply Ok_inj in K1'. subst qk'.
  assert (SA : satv (up_in E_std) q (Fin a')).
  { exists a, a', 0%Z. cbn [a_lo a_hi a_mag a_err a_per turn]. rewrite zr_0, zr_int. split; [exact V|]. split; [reflexivity|]. split; [lra|]. split; [rewrite Rabs_pos_eq; lra|].
    replace (a - a' - 0 * 0) with (a - a') by ring. pose proof E_std_ok. lra. }
  assert (V1 : val (TL_default (N := N)) 1) by (apply (exact_lit 1.0 1); [unfold Q2R; simpl; lra|lia]).
  destruct (transport L HL F_diff F_diff_rel [up_in E_std; exact_in (1 * SC); O_kd] [q; TL_default (N := N); qk] [Fin a'; Fin 1; Fin 1] _ ltac:(repeat constructor; [exact SA|apply exact_sat; [exact V1|rewrite Rabs_pos_eq; lra]|exact SK]) diff_ok) as (l1 & l2 & F1 & F2 & A).
  inv3 A. destruct (fits_nop _ _ _ _ _ _ _ O_diff_fits eq_refl S) as (g & g' & VG & EG & BG & _ & DG). 
  unfold F_diff in F1, F2. apply Ok_inj in F1, F2.
  assert (D1 : diffuse_underclear (N := N) x xo dt xe standard_temperature standard_pressure TL_default = Ok x0).
  { unfold diffuse_underclear. rewrite AW, bind_Ok, Q1, bind_Ok, K1, bind_Ok. f_equal. now apply (f_equal (fun l => nth 0 l x0)) in F1. }
  assert (D2 : diffuse_underclear (N := MathR) (Fin lat) (Fin lon) dt (Fin el) standard_temperature standard_pressure TL_default = Ok (Fin g')).
  { rewrite <- EG. unfold diffuse_underclear. rewrite AW, bind_Ok, Q2, bind_Ok, (distance_constant dt u Hi Hr), bind_Ok, T1. f_equal. now apply (f_equal (fun l => nth 0 l y)) in F2. }
  clear F1 F2 S.
  assert (BW : -0.8662 * AM * TL * d' <= 520).
  { destruct (year64 L HL dt u Hi Hr) as (? & ? & ? & ? & d2 & _ & _ & _ & _ & _ & _ & D2' & _ & SD). rewrite K7 in D2'. apply Ok_inj, Fin_inj in D2'. subst d2.
    destruct (fits_nop _ _ _ _ _ _ _ O_dg_fits eq_refl SD) as (? & d2 & _ & FE & _ & BD & _). apply Fin_inj in FE. subst d2.
    assert (H : Rabs (AM * TL * d') <= 5 * 5 * 24) by (rewrite !Rabs_mult; apply Rmult_le_compat; try (apply Rmult_le_pos); try apply Rabs_pos; [apply Rmult_le_compat; try apply Rabs_pos|]; apply Rabs_le; lra). apply Rabs_le_inv in H. lra. }
  assert (XE : exp (-0.8662 * AM * TL * d') <= exp 520) by (destruct BW as [H| ->]; [left; now apply exp_increasing|lra]).
  assert (R : direct_underclear (N := MathR) (Fin lat) (Fin lon) dt (Fin 365) (Fin AM) (Fin TL) (Fin el) standard_temperature standard_pressure = Ok (Fin (1367 * exp (-0.8662 * AM * TL * d') * sin a'))).
  { unfold direct_underclear. rewrite AW, bind_Ok, (distance_constant dt u Hi Hr), bind_Ok, K7, bind_Ok, !lit_R, !mul_R.
    replace (Q2R (-0.8662)) with (-0.8662) by (unfold Q2R; simpl; lra). replace (Q2R 1367) with 1367 by (unfold Q2R; simpl; lra).
    rewrite nexp_R. { now rewrite bind_Ok, Q2, bind_Ok, nsin_R, bind_Ok, !mul_R, Rmult_1_r. }
    apply Rle_lt_trans with (1 := XE). unfold float_overflow. interval. }
  assert (XB : 1368 * exp (-0.8662 * AM * TL * d') + 6000 <= bpow radix2 1000).
  { apply Rle_trans with (1368 * exp 520 + 6000); [lra|]. change (bpow radix2 1000) with (IZR (2 ^ 1000)). interval. }
  set (X := exp (-0.8662 * AM * TL * d')) in *. assert (XP : 0 < X) by apply exp_pos. clearbody X.
  set (r' := 1367 * X * sin a') in *. assert (BR' : Rabs r' <= 1367 * X).
  { unfold r'. rewrite Rabs_mult, (Rabs_pos_eq (1367 * X)) by lra. assert (Rabs (sin a') <= 1) by (apply Rabs_le; pose proof (SIN_bound a'); lra). pose proof (Rabs_pos (sin a')). nra. }
  assert (BR : Rabs r <= 1368 * X). { replace r with (r' + (r - r')) by ring. eapply Rle_trans; [apply Rabs_triang|]. nra. }
  clearbody r'.
  assert (BS : Rabs (r + g) <= 1368 * X + 6000) by (eapply Rle_trans; [apply Rabs_triang|]; lra).
  pose proof (val_add _ _ _ _ K6 VG ltac:(lra)) as VS. pose proof (rnd_rel (r + g)) as RR.
  assert (P53' : bpow radix2 (-53) <= 1.2e-16) by (change (bpow radix2 (-53)) with (/ 9007199254740992); lra).
  assert (X2 : bpow radix2 (-1074) <= 1e-17) by (rewrite bpow_small; interval).
  assert (Rabs (r + g) * bpow radix2 (-53) <= (1368 * X + 6000) * 1.2e-16) by (apply Rmult_le_compat; try lra; [apply Rabs_pos|apply bpow_ge_0]).
  exists (Bplus mode_NE p x0), (rnd (r + g)), (r' + g').
  split; [unfold global_irradiance_clear; rewrite AW, bind_Ok, R', bind_Ok, D1, bind_Ok; reflexivity|]. split; [exact VS|].
  split; [unfold global_irradiance_clear; rewrite AW, bind_Ok, R, bind_Ok, D2, bind_Ok, add_R; reflexivity|].
  replace (rnd (r + g) - (r' + g')) with ((rnd (r + g) - (r + g)) + ((r - r') + (g - g'))) by ring. eapply Rle_trans; [apply Rabs_triang|].
  pose proof (Rabs_triang (r - r') (g - g')). lra.
Qed.
End L.

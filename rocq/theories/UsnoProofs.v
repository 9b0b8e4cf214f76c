(* Proofs about test/query_usno.py. *)
From Coq Require Import Reals Qreals Lra Lia ZArith.
From Flocq Require Import Core IEEE754.BinarySingleNaN.
From Verif Require Import Py Num Cal Clock Constants SolarTime Solar RInst RTac Demo SpecTime SpecDt SpecGeom SpecAstro SpecEng SpecUsno Trig Usno B64
  SolarTimeProofs PositionProofs Samples MotionProofs NoonProofs RefractionProofs.
Local Open Scope R_scope.

Notation encode := (encode_coordinate (N := MathR) divmod_R int_R).
Notation compare := (compare_to_usno (N := MathR) abs_R).

Lemma floor_spec x : IZR (Zfloor x) <= x < IZR (Zfloor x) + 1.
Proof. split; [apply Zfloor_lb|]. apply Zfloor_ub. Qed.

Lemma divmod_val a b : b <> 0 -> divmod_R (Fin a) (Fin b) = Ok (Fin (IZR (Zfloor (a / b))), Fin (a - b * IZR (Zfloor (a / b)))).
Proof. intros H. unfold divmod_R. now rewrite Req_bool_false. Qed.

Lemma int_IZR z : int_R (Fin (IZR z)) = Ok z.
Proof. unfold int_R. now rewrite Ztrunc_IZR. Qed.

Lemma encode_R x : let d := Zfloor x in let r := x - IZR d in let m := Zfloor (r * 60) in
  encode (Fin x) = Ok (mkdms (N := MathR) (Z.ltb d 0) (Z.abs d) m (Fin (r - IZR m / 60))).
Proof.
  intros d r m. unfold encode_coordinate. rewrite lit_R, Q2R_int. rewrite divmod_val by lra. cbn [bind fst snd].
  replace (x / 1) with x by lra. fold d. rewrite Rmult_1_l. fold r. rewrite lit_R, Q2R_int, div_R by lra. cbn [bind]. rewrite divmod_val by lra. cbn [bind fst snd].
  replace (r / (1 / 60)) with (r * 60) by lra. fold m. rewrite lit_R, Q2R_int, lt_R, truth_R. cbn [bind]. rewrite !int_IZR. cbn [bind].
  f_equal. f_equal.
  - unfold Rbool_lt. destruct (Z.ltb_spec d 0) as [H|H]; [apply IZR_lt in H|apply IZR_le in H]; destruct (Rlt_dec _ _); (reflexivity || lra).
  - apply f_equal. lra.
Qed.

(* what a request says, and when that is the coordinate *)
Lemma coordinates x : exists w d m s, encode (Fin x) = Ok (mkdms (N := MathR) w d m (Fin s)) /\ (0 <= d)%Z /\ (0 <= m < 60)%Z /\ 0 <= s < 1 / 60 /\
  (denoted w d m s = x <-> exists k : Z, x = IZR k \/ 0 <= x /\ x * 60 = IZR k) /\
  (0 <= x -> x - 1 / 60 < denoted w d m s <= x) /\ (x < 0 -> -2 < denoted w d m s - x <= 0).
Proof.
  pose proof (encode_R x) as E. cbv zeta in E. pose proof (floor_spec x) as F. set (d := Zfloor x) in *. set (r := x - IZR d) in *.
  pose proof (floor_spec (r * 60)) as G. set (m := Zfloor (r * 60)) in *.
  assert (R : 0 <= r < 1) by (unfold r; lra).
  assert (M : (0 <= m < 60)%Z) by (split; [apply Z.lt_succ_r, lt_IZR; rewrite succ_IZR|apply lt_IZR]; lra).
  pose proof (IZR_le _ _ (proj1 M)) as M0. assert (M1 : IZR m <= 59) by (apply IZR_le; lia).
  exists (Z.ltb d 0), (Z.abs d), m, (r - IZR m / 60). split; [exact E|]. split; [lia|]. split; [exact M|]. split; [lra|].
  unfold denoted. set (s := r - IZR m / 60) in *. assert (S : 0 <= s < 1 / 60) by (unfold s; lra). assert (X : x = IZR d + IZR m / 60 + s) by (unfold s, r; lra).
  assert (K : forall k : Z, x = IZR k -> IZR m = 0 /\ s = 0).
  { intros k Hk. assert (d = k) as -> by (unfold d; rewrite Hk; apply Zfloor_IZR). assert (r = 0) as Hr by (unfold r; lra).
    assert (m = 0%Z) as -> by (unfold m; rewrite Hr, Rmult_0_l; apply (Zfloor_IZR 0)). split; [reflexivity|unfold s; lra]. }
  destruct (Z.ltb_spec d 0) as [H|H].
  - rewrite Z.abs_neq by lia. rewrite opp_IZR. assert (D : IZR d <= -1) by (apply IZR_le; lia). split; [|split; intros; lra]. split.
    + intros Q. exists d. left. lra.
    + intros [k [Hk|[Hk _]]]; [destruct (K k Hk); lra|lra].
  - rewrite Z.abs_eq by lia. apply IZR_le in H. split; [|split; intros; lra]. split.
    + intros Q. exists (d * 60 + m)%Z. right. rewrite plus_IZR, mult_IZR. lra.
    + intros [k [Hk|[_ Hk]]]; [destruct (K k Hk); lra|].
      assert (r * 60 = IZR (k - d * 60)) as Hr by (unfold r; rewrite minus_IZR, mult_IZR; lra).
      assert (IZR m = r * 60) by (unfold m; now rewrite Hr, Zfloor_IZR). unfold s in *. lra.
Qed.

(* half a degree south is sent as one and a half degrees south *)
Lemma half_degree : exists d m s, encode (Fin (-0.5)) = Ok (mkdms (N := MathR) true d m (Fin s)) /\ denoted true d m s = -1.5.
Proof.
  pose proof (encode_R (-0.5)) as E. cbv zeta in E. assert (H : Zfloor (-0.5) = (-1)%Z) by (apply Zfloor_imp; simpl; lra). rewrite H in E.
  assert (M : Zfloor ((-0.5 - -1) * 60) = 30%Z) by (apply Zfloor_imp; simpl; lra). rewrite M in E. exists 1%Z, 30%Z, (-0.5 - -1 - 30 / 60). split; [exact E|].
  unfold denoted. lra.
Qed.

Definition proj_dms {N} (r : res (dms N)) : option (bool * Z * Z) := match r with Ok x => Some (d_minus x, d_deg x, d_min x) | Err _ => None end.
Lemma cambridge64 L : proj_dms (encode_coordinate (N := B64 L) divmod_64 int_64 (flit (-71.112828))) = Some (true, 72%Z, 53%Z).
Proof. vm_compute. reflexivity. Qed.

Lemma compare_val d lat lon el A z alt az :
  get_altitude (N := MathR) (Fin lat) (Fin lon) d (Fin el) standard_temperature standard_pressure = Ok (Fin alt) ->
  get_azimuth (N := MathR) (Fin lat) (Fin lon) d (Fin el) = Ok (Fin az) ->
  compare (mkeph (N := MathR) d (Fin lat) (Fin lon) (Fin el) (Fin A) (Fin z)) =
    Ok (mkcmp (N := MathR) d (Fin (90 - alt)) (Fin (Rfmod (180 - az) 360)) (Fin z) (Fin A) (Fin (Rabs (90 - alt - z))) (Fin (Rabs (Rfmod (180 - az) 360 - A)))).
Proof.
  intros E1 E2. unfold compare_to_usno. cbn [eph_lat eph_lon eph_when eph_elevation]. rewrite E1. cbn [bind]. rewrite E2. cbn [bind].
  rewrite !lit_R, !Q2R_int, !sub_R, fmod_R by lra. cbn [bind]. reflexivity.
Qed.

Lemma mirrored az : 0 <= az < 360 -> Rfmod (180 - az) 360 = if Rle_dec az 180 then 180 - az else 540 - az.
Proof.
  intros H. destruct (Rle_dec az 180).
  - apply Rfmod_id. lra.
  - replace (180 - az) with (540 - az + 360 * IZR (-1)) by lra. rewrite Rfmod_shift by lra. apply Rfmod_id. lra.
Qed.

Lemma comparison d lat lon el A z alt az : 0 <= az < 360 -> 0 <= A < 360 ->
  get_altitude (N := MathR) (Fin lat) (Fin lon) d (Fin el) standard_temperature standard_pressure = Ok (Fin alt) ->
  get_azimuth (N := MathR) (Fin lat) (Fin lon) d (Fin el) = Ok (Fin az) ->
  exists c da, compare (mkeph (N := MathR) d (Fin lat) (Fin lon) (Fin el) (Fin A) (Fin z)) = Ok c /\
    cmp_alt_error c = Fin (Rabs (alt - (90 - z))) /\ cmp_az_error c = Fin da /\
    (A = az -> (da = 0 <-> az = 90 \/ az = 270)) /\
    compass_difference (180 - az) A (if Rle_dec da 180 then da else 360 - da).
Proof.
  intros B BA E1 E2. rewrite (compare_val _ _ _ _ A z _ _ E1 E2). eexists _, _. split; [reflexivity|]. cbn [cmp_alt_error cmp_az_error].
  split; [rewrite Rabs_minus_sym; do 2 f_equal; lra|]. split; [reflexivity|]. pose proof (mirrored az B) as M. split.
  - intros ->. split.
    + intros H. destruct (Req_dec (Rfmod (180 - az) 360 - az) 0) as [Q|Q]; [|apply Rabs_no_R0 in Q; contradiction].
      rewrite M in Q. destruct (Rle_dec az 180); lra.
    + intros [->| ->]; rewrite M; destruct (Rle_dec _ 180); try lra.
      * replace (180 - 90 - 90) with 0 by lra. apply Rabs_R0.
      * replace (540 - 270 - 270) with 0 by lra. apply Rabs_R0.
  - destruct (Rfmod_eq (180 - az) 360) as (k & Ek). pose proof (Rfmod_range (180 - az) 360 ltac:(lra)) as Rg. set (f := Rfmod (180 - az) 360) in *. clearbody f.
    unfold compass_difference. destruct (Rle_dec (Rabs (f - A)) 180) as [C|C]; revert C; unfold Rabs; destruct (Rcase_abs (f - A)); intros C.
    + split; [lra|]. exists k. lra.
    + split; [lra|]. exists k. lra.
    + split; [lra|]. exists (k - 1)%Z. rewrite minus_IZR. lra.
    + split; [lra|]. exists (k + 1)%Z. rewrite plus_IZR. lra.
Qed.

(* a datum that agrees exactly, with the sun due south: the error reported is 180 degrees *)
Lemma agreeing_datum : exists lon alt, -180 <= lon < 180 /\
  get_altitude (N := MathR) (Fin 45) (Fin lon) sample_dt (Fin 0) standard_temperature standard_pressure = Ok (Fin alt) /\
  get_azimuth (N := MathR) (Fin 45) (Fin lon) sample_dt (Fin 0) = Ok (Fin 180) /\
  exists c, compare (mkeph (N := MathR) sample_dt (Fin 45) (Fin lon) (Fin 0) (Fin 180) (Fin (90 - alt))) = Ok c /\
    cmp_alt_error c = Fin 0 /\ cmp_az_error c = Fin 180.
Proof.
  destruct (meridian sample_dt sample_u 45 0 sample_instant sample_in_range ltac:(lra) ltac:(lra)) as (lon & dec & az & e & Hl & E1 & E2 & E3).
  assert (Y : (midnight 1901 1 1 <= sample_u < midnight 2100 1 1)%Z) by (vm_compute; split; congruence).
  destruct (culminates sample_dt sample_u 45 lon 0 dec 0 az e 0 sample_instant Y ltac:(lra) ltac:(lra) E1 E2 E3 ltac:(lra)) as (Ee & S & _). specialize (S ltac:(lra)). subst az.
  destruct (tropics sample_dt sample_u 45 lon 0 dec 0 e sample_instant Y ltac:(lra) ltac:(lra) E1 E3) as (Bd & _ & _). apply Rabs_le_inv in Bd.
  assert (He : 20 <= e <= 90) by (rewrite Ee, Rabs_pos_eq; lra).
  assert (exists alt, get_altitude (N := MathR) (Fin 45) (Fin lon) sample_dt (Fin 0) standard_temperature standard_pressure = Ok (Fin alt)) as (alt & Ea).
  { unfold get_altitude. rewrite (instant_aware sample_dt sample_u sample_instant), bind_Ok, E1, bind_Ok, E3, bind_Ok. unfold standard_temperature, standard_pressure. rewrite !lit_R.
    rewrite refraction_above, bind_Ok by (unfold Q2R; simpl; lra). rewrite add_R. eexists; reflexivity. }
  exists lon, alt. split; [exact Hl|]. split; [exact Ea|]. split; [exact E2|]. eexists. split; [exact (compare_val _ _ _ _ 180 (90 - alt) _ _ Ea E2)|].
  cbn [cmp_alt_error cmp_az_error]. split.
  - replace (90 - alt - (90 - alt)) with 0 by lra. now rewrite Rabs_R0.
  - rewrite mirrored by lra. destruct (Rle_dec 180 180); [|lra]. f_equal. rewrite Rabs_left1; lra.
Qed.

Lemma answer_val (d m : Z) s : answer_angle (N := MathR) (Fin (IZR d)) (Fin (IZR m)) (Fin s) = Ok (Fin (denoted false d m s)).
Proof. unfold answer_angle, denoted. rewrite !lit_R, !Q2R_int, !div_R by lra. cbn [bind]. rewrite !add_R. do 2 f_equal. lra. Qed.

(* util.py 45-187: sunrise, sunset, transit. *)
From Coq Require Import Reals Qreals Lra Lia ZifyBool.
From Flocq Require Import Core.
From Interval Require Import Tactic.
From Verif Require Import Py Num Cal CalProofs TzCheck Clock Constants SolarTime Solar Util GenProofs
  SolarTimeProofs RInst RTac Rel RelInst Trig GeoProofs FastProofs SpecTime SpecDt SpecGeom SpecEng.
Local Open Scope R_scope.

(* ---------------------------------------------------------------- rounding to microseconds *)
Lemma nearest_le x y : x <= y -> (ZnearestE x <= ZnearestE y)%Z.
Proof. apply (@Zrnd_le ZnearestE (valid_rnd_N _)). Qed.
Lemma nearest_half x : Rabs (IZR (ZnearestE x) - x) <= 1 / 2.
Proof. rewrite Rabs_minus_sym. pose proof (Znearest_half (fun t => negb (Z.even t)) x). lra. Qed.

Lemma hours_inv x k : @timedelta_hours MathR x = Ok k -> exists r, x = Fin r /\ k = ZnearestE (r * 3600000000).
Proof.
  cbn. destruct x as [r| | |]; cbn; try discriminate. destruct (_ <=? _)%Z; [|discriminate].
  intros [= <-]. eauto.
Qed.

Lemma dt_add_inv d k t : dt_add d k = Ok t -> dt_local t = (dt_local d + k)%Z /\ dt_tz t = dt_tz d.
Proof. unfold dt_add. destruct (in_range _); [|discriminate]. intros [= <-]. auto. Qed.

(* ---------------------------------------------------------------- C35 *)

Lemma ordered_core (x h : R) b : 0 <= h ->
  let k r := ZnearestE (r * 3600000000) in
  (b + k (x - h)%R <= b + k x <= b + k (x + h)%R)%Z /\
  (Z.abs (2 * (b + k x) - (b + k (x - h)%R + (b + k (x + h)%R))) <= 2)%Z.
Proof.
  intros Hh k. assert (M : forall r s, r <= s -> (k r <= k s)%Z) by (intros; apply nearest_le; nra).
  pose proof (M (x - h) x ltac:(lra)). pose proof (M x (x + h) ltac:(lra)). split; [lia|].
  replace (2 * (b + k x) - (b + k (x - h)%R + (b + k (x + h)%R)))%Z with (2 * k x - k (x - h)%R - k (x + h)%R)%Z by lia.
  apply le_IZR. rewrite abs_IZR, !minus_IZR, mult_IZR.
  pose proof (nearest_half (x * 3600000000)) as A. pose proof (nearest_half ((x - h) * 3600000000)) as B.
  pose proof (nearest_half ((x + h) * 3600000000)) as C. fold (k x) in A. fold (k (x - h)%R) in B. fold (k (x + h)%R) in C.
  apply Rabs_le_inv in A, B, C. apply Rabs_le. lra.
Qed.

Lemma xacos_nonneg (q a : T MathR) : @nacos MathR q = Ok a -> a = NaN \/ exists r, a = Fin r /\ 0 <= r.
Proof.
  cbn. destruct q as [r| | |]; try discriminate.
  - destruct (asin_ok r) eqn:E; [|discriminate]. intros [= <-]. right. eexists. split; [reflexivity|]. apply acos_bound.
  - intros [= <-]. auto.
Qed.

Lemma half_day_nonneg (lat decl ha : T MathR) : sunrise_half_day lat decl = Ok ha -> forall r, ha = Fin r -> 0 <= r.
Proof.
  unfold sunrise_half_day. intros H r ->.
  apply bind_eq_Ok in H as (c0 & _ & H). apply bind_eq_Ok in H as (c1 & _ & H). apply bind_eq_Ok in H as (c2 & _ & H).
  apply bind_eq_Ok in H as (q & _ & H). apply bind_eq_Ok in H as (t1 & _ & H). apply bind_eq_Ok in H as (t2 & _ & H).
  apply bind_eq_Ok in H as (ac & Ha & H). apply xacos_nonneg in Ha.
  revert H. rx. intros [= H]. destruct Ha as [->|(s & -> & Hs)]; cbn in H; [discriminate|].
  injection H as <-. apply Rmult_le_pos; [assumption|]. apply Rle_mult_inv_pos; [lra|apply PI_RGT_0].
Qed.

Lemma sunrise_ordered (lat lon : T MathR) d sr ss tr :
  get_sunrise_sunset_transit lat lon d = Ok (sr, ss, tr) -> ordered d sr ss tr.
Proof.
  unfold get_sunrise_sunset_transit. intros H.
  apply bind_eq_Ok in H as ([] & _ & H). apply bind_eq_Ok in H as (off & _ & H).
  apply bind_eq_Ok in H as ((TON, ha) & Hth & H). apply bind_eq_Ok in H as (d1 & H1 & H).
  apply bind_eq_Ok in H as (t1 & A1 & H). apply bind_eq_Ok in H as (d2 & H2 & H).
  apply bind_eq_Ok in H as (t2 & A2 & H). apply bind_eq_Ok in H as (d3 & H3 & H).
  apply bind_eq_Ok in H as (t3 & A3 & H). injection H as <- <- <-.
  apply hours_inv in H1 as (r1 & E1 & ->). apply hours_inv in H2 as (r2 & E2 & ->). apply hours_inv in H3 as (r3 & -> & ->).
  apply dt_add_inv in A1 as (A1 & B1), A2 as (A2 & B2), A3 as (A3 & B3).
  unfold sunrise_hours in Hth.
  apply bind_eq_Ok in Hth as (h & _ & H). apply bind_eq_Ok in H as (decl & _ & H). apply bind_eq_Ok in H as (ta & _ & H).
  apply bind_eq_Ok in H as (n & _ & H). apply bind_eq_Ok in H as (ha' & Hha & H). injection H as _ <-.
  destruct ha' as [x| | |]; try discriminate; cbn in E1, E2; try discriminate. injection E1 as <-. injection E2 as <-.
  pose proof (half_day_nonneg lat decl (Fin x) Hha x eq_refl) as Hx.
  unfold ordered. rewrite A1, A2, A3, B1, B2, B3.
  destruct (ordered_core r3 x (dt_local (same_day d)) Hx) as (O1 & O2). repeat split; tauto || reflexivity || lia.
Qed.

(* the same call in numpy mode *)
Lemma half_day_nonneg_np (lat decl ha : T NumpyR) : sunrise_half_day lat decl = Ok ha -> forall r, vx ha = Fin r -> 0 <= r.
Proof.
  unfold sunrise_half_day. intros H r Hr.
  apply bind_eq_Ok in H as (c0 & _ & H). apply bind_eq_Ok in H as (c1 & _ & H). apply bind_eq_Ok in H as (c2 & _ & H).
  apply bind_eq_Ok in H as (q & _ & H). apply bind_eq_Ok in H as (t1 & _ & H). apply bind_eq_Ok in H as (t2 & _ & H).
  apply bind_eq_Ok in H as (ac & Ha & H). cbn [nacos NumpyR] in Ha. unfold npf in Ha. injection Ha as <-.
  apply bind_eq_Ok in H as (k & Hk & H). injection H as <-. cbn in Hk.
  destruct (xdiv_py (Fin (Q2R 12)) (Fin PI)) as [k'|] eqn:Ek; [|discriminate]. cbn in Hk. injection Hk as <-.
  change (xdiv_py (Fin (Q2R 12)) (Fin PI)) with (@div MathR (lit 12) npi) in Ek. revert Ek. rx. intros [= <-].
  change (xmul (np_acos (vx (q - t1 * t2)%num)) (Fin (12 / PI)) = Fin r) in Hr.
  destruct (vx (q - t1 * t2)%num) as [s| | |]; cbn in Hr; try discriminate.
  destruct (asin_ok s); cbn in Hr; [|discriminate]. injection Hr as <-.
  apply Rmult_le_pos; [apply acos_bound|]. apply Rle_mult_inv_pos; [lra|apply PI_RGT_0].
Qed.

Lemma sunrise_ordered_np (lat lon : T NumpyR) d sr ss tr :
  get_sunrise_sunset_transit lat lon d = Ok (sr, ss, tr) -> ordered d sr ss tr.
Proof.
  unfold get_sunrise_sunset_transit. intros H.
  apply bind_eq_Ok in H as ([] & _ & H). apply bind_eq_Ok in H as (off & _ & H).
  apply bind_eq_Ok in H as ((TON, ha) & Hth & H). apply bind_eq_Ok in H as (d1 & H1 & H).
  apply bind_eq_Ok in H as (t1 & A1 & H). apply bind_eq_Ok in H as (d2 & H2 & H).
  apply bind_eq_Ok in H as (t2 & A2 & H). apply bind_eq_Ok in H as (d3 & H3 & H).
  apply bind_eq_Ok in H as (t3 & A3 & H). injection H as <- <- <-.
  apply (hours_inv (vx _)) in H1 as (r1 & E1 & ->). apply (hours_inv (vx _)) in H2 as (r2 & E2 & ->).
  apply (hours_inv (vx _)) in H3 as (r3 & E3 & ->).
  apply dt_add_inv in A1 as (A1 & B1), A2 as (A2 & B2), A3 as (A3 & B3).
  unfold sunrise_hours in Hth.
  apply bind_eq_Ok in Hth as (h & _ & H). apply bind_eq_Ok in H as (decl & _ & H). apply bind_eq_Ok in H as (ta & _ & H).
  apply bind_eq_Ok in H as (n & _ & H). apply bind_eq_Ok in H as (ha' & Hha & H). injection H as _ <-.
  cbn [add sub NumpyR lift2 vx] in E1, E2. rewrite E3 in E1, E2.
  destruct (vx ha') as [x| | |] eqn:Ex; try discriminate; cbn in E1, E2; try discriminate. injection E1 as <-. injection E2 as <-.
  pose proof (half_day_nonneg_np lat decl ha' Hha x Ex) as Hx.
  unfold ordered. rewrite A1, A2, A3, B1, B2, B3.
  destruct (ordered_core r3 x (dt_local (same_day d)) Hx) as (O1 & O2). repeat split; tauto || reflexivity || lia.
Qed.

Lemma wrappers (N : Num) (lat lon : T N) d :
  get_sunrise_sunset lat lon d = rmap fst (get_sunrise_sunset_transit lat lon d) /\
  get_sunrise_time lat lon d = rmap (fun t => fst (fst t)) (get_sunrise_sunset_transit lat lon d) /\
  get_sunset_time lat lon d = rmap (fun t => snd (fst t)) (get_sunrise_sunset_transit lat lon d) /\
  get_transit_time lat lon d = rmap snd (get_sunrise_sunset_transit lat lon d).
Proof.
  unfold get_sunrise_sunset, get_sunrise_time, get_sunset_time, get_transit_time.
  assert (E : forall A (f : datetime * datetime * datetime -> res A) g, (forall t, f t = Ok (g t)) ->
     (aware d ;; t <- get_sunrise_sunset_transit lat lon d ;; f t) = rmap g (get_sunrise_sunset_transit lat lon d)).
  { intros A f g Hf. unfold get_sunrise_sunset_transit. destruct (aware d) as [[]|e]; [|reflexivity]. cbn [bind].
    match goal with |- bind ?x _ = _ => destruct x as [t|e] end; [|reflexivity]. cbn. apply Hf. }
  repeat split; apply E; intros [[a b] c]; reflexivity.
Qed.

(* ---------------------------------------------------------------- values *)
Lemma sunrise_declination_val day : sunrise_declination (N := MathR) (Fin day) = Ok (Fin (fourier_declination day)).
Proof.
  unfold sunrise_declination, fourier_declination. rx. do 2 f_equal. cbv zeta.
  assert (E : forall k, k * (2 * PI * day / 366) = k * (360 * day / 366) * PI / 180) by (intros; field).
  unfold sind, cosd. rewrite !E. replace (2 * PI * day / 366) with (360 * day / 366 * PI / 180) by field. lra.
Qed.

Lemma sunrise_adjustment_val day : sunrise_time_adjustment (N := MathR) (Fin day) = Ok (Fin (fourier_eot day / 3600)).
Proof.
  unfold sunrise_time_adjustment, fourier_eot. rx. do 3 f_equal. cbv zeta.
  assert (E : forall k x, k * rad x = rad (k * x)) by (intros; unfold rad; field).
  rewrite !E, <- !sind_rad, <- !cosd_rad. reflexivity.
Qed.

Lemma fourier_declination_range day : -28 <= fourier_declination day <= 28.
Proof.
  unfold fourier_declination. cbv zeta. set (t := 360 * day / 366).
  pose proof (sind_bound t). pose proof (sind_bound (2 * t)). pose proof (sind_bound (3 * t)).
  pose proof (cosd_bound t). pose proof (cosd_bound (2 * t)). pose proof (cosd_bound (3 * t)). lra.
Qed.

Lemma fourier_eot_range day : -1200 <= fourier_eot day <= 1200.
Proof.
  unfold fourier_eot. cbv zeta. set (t := 279.134 + 0.985647 * day).
  pose proof (sind_bound t). pose proof (sind_bound (2 * t)). pose proof (sind_bound (3 * t)). pose proof (sind_bound (4 * t)).
  pose proof (cosd_bound t). pose proof (cosd_bound (2 * t)). pose proof (cosd_bound (3 * t)). lra.
Qed.

Definition cos_H (lat decl : R) : R := cosd 90.833 / (cosd lat * cosd decl) - tand lat * tand decl.

Lemma half_day_val lat decl : -90 < lat < 90 -> -90 < decl < 90 ->
  sunrise_half_day (N := MathR) (Fin lat) (Fin decl) =
  if asin_ok (cos_H lat decl) then Ok (Fin (acos (cos_H lat decl) * (12 / PI))) else Err ValueError.
Proof.
  intros Hl Hd. pose proof (cosd_pos lat Hl) as Pl. pose proof (cosd_pos decl Hd) as Pd.
  assert (Pc : cosd lat * cosd decl <> 0) by (apply Rmult_integral_contrapositive_currified; lra).
  unfold sunrise_half_day. rx. rewrite <- !cosd_rad. rx. rewrite !ntan_R by (rewrite <- cosd_rad; lra). rx.
  rewrite <- !tand_rad. fold (cos_H lat decl). cbn [nacos MathR]. destruct (asin_ok _); [|reflexivity]. rx. reflexivity.
Qed.

Lemma asin_ok_iff x : asin_ok x = true <-> -1 <= x <= 1.
Proof.
  split; [|apply asin_ok_true]. intros H. unfold asin_ok in H. apply andb_prop in H as [A B].
  unfold Rbool_le in A, B. destruct (Rle_dec (-1) x); [|discriminate]. destruct (Rle_dec x 1); [|discriminate]. auto.
Qed.

Lemma rises_cos lat decl H : -90 < lat < 90 -> -90 < decl < 90 ->
  (rises_at lat decl H <-> cosd (15 * H) = cos_H lat decl).
Proof.
  intros Hl Hd. pose proof (cosd_pos lat Hl) as Pl. pose proof (cosd_pos decl Hd) as Pd.
  unfold rises_at, dot, equatorial, up, cos_H. rewrite !tand_def.
  assert (Es : sind (- (0.833)) = cosd 90.833).
  { unfold sind, cosd. rewrite <- sin_shift. f_equal. lra. }
  rewrite Es. split; intros E.
  - apply Rmult_eq_reg_r with (cosd lat * cosd decl); [|apply Rmult_integral_contrapositive_currified; lra].
    transitivity (cosd 90.833 - sind lat * sind decl); [lra|]. field. lra.
  - rewrite E. field. lra.
Qed.

Lemma cosd_acos x : -1 <= x <= 1 -> cosd (15 * (acos x * (12 / PI))) = x.
Proof.
  intros H. unfold cosd. replace (15 * (acos x * (12 / PI)) * PI / 180) with (acos x) by (field; apply PI_ne0).
  now apply cos_acos.
Qed.

Lemma acos_hours x : 0 <= acos x * (12 / PI) <= 12.
Proof.
  pose proof (acos_bound x) as B. pose proof PI_RGT_0 as P. 
  assert (0 <= 12 / PI) by (apply Rle_mult_inv_pos; lra).
  split; [apply Rmult_le_pos; lra|]. replace 12 with (PI * (12 / PI)) at 2 by (field; lra). apply Rmult_le_compat_r; lra.
Qed.

Lemma rises_unique lat decl H H' : -90 < lat < 90 -> -90 < decl < 90 -> 0 <= H <= 12 -> 0 <= H' <= 12 ->
  rises_at lat decl H -> rises_at lat decl H' -> H = H'.
Proof.
  intros Hl Hd R R' E E'. apply rises_cos in E; [|assumption..]. apply rises_cos in E'; [|assumption..].
  rewrite <- E' in E. unfold cosd in E. pose proof PI_RGT_0.
  apply cos_inj in E; [nra| |]; nra.
Qed.

Definition offset_at (d : datetime) (u : Z) : Z := (dt_local d - u)%Z.

Section Day.
Context (d : datetime) (u day h m : Z) (Hi : instant d u) (Hc : civil_clock (dt_local d) day h m).
Context (lat lon : R) (Hlat : -90 < lat < 90).
Let decl := fourier_declination (IZR day).
Let x := transit_hours (offset_at d u) lon (IZR day).

Lemma sunrise_hours_val :
  sunrise_hours (N := MathR) (Fin lat) (Fin lon) (offset_at d u) (f_yday (timetuple d)) =
  if asin_ok (cos_H lat decl) then Ok (Fin x, Fin (acos (cos_H lat decl) * (12 / PI))) else Err ValueError.
Proof.
  apply civil_clock_fields in Hc as (Hd & _ & _). unfold sunrise_hours, timetuple. rewrite Hd.
  pose proof (fourier_declination_range (IZR day)).
  replace (@lit MathR (offset_at d u # 1000000)) with (Fin (IZR (offset_at d u) / 1000000)) by (cbn; reflexivity).
  rx. rewrite sunrise_declination_val, bind_Ok, sunrise_adjustment_val, bind_Ok. rx. fold decl.
  rewrite half_day_val by (unfold decl; lra). destruct (asin_ok _); [|reflexivity]. rx.
  do 3 f_equal. unfold x, transit_hours. replace (Q2R 15.0) with 15 by (unfold Q2R; simpl; lra). field.
Qed.

Notation k r := (ZnearestE (r * 3600000000)).
Definition shifted (r : R) : datetime := {| dt_local := day_start (dt_local d) + k r; dt_fold := false; dt_tz := dt_tz d |}.

Lemma sunrise_val :
  get_sunrise_sunset_transit (N := MathR) (Fin lat) (Fin lon) d =
  if asin_ok (cos_H lat decl) then
    let H := acos (cos_H lat decl) * (12 / PI) in
    d1 <- @timedelta_hours MathR (Fin (x - H)) ;; a <- dt_add (same_day d) d1 ;;
    d2 <- @timedelta_hours MathR (Fin (x + H)) ;; b <- dt_add (same_day d) d2 ;;
    d3 <- @timedelta_hours MathR (Fin x) ;; c <- dt_add (same_day d) d3 ;; Ok (a, b, c)
  else Err ValueError.
Proof.
  unfold get_sunrise_sunset_transit. rewrite (instant_aware d u Hi), bind_Ok, (instant_offset d u Hi), bind_Ok.
  fold (offset_at d u). rewrite sunrise_hours_val. destruct (asin_ok _); [|reflexivity]. rewrite bind_Ok. rx. reflexivity.
Qed.
End Day.

(* ---------------------------------------------------------------- C36 *)
Lemma after_nearest l r : hours_after l r (day_start l + ZnearestE (r * 3600000000)).
Proof.
  unfold hours_after. rewrite plus_IZR. pose proof (nearest_half (r * 3600000000)) as H.
  match goal with |- Rabs ?a <= _ => replace a with (IZR (ZnearestE (r * 3600000000)) - r * 3600000000) by ring end.
  exact H.
Qed.

Lemma sunrise_solution d u day h m lat lon sr ss tr :
  instant d u -> civil_clock (dt_local d) day h m -> -90 < lat < 90 ->
  get_sunrise_sunset_transit (N := MathR) (Fin lat) (Fin lon) d = Ok (sr, ss, tr) ->
  let decl := fourier_declination (IZR day) in
  let noon := transit_hours (dt_local d - u) lon (IZR day) in
  exists H, 0 <= H <= 12 /\ rises_at lat decl H /\
    (forall H', 0 <= H' <= 12 -> rises_at lat decl H' -> H' = H) /\
    hours_after (dt_local d) (noon - H) (dt_local sr) /\
    hours_after (dt_local d) (noon + H) (dt_local ss) /\
    hours_after (dt_local d) noon (dt_local tr).
Proof.
  intros Hi Hc Hl Hs decl noon. rewrite (sunrise_val d u day h m Hi Hc lat lon Hl) in Hs.
  fold decl in Hs. unfold offset_at in Hs. fold noon in Hs.
  destruct (asin_ok (cos_H lat decl)) eqn:Ok_; [|discriminate]. apply asin_ok_iff in Ok_.
  cbv zeta in Hs.
  apply bind_eq_Ok in Hs as (d1 & H1 & H). apply bind_eq_Ok in H as (t1 & A1 & H). apply bind_eq_Ok in H as (d2 & H2 & H).
  apply bind_eq_Ok in H as (t2 & A2 & H). apply bind_eq_Ok in H as (d3 & H3 & H).
  apply bind_eq_Ok in H as (t3 & A3 & H). injection H as <- <- <-.
  apply hours_inv in H1 as (r1 & [= E1] & ->). apply hours_inv in H2 as (r2 & [= E2] & ->). apply hours_inv in H3 as (r3 & [= E3] & ->).
  apply dt_add_inv in A1 as (A1 & B1), A2 as (A2 & B2), A3 as (A3 & B3).
  pose proof (fourier_declination_range (IZR day)) as Dr. fold decl in Dr.
  exists (acos (cos_H lat decl) * (12 / PI)).
  assert (HH := acos_hours (cos_H lat decl)).
  assert (Hr : rises_at lat decl (acos (cos_H lat decl) * (12 / PI))).
  { apply rises_cos; [assumption|lra|]. now apply cosd_acos. }
  split; [exact HH|]. split; [exact Hr|]. split.
  { intros H' R' E'. apply rises_unique with lat decl; try assumption; lra. }
  rewrite A1, A2, A3, <- E1, <- E2, <- E3.
  change (dt_local (same_day d)) with (day_start (dt_local d)).
  repeat split; apply after_nearest.
Qed.

(* ---------------------------------------------------------------- C37 *)
Lemma has_solution lat decl : -90 < lat < 90 -> -90 < decl < 90 ->
  (asin_ok (cos_H lat decl) = true <-> exists H, rises_at lat decl H).
Proof.
  intros Hl Hd. rewrite asin_ok_iff. split.
  - intros Hb. exists (acos (cos_H lat decl) * (12 / PI)). apply rises_cos; auto. now apply cosd_acos.
  - intros (H & E). apply rises_cos in E; auto. rewrite <- E. apply cosd_bound.
Qed.



Lemma in_day d x : inside_calendar d -> -48 <= x <= 64 ->
  exists t, (k <- @timedelta_hours MathR (Fin x) ;; dt_add (same_day d) k) = Ok t.
Proof.
  intros Hin Hx. cbn [timedelta_hours MathR xtimedelta_hours].
  pose proof (nearest_le (-48 * 3600000000) (x * 3600000000) ltac:(lra)) as L.
  pose proof (nearest_le (x * 3600000000) (64 * 3600000000) ltac:(lra)) as U.
  replace (-48 * 3600000000) with (IZR (-172800000000)) in L by lra.
  replace (64 * 3600000000) with (IZR 230400000000) in U by lra.
  rewrite (@Zrnd_IZR ZnearestE (valid_rnd_N _)) in L, U.
  set (k := ZnearestE (x * 3600000000)) in *. clearbody k.
  assert ((Z.abs (k / 86400000000) <=? 999999999)%Z = true) as -> by zlia.
  rewrite bind_Ok. unfold dt_add, in_range, same_day. cbn [dt_local].
  unfold inside_calendar in Hin. change us_per_day with 86400000000%Z in *. change max_us with (3652059 * 86400000000)%Z in *.
  assert (((0 <=? dt_local d / 86400000000 * 86400000000 + k) && (dt_local d / 86400000000 * 86400000000 + k <? 3652059 * 86400000000))%Z = true) as -> by zlia.
  eauto.
Qed.

Lemma calendar_room d u lon day H : instant d u -> inside_calendar d -> -180 <= lon <= 180 -> -12 <= H <= 12 ->
  -48 <= transit_hours (dt_local d - u) lon day + H <= 64.
Proof.
  intros (tz & o & _ & _ & Ho & ->) Hin Hlon HH. unfold transit_hours.
  pose proof (fourier_eot_range day).
  replace (dt_local d - (dt_local d - o))%Z with o by lia.
  assert (-86400000000 <= IZR o <= 86400000000).
  { change us_per_day with 86400000000%Z in Ho. split; apply IZR_le; lia. }
  lra.
Qed.

Lemma sunrise_raises_iff d u day h m lat lon :
  instant d u -> civil_clock (dt_local d) day h m -> -90 < lat < 90 -> -180 <= lon <= 180 -> inside_calendar d ->
  ((exists H, rises_at lat (fourier_declination (IZR day)) H) <->
   exists r, get_sunrise_sunset_transit (N := MathR) (Fin lat) (Fin lon) d = Ok r) /\
  (~ (exists H, rises_at lat (fourier_declination (IZR day)) H) <->
   get_sunrise_sunset_transit (N := MathR) (Fin lat) (Fin lon) d = Err ValueError).
Proof.
  intros Hi Hc Hl Hlon Hin. rewrite (sunrise_val d u day h m Hi Hc lat lon Hl).
  pose proof (fourier_declination_range (IZR day)) as Dr.
  set (decl := fourier_declination (IZR day)) in *.
  rewrite <- (has_solution lat decl Hl) by lra.
  destruct (asin_ok (cos_H lat decl)); cbv zeta.
  2:{ split; split; intros H; try discriminate; try reflexivity; [destruct H; discriminate]. }
  pose proof (acos_hours (cos_H lat decl)) as HH. set (H := acos (cos_H lat decl) * (12 / PI)) in *.
  unfold offset_at. set (x := transit_hours (dt_local d - u) lon (IZR day)).
  assert (Ex : exists r, (d1 <- @timedelta_hours MathR (Fin (x - H)) ;; a <- dt_add (same_day d) d1 ;;
    d2 <- @timedelta_hours MathR (Fin (x + H)) ;; b <- dt_add (same_day d) d2 ;;
    d3 <- @timedelta_hours MathR (Fin x) ;; c <- dt_add (same_day d) d3 ;; Ok (a, b, c)) = Ok r).
  { destruct (in_day d (x - H) Hin (calendar_room d u lon (IZR day) (- H) Hi Hin Hlon ltac:(lra))) as (a & Ea).
    destruct (in_day d (x + H) Hin (calendar_room d u lon (IZR day) H Hi Hin Hlon ltac:(lra))) as (b & Eb).
    destruct (in_day d x Hin) as (c & Ec).
    { pose proof (calendar_room d u lon (IZR day) 0 Hi Hin Hlon ltac:(lra)). fold x in H0. lra. }
    apply bind_eq_Ok in Ea as (d1 & -> & Ea). apply bind_eq_Ok in Eb as (d2 & -> & Eb). apply bind_eq_Ok in Ec as (d3 & -> & Ec).
    cbn [bind]. rewrite Ea. cbn [bind]. rewrite Eb. cbn [bind]. rewrite Ec. eexists. reflexivity. }
  destruct Ex as (r & ->). split; split; intros E; try discriminate; eauto. now elim E.
Qed.

(* numpy mode: the arc cosine of a value outside [-1,1] is nan, which timedelta refuses *)
Lemma half_day_np lat dd decl : -90 < lat < 90 -> -90 < decl < 90 -> vx dd = Fin decl ->
  asin_ok (cos_H lat decl) = false ->
  exists y, sunrise_half_day (N := NumpyR) (mknx false (Fin lat)) dd = Ok y /\ vx y = NaN.
Proof.
  intros Hl Hd Ed Hno. pose proof (cosd_pos lat Hl) as Pl. pose proof (cosd_pos decl Hd) as Pd.
  assert (Pc : cosd lat * cosd decl <> 0) by (apply Rmult_integral_contrapositive_currified; lra).
  destruct dd as [b v]. cbn in Ed. subst v.
  unfold sunrise_half_day. cbn [ncos NumpyR npf bind radians lit vx div is_np orb ntan nacos mul sub lift2].
  assert (E : forall r, np_cos (xradians (Fin r)) = Fin (cosd r)) by (intros; cbn; rewrite cosd_rad; do 2 f_equal; unfold rad; field).
  assert (Et : forall r, cosd r <> 0 -> np_tan (xradians (Fin r)) = Fin (tand r)).
  { intros r Hr. cbn. replace (r * (PI / 180)) with (rad r) by (unfold rad; field). rewrite cosd_rad in Hr. unfold Rtan_x. rewrite Req_bool_false by assumption. now rewrite tand_rad. }
  rewrite !E, !Et by lra. cbn [xmul]. unfold xdiv_np, xis_zero. rewrite Req_bool_false by assumption. cbn [xdiv_nz].
  cbn [npi NumpyR is_np vx]. unfold xdiv_py, xis_zero. rewrite Req_bool_false by apply PI_ne0.
  cbn [rmap bind]. eexists. split; [reflexivity|]. cbn [lift2 vx xsub np_acos xdiv_nz].
  change (cosd 90.833 / (cosd lat * cosd decl) - tand lat * tand decl) with (cos_H lat decl).
  change (xmul (np_acos (Fin (cos_H lat decl))) (Fin (Q2R 12 / PI)) = NaN). cbn [np_acos]. rewrite Hno. reflexivity.
Qed.

Lemma sunrise_numpy d u day h m lat lon :
  instant d u -> civil_clock (dt_local d) day h m -> -90 < lat < 90 ->
  ~ (exists H, rises_at lat (fourier_declination (IZR day)) H) ->
  get_sunrise_sunset_transit (N := NumpyR) (mknx false (Fin lat)) (mknx false (Fin lon)) d = Err ValueError.
Proof.
  intros Hi Hc Hl Hn. pose proof (fourier_declination_range (IZR day)) as Dr.
  rewrite <- (has_solution lat _ Hl) in Hn by lra. apply Bool.not_true_is_false in Hn. set (decl := fourier_declination (IZR day)) in *.
  unfold get_sunrise_sunset_transit. rewrite (instant_aware d u Hi), bind_Ok, (instant_offset d u Hi), bind_Ok.
  cbv zeta. unfold sunrise_hours.
  apply civil_clock_fields in Hc as (Hd & _ & _). unfold timetuple. rewrite Hd.
  destruct (r_div _ _ math_numpy (lit ((dt_local d - u) # 1000000)) (lit ((dt_local d - u) # 1000000)) (lit 3600) (lit 3600) eq_refl eq_refl
    (Fin (IZR (dt_local d - u) / 1000000 / 3600))) as (hh & -> & Eh).
  { replace (@lit MathR ((dt_local d - u) # 1000000)) with (Fin (IZR (dt_local d - u) / 1000000)) by reflexivity. rx. reflexivity. }
  rewrite bind_Ok.
  destruct (sunrise_declination_rel math_numpy (Fin (IZR day)) (ofZ day)) with (a := Fin decl) as (dd & -> & Ed).
  { cbn. now rewrite Q2R_inject. } { apply sunrise_declination_val. } rewrite bind_Ok.
  destruct (sunrise_time_adjustment_rel math_numpy (Fin (IZR day)) (ofZ day)) with (a := Fin (fourier_eot (IZR day) / 3600)) as (aa & -> & Eaa).
  { cbn. now rewrite Q2R_inject. } { apply sunrise_adjustment_val. } rewrite bind_Ok.
  cbn in Eh, Ed, Eaa.
  match goal with |- context [@div NumpyR ?s (lit 15.0)] => set (sha := s) end.
  assert (Esha : exists x, vx sha = Fin x) by (unfold sha; cbn; rewrite <- Eh; cbn; eauto). destruct Esha as (sx & Esha).
  destruct (r_div _ _ math_numpy (Fin sx) sha (lit 15.0) (lit 15.0) (eq_sym Esha) eq_refl (Fin (sx / 15))) as (n & -> & En).
  { rx. replace (Q2R 15.0) with 15 by (unfold Q2R; simpl; lra). reflexivity. }
  rewrite bind_Ok.
  destruct (half_day_np lat dd decl Hl ltac:(lra) (eq_sym Ed) Hn) as (y & -> & Ey). rewrite bind_Ok.
  cbn [bind]. cbn [sub NumpyR lift2 add vx timedelta_hours]. rewrite Ey. cbn in En. rewrite <- En, <- Eaa. reflexivity.
Qed.

(* ---------------------------------------------------------------- the poles *)
(* exactly at a pole the reals divide by zero; binary64 does not (cos(radians(90)) is 6e-17) *)
Lemma sunrise_pole d u lat lon : instant d u -> cosd lat = 0 ->
  get_sunrise_sunset_transit (N := MathR) (Fin lat) (Fin lon) d = Err ZeroDivisionError.
Proof.
  intros Hi Hl. unfold get_sunrise_sunset_transit. rewrite (instant_aware d u Hi), bind_Ok, (instant_offset d u Hi), bind_Ok.
  cbv zeta. unfold sunrise_hours. destruct (civil_clock_exists (dt_local d)) as (day & h & m & Hc).
  apply civil_clock_fields in Hc as (Hd & _ & _). unfold timetuple. rewrite Hd.
  replace (@lit MathR ((dt_local d - u) # 1000000)) with (Fin (IZR (dt_local d - u) / 1000000)) by reflexivity.
  rx. rewrite sunrise_declination_val, bind_Ok, sunrise_adjustment_val, bind_Ok. rx.
  unfold sunrise_half_day. rx. rewrite <- !cosd_rad, Hl, Rmult_0_l, div_R0. reflexivity.
Qed.

(* ---------------------------------------------------------------- C38 *)
Lemma nearest_plus_even x n : ZnearestE (x + IZR (2 * n)) = (ZnearestE x + 2 * n)%Z.
Proof.
  unfold Znearest.
  assert (Ef : Zfloor (x + IZR (2 * n)) = (Zfloor x + 2 * n)%Z).
  { apply Zfloor_imp. rewrite !plus_IZR. pose proof (Zfloor_lb x). pose proof (Zfloor_ub x). lra. }
  assert (Ec : Zceil (x + IZR (2 * n)) = (Zceil x + 2 * n)%Z).
  { apply Zceil_imp. rewrite minus_IZR, !plus_IZR. pose proof (Zceil_ub x). pose proof (Zceil_lb x). lra. }
  rewrite Ef, Ec, plus_IZR.
  replace (x + IZR (2 * n) - (IZR (Zfloor x) + IZR (2 * n))) with (x - IZR (Zfloor x)) by ring.
  destruct (Rcompare _ _); try reflexivity.
  rewrite Z.even_add_mul_2. destruct (negb _); reflexivity.
Qed.

Lemma shift_rounding y o o' :
  let f n := (ZnearestE (y + IZR n) - n)%Z in
  (Z.abs (f o - f o') <= 1)%Z /\ (Z.even (o - o') = true -> f o = f o').
Proof.
  intros f. split.
  - unfold f. pose proof (nearest_half (y + IZR o)) as A. pose proof (nearest_half (y + IZR o')) as B.
    apply le_IZR. rewrite abs_IZR, !minus_IZR. apply Rabs_le_inv in A, B. apply Rabs_le. lra.
  - intros E. apply Z.even_spec in E as (n & E). unfold f.
    replace o with (o' + 2 * n)%Z by lia. rewrite plus_IZR, <- Rplus_assoc, nearest_plus_even. lia.
Qed.

Lemma fixed_instant d o : fixed_offset d o -> instant d (dt_local d - o).
Proof. intros (tz & E & F & B). exists tz, o. repeat split; auto. Qed.

Lemma civil_same_day l l' day h m day' h' m' : day_start l = day_start l' ->
  civil_clock l day h m -> civil_clock l' day' h' m' -> day = day'.
Proof.
  intros E C C'. apply civil_clock_fields in C as (<- & _). apply civil_clock_fields in C' as (<- & _).
  unfold day_start in E. unfold f_yday, fields_of_us. change us_per_day with 86400000000%Z.
  replace (l' / 86400000000)%Z with (l / 86400000000)%Z by lia.
  destruct (ord2ymd _) as [[? ?] ?]. reflexivity.
Qed.


Lemma same_moment_core d d' o o' a a' y : fixed_offset d o -> fixed_offset d' o' ->
  day_start (dt_local d) = day_start (dt_local d') ->
  dt_tz a = dt_tz d -> dt_tz a' = dt_tz d' ->
  dt_local a = (day_start (dt_local d) + ZnearestE (y + IZR o))%Z ->
  dt_local a' = (day_start (dt_local d') + ZnearestE (y + IZR o'))%Z -> same_moment o o' a a'.
Proof.
  intros (tz & E & F & B) (tz' & E' & F' & B') Hs Ea Ea' La La'.
  destruct (shift_rounding y o o') as (S1 & S2). cbv zeta in S1, S2.
  exists (dt_local a - o)%Z, (dt_local a' - o')%Z. split; [|split; [|split]].
  - exists tz, o. rewrite Ea. repeat split; auto.
  - exists tz', o'. rewrite Ea'. repeat split; auto.
  - rewrite La, La', Hs. lia.
  - intros Ev. specialize (S2 Ev). rewrite La, La', Hs. lia.
Qed.

Lemma sunrise_inv d u day h m lat lon sr ss tr :
  instant d u -> civil_clock (dt_local d) day h m -> -90 < lat < 90 ->
  get_sunrise_sunset_transit (N := MathR) (Fin lat) (Fin lon) d = Ok (sr, ss, tr) ->
  let x := transit_hours (dt_local d - u) lon (IZR day) in
  let H := acos (cos_H lat (fourier_declination (IZR day))) * (12 / PI) in
  let at_ t r := dt_local t = (day_start (dt_local d) + ZnearestE (r * 3600000000))%Z /\ dt_tz t = dt_tz d in
  at_ sr (x - H) /\ at_ ss (x + H) /\ at_ tr x.
Proof.
  intros Hi Hc Hl Hs x H at_. rewrite (sunrise_val d u day h m Hi Hc lat lon Hl) in Hs.
  destruct (asin_ok _); [|discriminate]. cbv zeta in Hs. unfold offset_at in Hs. fold x H in Hs.
  apply bind_eq_Ok in Hs as (d1 & H1 & Hs). apply bind_eq_Ok in Hs as (t1 & A1 & Hs). apply bind_eq_Ok in Hs as (d2 & H2 & Hs).
  apply bind_eq_Ok in Hs as (t2 & A2 & Hs). apply bind_eq_Ok in Hs as (d3 & H3 & Hs).
  apply bind_eq_Ok in Hs as (t3 & A3 & Hs). injection Hs as <- <- <-.
  apply hours_inv in H1 as (r1 & [= <-] & ->). apply hours_inv in H2 as (r2 & [= <-] & ->). apply hours_inv in H3 as (r3 & [= <-] & ->).
  apply dt_add_inv in A1, A2, A3. unfold at_. auto.
Qed.

Lemma sunrise_timezone_free d d' o o' lat lon sr ss tr sr' ss' tr' :
  fixed_offset d o -> fixed_offset d' o' -> day_start (dt_local d) = day_start (dt_local d') -> -90 < lat < 90 ->
  get_sunrise_sunset_transit (N := MathR) (Fin lat) (Fin lon) d = Ok (sr, ss, tr) ->
  get_sunrise_sunset_transit (N := MathR) (Fin lat) (Fin lon) d' = Ok (sr', ss', tr') ->
  same_moment o o' sr sr' /\ same_moment o o' ss ss' /\ same_moment o o' tr tr'.
Proof.
  intros F F' Hs Hl G G'.
  destruct (civil_clock_exists (dt_local d)) as (day & h & m & Hc). destruct (civil_clock_exists (dt_local d')) as (day' & h' & m' & Hc').
  pose proof (civil_same_day _ _ _ _ _ _ _ _ Hs Hc Hc') as <-.
  pose proof (sunrise_inv d _ day h m lat lon sr ss tr (fixed_instant d o F) Hc Hl G) as ((A1 & A2) & (A3 & A4) & (A5 & A6)).
  pose proof (sunrise_inv d' _ day h' m' lat lon sr' ss' tr' (fixed_instant d' o' F') Hc' Hl G') as ((B1 & B2) & (B3 & B4) & (B5 & B6)).
  replace (dt_local d - (dt_local d - o))%Z with o in * by lia. replace (dt_local d' - (dt_local d' - o'))%Z with o' in * by lia.
  set (H := acos _ * _) in *.
  set (c := 12 - lon / 15 - fourier_eot (IZR day) / 3600).
  assert (Ex : forall n k, (transit_hours n lon (IZR day) + k) * 3600000000 = (c + k) * 3600000000 + IZR n) by (intros; unfold transit_hours, c; field).
  repeat split.
  - apply (same_moment_core d d' o o' sr sr' ((c + - H) * 3600000000)); auto; rewrite <- Ex; assumption.
  - apply (same_moment_core d d' o o' ss ss' ((c + H) * 3600000000)); auto; rewrite <- Ex; assumption.
  - apply (same_moment_core d d' o o' tr tr' ((c + 0) * 3600000000)); auto; rewrite <- Ex, Rplus_0_r; assumption.
Qed.

(* ---------------------------------------------------------------- C39 *)
Lemma transit_same_day d u lat lon sr ss tr : instant d u -> -90 < lat < 90 ->
  get_sunrise_sunset_transit (N := MathR) (Fin lat) (Fin lon) d = Ok (sr, ss, tr) ->
  Rabs (IZR (dt_local d - u) / 3600000000 - lon / 15) <= 11 ->
  day_start (dt_local tr) = day_start (dt_local d).
Proof.
  intros Hi Hl G Hm. destruct (civil_clock_exists (dt_local d)) as (day & h & m & Hc).
  pose proof (sunrise_inv d u day h m lat lon sr ss tr Hi Hc Hl G) as (_ & _ & (A & _)). rewrite A.
  pose proof (fourier_eot_range (IZR day)) as E. apply Rabs_le_inv in Hm.
  assert (X : 0 <= transit_hours (dt_local d - u) lon (IZR day) <= 23.5) by (unfold transit_hours; lra).
  set (x := transit_hours _ _ _) in *.
  pose proof (nearest_le (IZR 0) (x * 3600000000) ltac:(lra)) as L.
  pose proof (nearest_le (x * 3600000000) (IZR 84600000000) ltac:(lra)) as U.
  rewrite (@Zrnd_IZR ZnearestE (valid_rnd_N _)) in L, U. unfold day_start. zlia.
Qed.

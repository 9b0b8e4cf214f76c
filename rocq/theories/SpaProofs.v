(* Closeness of the returned direction to the published algorithm (C56). *)
From Coq Require Import Reals Qreals Lra Lia Psatz.
From Flocq Require Import Core.
From Interval Require Import Tactic.
From Verif Require Import Py Num Cal CalProofs TzCheck Tables Constants SolarTime Solar RInst RTac SpecTime SpecDt SolarTimeProofs
  JulianProofs GenProofs SpecGeom SpecAstro Trig GeoProofs RefractionProofs SphereProofs SeriesProofs PositionProofs TopoProofs.
Local Open Scope R_scope.

Lemma cos_lip a b : Rabs (cos a - cos b) <= Rabs (a - b).
Proof.
  rewrite <- !sin_shift. replace (a - b) with (- ((PI / 2 - a) - (PI / 2 - b))) by ring. rewrite Rabs_Ropp.
  generalize (PI / 2 - a) (PI / 2 - b). clear a b. intros a b.
  assert (M : forall u v, u < v -> - (v - u) <= sin v - sin u <= v - u).
  { intros u v L. destruct (MVT_cor2 sin cos u v L) as (c & E & _); [intros; apply derivable_pt_lim_sin|].
    rewrite E. pose proof (COS_bound c). split; nra. }
  destruct (Rtotal_order a b) as [L|[L|L]].
  - pose proof (M a b L). rewrite (Rabs_left1 (a - b)) by lra. apply Rabs_le. lra.
  - subst. replace (sin b - sin b) with 0 by ring. rewrite Rabs_R0. apply Rabs_pos.
  - pose proof (M b a L). rewrite (Rabs_pos_eq (a - b)) by lra. apply Rabs_le. lra.
Qed.
Lemma sin_lip a b : Rabs (sin a - sin b) <= Rabs (a - b).
Proof. rewrite <- (cos_shift a), <- (cos_shift b). eapply Rle_trans; [apply cos_lip|]. rewrite <- Rabs_Ropp. right. f_equal. ring. Qed.
Lemma cosd_lip a b : Rabs (cosd a - cosd b) <= Rabs (a - b) * (PI / 180).
Proof.
  rewrite !cosd_rad. eapply Rle_trans; [apply cos_lip|]. rewrite <- rad_minus. unfold rad. rewrite Rabs_mult.
  rewrite (Rabs_pos_eq (PI / 180)); [lra|]. pose proof PI_pos. lra.
Qed.
Lemma sind_lip a b : Rabs (sind a - sind b) <= Rabs (a - b) * (PI / 180).
Proof.
  rewrite !sind_rad. eapply Rle_trans; [apply sin_lip|]. rewrite <- rad_minus. unfold rad. rewrite Rabs_mult.
  rewrite (Rabs_pos_eq (PI / 180)); [lra|]. pose proof PI_pos. lra.
Qed.

(* normalising: if rho w = a + e with w, a unit and e small, then w is near a *)
Lemma rho_near a1 a2 a3 w1 w2 w3 r e1 e3 : a1 * a1 + a2 * a2 + a3 * a3 = 1 -> w1 * w1 + w2 * w2 + w3 * w3 = 1 ->
  0 < r -> a1 + e1 = r * w1 -> a2 = r * w2 -> a3 + e3 = r * w3 ->
  -0.000048 <= e1 <= 0.000048 -> -0.000048 <= e3 <= 0.000048 -> -0.0001 <= r - 1 <= 0.0001.
Proof.
  intros A W R E1 E2 E3 B1 B3.
  assert (Q : r * r = 1 + 2 * (a1 * e1 + a3 * e3) + e1 * e1 + e3 * e3).
  { transitivity (r * r * (w1 * w1 + w2 * w2 + w3 * w3)); [rewrite W; ring|].
    transitivity ((r * w1) * (r * w1) + (r * w2) * (r * w2) + (r * w3) * (r * w3)); [ring|].
    rewrite <- E1, <- E2, <- E3. rewrite <- A. ring. }
  assert (L1 : -1 <= a1 <= 1) by (split; nra). assert (L3 : -1 <= a3 <= 1) by (split; nra).
  assert (P1 : -0.000048 <= a1 * e1 <= 0.000048) by (split; nra).
  assert (P3 : -0.000048 <= a3 * e3 <= 0.000048) by (split; nra).
  assert (S1 : 0 <= e1 * e1 <= 0.000000003) by (split; nra).
  assert (S3 : 0 <= e3 * e3 <= 0.000000003) by (split; nra).
  assert (K : 0.999807 <= r * r <= 1.000193) by lra. clear - R K. split; nra.
Qed.

Lemma near a w r e k : -1 <= w <= 1 -> a + e = r * w -> -0.0001 <= r - 1 <= 0.0001 -> - k <= e <= k -> - (k + 0.0001) <= w - a <= k + 0.0001.
Proof. intros W E R B. assert (w - a = e - (r - 1) * w) by lra. split; nra. Qed.

Lemma dot_chord u1 u2 u3 w1 w2 w3 : u1 * u1 + u2 * u2 + u3 * u3 = 1 -> w1 * w1 + w2 * w2 + w3 * w3 = 1 ->
  u1 * w1 + u2 * w2 + u3 * w3 = 1 - ((u1 - w1) * (u1 - w1) + (u2 - w2) * (u2 - w2) + (u3 - w3) * (u3 - w3)) / 2.
Proof. intros A B. nra. Qed.

Lemma equatorial_unit d h : cosd d * cosd h * (cosd d * cosd h) + - (cosd d * sind h) * - (cosd d * sind h) + sind d * sind d = 1.
Proof.
  pose proof (sincosd d) as S1. pose proof (sincosd h) as S2.
  transitivity (cosd d * cosd d * (sind h * sind h + cosd h * cosd h) + sind d * sind d); [ring|]. rewrite S2. lra.
Qed.

Lemma pb c z k : -1 <= c <= 1 -> - k <= z <= k -> - k <= c * z <= k.
Proof. intros A B. split; nra. Qed.
Lemma pb' c z k : -1 <= c <= 1 -> - k <= z <= k -> - k <= z * c <= k.
Proof. intros A B. rewrite (Rmult_comm z). now apply pb. Qed.
Lemma unit_l a b : a * a + b * b = 1 -> -1 <= a <= 1.
Proof. intros H. split; nra. Qed.
Lemma unit_r a b : a * a + b * b = 1 -> -1 <= b <= 1.
Proof. intros H. split; nra. Qed.
Lemma xk_bound x k : -1.016 <= x <= 1.016 -> 0 < k < 0.000045 -> -0.000046 <= x * k <= 0.000046.
Proof. intros A B. split; nra. Qed.
Lemma sq_bound t k : 0 <= k -> - k <= t <= k -> 0 <= t * t <= k * k.
Proof. intros A B. split; nra. Qed.
Lemma Rle_bounds_lra a b a' b' z : a' <= z <= b' -> a <= a' -> b' <= b -> a <= z <= b.
Proof. lra. Qed.
Ltac pbd := match goal with |- _ <= ?c * ?z <= ?k => first [eapply Rle_bounds_lra; [apply (pb c z k); lra|lra|lra] | eapply Rle_bounds_lra; [apply (pb' z c k); lra|lra|lra]] end.

(* the purely geometric part: lib direction (dec, ha) against the true one w *)
Lemma directions_close delta dec ha C S C' S' k k' x y r q rho w1 w2 w3 :
  let c := cosd delta in let s := sind delta in
  0.91 <= c -> C * C + S * S = 1 -> C' * C' + S' * S' = 1 ->
  -0.00057 <= C - C' <= 0.00057 -> -0.00057 <= S - S' <= 0.00057 ->
  -1.016 <= x <= 1.016 -> -1.016 <= y <= 1.016 -> 0 < k < 0.000045 -> 0 < k' < 0.000045 ->
  0 < r -> r * cosd ha = c * C - x * k -> r * sind ha = c * S ->
  0 < q -> q * cosd dec = c - y * k * C -> q * sind dec = (s - y * k) * (C * cosd ha + S * sind ha) ->
  w1 * w1 + w2 * w2 + w3 * w3 = 1 -> 0 < rho ->
  c * C' - x * k' = rho * w1 -> - (c * S') = rho * w2 -> s - y * k' = rho * w3 ->
  (cosd dec * cosd ha - w1) * (cosd dec * cosd ha - w1) + (- (cosd dec * sind ha) - w2) * (- (cosd dec * sind ha) - w2)
   + (sind dec - w3) * (sind dec - w3) <= 0.000003.
Proof.
  intros c s Hc N1 N2 DC DS Hx Hy Hk Hk' Pr Er1 Er2 Pq Eq1 Eq2 Nw Prho Ew1 Ew2 Ew3.
  pose proof (sincosd delta) as Nd. pose proof (sincosd ha) as Nh. pose proof (sincosd dec) as Ne. fold c s in Nd.
  pose proof (cosd_bound delta) as Bc. pose proof (sind_bound delta) as Bs. fold c in Bc. fold s in Bs.
  pose proof (cosd_bound ha) as Bch. pose proof (sind_bound ha) as Bsh. pose proof (cosd_bound dec) as Bcd. pose proof (sind_bound dec) as Bsd.
  set (ch := cosd ha) in *. set (sh := sind ha) in *. set (cd := cosd dec) in *. set (sd := sind dec) in *.
  clearbody c s ch sh cd sd.
  pose proof (unit_l C S N1) as BC. pose proof (unit_r C S N1) as BS.
  pose proof (unit_l C' S' N2) as BC'. pose proof (unit_r C' S' N2) as BS'.
  pose proof (xk_bound x k Hx Hk) as KX. pose proof (xk_bound y k Hy Hk) as KY.
  pose proof (xk_bound x k' Hx Hk') as KX'. pose proof (xk_bound y k' Hy Hk') as KY'.
  set (xk := x * k) in *. set (yk := y * k) in *. set (xk' := x * k') in *. set (yk' := y * k') in *.
  clearbody xk yk xk' yk'. clear Hx Hy Hk Hk' x y k k'.
  (* hour angle *)
  assert (Rr : -0.00005 <= r - c <= 0.00005).
  { assert (Q : r * r = c * c - 2 * (c * C * xk) + xk * xk).
    { transitivity (r * r * (sh * sh + ch * ch)); [rewrite Nh; ring|].
      transitivity ((r * sh) * (r * sh) + (r * ch) * (r * ch)); [ring|]. rewrite Er1, Er2.
      transitivity (c * c * (C * C + S * S) - 2 * (c * C * xk) + xk * xk); [ring|]. rewrite N1. ring. }
    assert (B : -0.000046 <= C * xk <= 0.000046) by pbd. replace (c * C * xk) with (c * (C * xk)) in Q by ring.
    set (t := C * xk) in *. clearbody t. pose proof (sq_bound xk 0.000046 ltac:(lra) ltac:(lra)) as H. clear - Q B H Hc Pr Bc. split; nra. }
  assert (Dch : -0.00011 <= ch - C <= 0.00011).
  { assert (E : c * (ch - C) = - xk - (r - c) * ch) by lra. assert (-0.00005 <= (r - c) * ch <= 0.00005) by pbd.
    clear - E H KX Hc. split; nra. }
  assert (Dsh : -0.00006 <= sh - S <= 0.00006).
  { assert (E : c * (sh - S) = - ((r - c) * sh)) by lra. assert (-0.00005 <= (r - c) * sh <= 0.00005) by pbd.
    clear - E H Hc. split; nra. }
  assert (Da : 0.9999999 <= C * ch + S * sh <= 1).
  { assert (E : C * ch + S * sh = 1 - ((ch - C) * (ch - C) + (sh - S) * (sh - S)) / 2) by lra. rewrite E.
    pose proof (sq_bound (ch - C) 0.00011 ltac:(lra) ltac:(lra)).
    pose proof (sq_bound (sh - S) 0.00006 ltac:(lra) ltac:(lra)). lra. }
  set (da := C * ch + S * sh) in *. clearbody da.
  (* declination: q (cd, sd) = (c, s) + errors *)
  assert (F1 : -0.000046 <= yk * C <= 0.000046) by pbd.
  assert (F3 : -0.000048 <= (s - yk) * da - s <= 0.000048).
  { replace ((s - yk) * da - s) with (s * (da - 1) - yk * da) by ring.
    assert (-0.0000001 <= s * (da - 1) <= 0.0000001) by pbd. assert (-0.000046 <= yk * da <= 0.000046) by pbd. lra. }
  assert (Rq : -0.0001 <= q - 1 <= 0.0001).
  { apply (rho_near c 0 s cd 0 sd q (- (yk * C)) ((s - yk) * da - s)); lra. }
  pose proof (near c cd q (- (yk * C)) 0.000048 ltac:(lra) ltac:(lra) Rq ltac:(lra)) as Dcd.
  pose proof (near s sd q ((s - yk) * da - s) 0.000048 ltac:(lra) ltac:(lra) Rq ltac:(lra)) as Dsd.
  (* the true direction *)
  assert (Nt : c * C' * (c * C') + - (c * S') * - (c * S') + s * s = 1).
  { transitivity (c * c * (C' * C' + S' * S') + s * s); [ring|]. rewrite N2. lra. }
  pose proof (rho_near (c * C') (- (c * S')) s w1 w2 w3 rho (- xk') (- yk') Nt Nw Prho ltac:(lra) Ew2 ltac:(lra) ltac:(lra) ltac:(lra)) as Rrho.
  assert (W1 : -1 <= w1 <= 1) by (clear - Nw; split; nra). assert (W2 : -1 <= w2 <= 1) by (clear - Nw; split; nra). assert (W3 : -1 <= w3 <= 1) by (clear - Nw; split; nra).
  pose proof (near (c * C') w1 rho (- xk') 0.000048 W1 ltac:(lra) Rrho ltac:(lra)) as D1.
  pose proof (near (- (c * S')) w2 rho 0 0.000048 W2 ltac:(lra) Rrho ltac:(lra)) as D2.
  pose proof (near s w3 rho (- yk') 0.000048 W3 ltac:(lra) Rrho ltac:(lra)) as D3.
  assert (G1 : -0.00083 <= cd * ch - c * C' <= 0.00083).
  { replace (cd * ch - c * C') with ((cd - c) * ch + c * (ch - C) + c * (C - C')) by ring.
    assert (-0.00014801 <= (cd - c) * ch <= 0.00014801) by pbd.
    assert (-0.00011 <= c * (ch - C) <= 0.00011) by pbd.
    assert (-0.00057 <= c * (C - C') <= 0.00057) by pbd. lra. }
  assert (G2 : -0.00079 <= cd * sh - c * S' <= 0.00079).
  { replace (cd * sh - c * S') with ((cd - c) * sh + c * (sh - S) + c * (S - S')) by ring.
    assert (-0.00014801 <= (cd - c) * sh <= 0.00014801) by pbd.
    assert (-0.00006 <= c * (sh - S) <= 0.00006) by pbd.
    assert (-0.00057 <= c * (S - S') <= 0.00057) by pbd. lra. }
  assert (Z1 : -0.001 <= cd * ch - w1 <= 0.001) by lra.
  assert (Z2 : -0.001 <= - (cd * sh) - w2 <= 0.001) by lra.
  assert (Z3 : -0.0003 <= sd - w3 <= 0.0003) by lra.
  set (z1 := cd * ch - w1) in *. set (z2 := - (cd * sh) - w2) in *. set (z3 := sd - w3) in *. clearbody z1 z2 z3. clear - Z1 Z2 Z3. nra.
Qed.

Lemma cosd_01 : cosd 0.1 <= 1 - 0.0000015.
Proof. rewrite cosd_rad. unfold rad. interval with (i_prec 60). Qed.

(* the geocentric coordinates are determined by the relation *)
Lemma spherical_inj a d a' d' : spherical a d = spherical a' d' -> -90 <= d <= 90 -> -90 <= d' <= 90 -> 0 < cosd d ->
  d = d' /\ cosd a = cosd a' /\ sind a = sind a'.
Proof.
  unfold spherical. intros E B B' P. injection E as E1 E2 E3.
  assert (D : d = d').
  { destruct (Rtotal_order d d') as [L|[L|L]]; [|assumption|].
    - pose proof (sind_incr d d' ltac:(lra) L ltac:(lra)). lra.
    - pose proof (sind_incr d' d ltac:(lra) L ltac:(lra)). lra. }
  subst d'. repeat split; nra.
Qed.

Lemma cosd_angle a b a' b' : cosd b = cosd b' -> sind b = sind b' -> a = a' -> cosd (a - b) = cosd (a' - b') /\ sind (a - b) = sind (a' - b').
Proof. intros H1 H2 ->. now rewrite !cosd_minus, !sind_minus, H1, H2. Qed.

Lemma abs_bounds z : Rabs z <= 0.00057 -> -0.00057 <= z <= 0.00057.
Proof. intros H. apply Rabs_le_inv in H. lra. Qed.
Lemma observer_bounds lat el x0 y0 : ellipsoid_point 0.99664719 lat x0 y0 -> -100000 <= el <= 100000 ->
  -1.016 <= x0 + el / 6378140 * cosd lat <= 1.016 /\ -1.016 <= y0 + el / 6378140 * sind lat <= 1.016.
Proof.
  intros [EP _] Hel.
  assert (X : -1 <= x0 <= 1) by (clear Hel; split; nra).
  assert (Y : -1 <= y0 <= 1).
  { assert (Y : -1 <= y0 / 0.99664719 <= 1) by (clear Hel X; split; nra). split; lra. }
  assert (K : -0.0158 <= el / 6378140 <= 0.0158) by lra.
  pose proof (pb' (cosd lat) (el / 6378140) 0.0158 (cosd_bound lat) ltac:(lra)).
  pose proof (pb' (sind lat) (el / 6378140) 0.0158 (sind_bound lat) ltac:(lra)). lra.
Qed.

Lemma spa_close lat lon d el u : instant d u -> in_range u = true -> -90 <= lat <= 90 -> -100000 <= el <= 100000 ->
  exists jd jde x0 y0 dec ha,
    get_julian_solar_day (N := MathR) d = Ok (Fin jd) /\ get_julian_ephemeris_day (N := MathR) d = Ok (Fin jde) /\
    ellipsoid_point 0.99664719 lat x0 y0 /\
    get_topocentric_position (N := MathR) (Fin lat) (Fin lon) d (Fin el) = Ok (Fin dec, Fin ha) /\
    forall w, spa_direction sun_earth_distance_coeffs heliocentric_latitude_coeffs heliocentric_longitude_coeffs nut_rows
                ((jde - 2451545) / 36525) jd lon (x0 + el / 6378140 * cosd lat) (y0 + el / 6378140 * sind lat) w ->
      cosd 0.1 <= dot (equatorial dec ha) w.
Proof.
  intros Hi Hr Hlat Hel.
  destruct (pipeline lat lon d el u Hi Hr Hlat ltac:(lra)) as
    (jd & jde & m & alpha & delta & H & x0 & y0 & dec & ha & J1 & J2 & M & E & EQ & SH & EP & (r & Pr & R1 & R2) & (q & Pq & Q1 & Q2) & _ & _ & _).
  destruct (jd_ok d u Hi Hr) as (jd' & jde' & J1' & J2' & BJ & BE). rewrite J1 in J1'. rewrite J2 in J2'.
  injection J1' as <-. injection J2' as <-.
  exists jd, jde, x0, y0, dec, ha. repeat (split; [assumption|]).
  intros [[w1 w2] w3] (Nw & al & de & Ht & rho & EQ' & ST & Prho & PW).
  fold (T_of jde) in *. set (T := T_of jde) in *.
  pose proof (lib_equatorial_correct jde BE) as L. destruct L as [LB LE]. fold T in LE.
  destruct EQ as [EB EE]. destruct EQ' as [EB' EE']. rewrite <- EE in EE'. rewrite <- LE in EE.
  pose proof (cos_delta_bound jde BE) as CD.
  destruct (spherical_inj (sun_alpha jde) (sun_delta jde) alpha delta (eq_sym EE) LB EB ltac:(lra)) as (D1 & _ & _).
  rewrite D1 in CD.
  destruct (spherical_inj alpha delta al de (eq_sym EE') EB EB' ltac:(lra)) as (D2 & A1 & A2). subst de.
  unfold parallax_shift in PW. destruct PW as (W1 & W2 & W3).
  set (x := x0 + el / 6378140 * cosd lat) in *. set (y := y0 + el / 6378140 * sind lat) in *.
  assert (XY : -1.016 <= x <= 1.016 /\ -1.016 <= y <= 1.016).
  { unfold x, y. now apply observer_bounds. }
  pose proof (sun_R_range jde BE) as RR. pose proof (sun_R_spec jde) as RS. fold T in RS. rewrite <- RS in *.
  assert (K1 : 0 < sind (8.794 / 3600 * sun_R jde) < 0.000045).
  { set (z := sun_R jde) in *. clearbody z. rewrite sind_rad. unfold rad. split; interval with (i_prec 60). }
  assert (K2 : 0 < sind (8.794 / 3600 / sun_R jde) < 0.000045).
  { set (z := sun_R jde) in *. clearbody z. rewrite sind_rad. unfold rad. split; interval with (i_prec 60). }
  (* hour angles *)
  destruct (mean_sidereal_correct jd ltac:(lra)) as (m' & M' & _ & e & Be & Se). rewrite M in M'. injection M' as <-.
  pose proof (true_obl_spec jde) as OS. fold T in OS.
  destruct (nutation_bounds T) as (n & _ & _ & _ & _ & NB). destruct (NB ltac:(unfold T; pose proof (T_range jde BE); lra)) as [NB1 _].
  set (nl := nutation_longitude T nut_rows) in *. set (ob := spa_obliquity nut_rows T) in *.
  set (th := iau_sidereal jd + nl * cosd ob + lon).
  set (ep := - e + nl * (cos ob - cosd ob)).
  assert (HL : same_angle H ((th - alpha) + ep)).
  { destruct SH as [k1 SH]. destruct Se as [k2 Se]. exists (k1 + k2)%Z. rewrite plus_IZR. unfold ep, th. lra. }
  assert (Bep : Rabs ep <= 0.032).
  { unfold ep. eapply Rle_trans; [apply Rabs_triang|]. rewrite Rabs_Ropp, Rabs_mult.
    assert (Rabs (cos ob - cosd ob) <= 2) by (apply Rabs_le; pose proof (COS_bound ob); pose proof (cosd_bound ob); lra).
    pose proof (Rabs_pos nl) as Z1. pose proof (Rabs_pos (cos ob - cosd ob)) as Z2. clear - Be NB1 H0 Z1 Z2. nra. }
  assert (PI180 : 0 < PI / 180 < 0.0175) by (split; interval).
  destruct (cosd_angle th alpha th al A1 A2 eq_refl) as [A3 A4].
  assert (DC : -0.00057 <= cosd H - cosd Ht <= 0.00057).
  { apply abs_bounds. rewrite (same_angle_cos _ _ HL), (same_angle_cos _ _ ST). fold th. rewrite <- A3.
    eapply Rle_trans; [apply cosd_lip|]. replace (th - alpha + ep - (th - alpha)) with ep by ring.
    pose proof (Rabs_pos ep) as Z. clear - Z PI180 Bep. set (k := PI / 180) in *. clearbody k. nra. }
  assert (DS : -0.00057 <= sind H - sind Ht <= 0.00057).
  { apply abs_bounds. rewrite (same_angle_sin _ _ HL), (same_angle_sin _ _ ST). fold th. rewrite <- A4.
    eapply Rle_trans; [apply sind_lip|]. replace (th - alpha + ep - (th - alpha)) with ep by ring.
    pose proof (Rabs_pos ep) as Z. clear - Z PI180 Bep. set (k := PI / 180) in *. clearbody k. nra. }
  rewrite cosd_minus in Q2.
  unfold dot in Nw. unfold dot, equatorial.
  pose proof (sincosd H) as SC1. pose proof (sincosd Ht) as SC2.
  pose proof (directions_close delta dec ha (cosd H) (sind H) (cosd Ht) (sind Ht) (sind (8.794 / 3600 * sun_R jde)) (sind (8.794 / 3600 / sun_R jde))
    x y r q rho w1 w2 w3 ltac:(lra) ltac:(lra) ltac:(lra) DC DS (proj1 XY) (proj2 XY) K1 K2 Pr R1 R2 Pq Q1 Q2 Nw Prho W1 W2 W3) as Z.
  rewrite dot_chord by (assumption || apply equatorial_unit). pose proof cosd_01. lra.
Qed.

Lemma spa_direction_exists dist lt ln nut T jd lon x y alpha delta : spa_equatorial dist lt ln nut T alpha delta ->
  0.9 <= cosd delta -> -1.016 <= x <= 1.016 -> -1.016 <= y <= 1.016 -> 0.96 <= spa_distance dist T <= 1.04 ->
  exists w, spa_direction dist lt ln nut T jd lon x y w.
Proof.
  intros EQ C Hx Hy HR.
  set (H := iau_sidereal jd + nutation_longitude T nut * cosd (spa_obliquity nut T) + lon - alpha).
  set (p := 8.794 / 3600 / spa_distance dist T).
  assert (K : 0 < sind p < 0.000045).
  { unfold p. set (z := spa_distance dist T) in *. clearbody z. rewrite sind_rad. unfold rad. split; interval with (i_prec 60). }
  set (a := cosd delta * cosd H - x * sind p). set (b := - (cosd delta * sind H)). set (c := sind delta - y * sind p).
  assert (N : 0 < a * a + b * b + c * c).
  { pose proof (xk_bound x (sind p) Hx K) as X. pose proof (sincosd H) as SC. unfold a, b.
    assert (A : cosd delta * cosd H * (cosd delta * cosd H) + cosd delta * sind H * (cosd delta * sind H) >= 0.81).
    { replace (cosd delta * cosd H * (cosd delta * cosd H) + cosd delta * sind H * (cosd delta * sind H)) with
        (cosd delta * cosd delta * (sind H * sind H + cosd H * cosd H)) by ring. rewrite SC. nra. }
    pose proof (cosd_bound H) as B1. pose proof (cosd_bound delta) as B2.
    pose proof (pb (cosd delta) (cosd H) 1 B2 ltac:(lra)) as B3.
    pose proof (pb (cosd delta * cosd H) (x * sind p) 0.000046 ltac:(lra) ltac:(lra)) as B4.
    set (u := cosd delta * cosd H) in *. set (v := cosd delta * sind H) in *. set (t := x * sind p) in *. clear - A B4. nra. }
  set (r := sqrt (a * a + b * b + c * c)). assert (Pr : 0 < r) by now apply sqrt_lt_R0.
  assert (R2 : r * r = a * a + b * b + c * c) by (apply sqrt_sqrt; lra).
  exists (a / r, b / r, c / r). split.
  - unfold dot. transitivity ((a * a + b * b + c * c) / (r * r)); [field; lra|]. rewrite <- R2. field. lra.
  - exists alpha, delta, H, r. split; [exact EQ|]. split; [apply same_angle_refl|]. split; [exact Pr|].
    unfold parallax_shift. fold p a b c. repeat split; field; lra.
Qed.

Lemma spa_position lat lon d el u : instant d u -> in_range u = true -> -90 <= lat <= 90 -> -100000 <= el <= 100000 ->
  exists jd jde x0 y0 dec ha,
    get_julian_solar_day (N := MathR) d = Ok (Fin jd) /\ get_julian_ephemeris_day (N := MathR) d = Ok (Fin jde) /\
    ellipsoid_point 0.99664719 lat x0 y0 /\
    get_topocentric_position (N := MathR) (Fin lat) (Fin lon) d (Fin el) = Ok (Fin dec, Fin ha) /\
    let is_direction := spa_direction sun_earth_distance_coeffs heliocentric_latitude_coeffs heliocentric_longitude_coeffs
      (combine nutation_coefficients aberration_sin_terms) ((jde - 2451545) / 36525) jd lon
      (x0 + el / 6378140 * cosd lat) (y0 + el / 6378140 * sind lat) in
    (exists w, is_direction w) /\ forall w, is_direction w -> cosd 0.1 <= dot (equatorial dec ha) w.
Proof.
  intros Hi Hr Hlat Hel. destruct (spa_close lat lon d el u Hi Hr Hlat Hel) as (jd & jde & x0 & y0 & dec & ha & H1 & H2 & H3 & H4 & H5).
  exists jd, jde, x0, y0, dec, ha. repeat (split; [assumption|]). cbv zeta. split; [|exact H5].
  destruct (jd_ok d u Hi Hr) as (jd' & jde' & _ & J2' & _ & BE). rewrite H2 in J2'. injection J2' as <-.
  destruct (observer_bounds lat el x0 y0 H3 Hel) as [X Y]. fold (T_of jde).
  apply (spa_direction_exists _ _ _ _ _ _ _ _ _ (sun_alpha jde) (sun_delta jde)); try assumption.
  - now apply lib_equatorial_correct.
  - pose proof (cos_delta_bound jde BE). lra.
  - rewrite <- sun_R_spec. now apply sun_R_range.
Qed.

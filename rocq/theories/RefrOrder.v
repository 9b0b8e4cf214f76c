(* Refraction lifts a lower sun more than a higher one, but never past it. *)
From Coq Require Import Reals Qreals Lra Lia Psatz.
From Flocq Require Import Core.
From Coquelicot Require Import Coquelicot.
From Interval Require Import Tactic.
From Verif Require Import Py Num Cal Constants SolarTime Solar RInst RTac SpecTime SpecDt SpecGeom Trig GeoProofs RefractionProofs PositionProofs
  B64 SpecB64 B64Ranges B64Final.
Local Open Scope R_scope.

Definition cotan_arg (e : R) : R := cosd (refraction_argument e) / sind (refraction_argument e).
Definition slope (e : R) : R := (1 - 10.3 / ((e + 5.11) * (e + 5.11))) * (PI / 180) / (sind (refraction_argument e) * sind (refraction_argument e)).

Lemma cotan_derive e : -0.83337 <= e <= 90 -> is_derive cotan_arg e (- slope e).
Proof.
  intros H. pose proof (refraction_sin_ne0 e ltac:(lra) ltac:(lra)) as S. unfold cotan_arg, slope, cosd, sind, refraction_argument in *.
  auto_derive.
  - split; [lra|]. split; [lra|]. split; [exact S|exact I].
  - set (a := (e + 10.3 / (e + 5.11)) * PI / 180) in *. 
    replace ((e + 10.3 * / (e + 5.11)) * PI * / 180) with a by reflexivity.
    pose proof (sin2_cos2 a) as SC. unfold Rsqr in SC.
    set (k := / (e + 5.11)). assert (K : (e + 5.11) * k = 1) by (unfold k; field; lra).
    match goal with |- ?l = ?r => replace l with (- ((1 - 10.3 * (k * k)) * (PI / 180)) * (sin a * sin a + cos a * cos a) / (sin a * sin a)) end.
    + rewrite SC. unfold k. field. repeat split; first [exact S | lra].
    + unfold k. field. repeat split; first [exact S | lra].
Qed.
Lemma slope_bounds e : -0.83337 <= e <= 90 -> 0 <= slope e <= 10.25.
Proof.
  intros H. unfold slope, sind, refraction_argument. split.
  - interval with (i_bisect e, i_depth 12).
  - interval with (i_bisect e, i_depth 15, i_prec 50).
Qed.

Lemma cotan_step e1 e2 : -0.83337 <= e1 -> e1 <= e2 -> e2 <= 90 -> 0 <= cotan_arg e1 - cotan_arg e2 <= 10.25 * (e2 - e1).
Proof.
  intros H1 H H2. destruct (MVT_gen cotan_arg e1 e2 (fun e => - slope e)) as (c & HC & E).
  - intros x Hx. rewrite Rmin_left, Rmax_right in Hx by lra. apply cotan_derive. lra.
  - intros x Hx. rewrite Rmin_left, Rmax_right in Hx by lra. apply continuity_pt_filterlim, (ex_derive_continuous cotan_arg x).
    exists (- slope x). apply cotan_derive. lra.
  - rewrite Rmin_left, Rmax_right in HC by lra. pose proof (slope_bounds c ltac:(lra)) as B. nra.
Qed.
Lemma cotan_low e : -0.83337 <= e <= 90 -> -0.002 <= cotan_arg e.
Proof.
  intros H. pose proof (cotan_step e 90 ltac:(lra) ltac:(lra) ltac:(lra)) as [B _]. enough (-0.002 <= cotan_arg 90) by lra.
  unfold cotan_arg, cosd, sind, refraction_argument. interval.
Qed.

(* the apparent altitude of an elevation *)
Definition apparent (P T e : R) : R := e + (if Rle_dec (-0.83337) e then refraction_formula P T e else 0).

Lemma apparent_step P T e1 e2 : 180 <= T <= 340 -> 0 <= P <= 110000 -> -90 <= e1 -> e1 < e2 -> e2 <= 90 ->
  0.7 * (e2 - e1) <= apparent P T e2 - apparent P T e1 /\
  (-0.83337 <= e1 \/ e2 < -0.83337 -> apparent P T e2 - apparent P T e1 <= e2 - e1).
Proof.
  intros HT HP H1 H H2. unfold apparent, refraction_formula. fold (cotan_arg e1) (cotan_arg e2).
  set (K := P / 101000 * (283 / T) * (1.02 / 60)).
  assert (KB : 0 <= K <= 0.02912) by (unfold K; split; [|interval]; assert (0 < / T) by (apply Rinv_0_lt_compat; lra);
    assert (0 <= P * / T) by (apply Rmult_le_pos; lra); unfold Rdiv; lra). clearbody K.
  destruct (Rle_dec (-0.83337) e1) as [L1|L1], (Rle_dec (-0.83337) e2) as [L2|L2]; try lra.
  - pose proof (cotan_step e1 e2 L1 ltac:(lra) H2) as B. split; [|intros _]; nra.
  - split; [|lra]. destruct (Rle_dec e2 45) as [M|M].
    + pose proof (cotan_step e2 90 ltac:(lra) ltac:(lra) ltac:(lra)) as [B _].
      assert (0 <= cotan_arg e2); [|nra]. pose proof (cotan_step e2 45 ltac:(lra) M ltac:(lra)) as [B' _].
      enough (0 <= cotan_arg 45) by lra. unfold cotan_arg, cosd, sind, refraction_argument. interval.
    + pose proof (cotan_low e2 ltac:(lra)). nra.
Qed.

(* one observation: place, time, height; the elevation of the sun there and the altitude returned *)
Lemma altitude_apparent lat lon d el u T P dec ha E a : instant d u -> T <> 0 ->
  get_topocentric_position (N := MathR) (Fin lat) (Fin lon) d (Fin el) = Ok (Fin dec, Fin ha) ->
  get_topocentric_elevation_angle (N := MathR) (Fin lat) (Fin dec) (Fin ha) = Ok (Fin E) -> -90 <= E <= 90 ->
  get_altitude (N := MathR) (Fin lat) (Fin lon) d (Fin el) (Fin T) (Fin P) = Ok a -> a = Fin (apparent P T E).
Proof.
  intros Hi HT H1 H2 HE HA. unfold get_altitude in HA. rewrite (instant_aware d u Hi), bind_Ok, H1, bind_Ok, H2, bind_Ok in HA.
  apply bind_eq_Ok in HA as (r & HR & HA). unfold apparent. destruct (Rle_dec (-0.83337) E) as [L|L].
  - rewrite (refraction_above P T E (conj L (proj2 HE)) HT) in HR. injection HR as <-. rewrite add_R in HA. congruence.
  - rewrite (refraction_returns_below _ _ E _ ltac:(lra) HR) in HA. rewrite add_R in HA. congruence.
Qed.

Lemma elevation_range lat lon d el u dec ha E : instant d u -> in_range u = true -> -90 <= lat <= 90 -> -100000 <= el <= 100000 ->
  get_topocentric_position (N := MathR) (Fin lat) (Fin lon) d (Fin el) = Ok (Fin dec, Fin ha) ->
  get_topocentric_elevation_angle (N := MathR) (Fin lat) (Fin dec) (Fin ha) = Ok (Fin E) -> -90 <= E <= 90.
Proof.
  intros Hi Hr Hlat Hel H1 H2. destruct (azimuth_total lat lon d el u Hi Hr Hlat ltac:(lra)) as (dec' & ha' & az & e & G1 & _ & G2 & _ & _ & _ & B).
  rewrite G1 in H1. apply Ok_inj in H1. assert (D : dec' = dec /\ ha' = ha) by (split; congruence). destruct D as [-> ->].
  rewrite G2 in H2. apply Ok_inj in H2. assert (e = E) by congruence. subst. exact B.
Qed.

Lemma altitude_order T P lat1 lon1 d1 el1 u1 dec1 ha1 E1 a1 lat2 lon2 d2 el2 u2 dec2 ha2 E2 a2 :
  180 <= T <= 340 -> 0 <= P <= 110000 ->
  instant d1 u1 -> in_range u1 = true -> -90 <= lat1 <= 90 -> -100000 <= el1 <= 100000 ->
  instant d2 u2 -> in_range u2 = true -> -90 <= lat2 <= 90 -> -100000 <= el2 <= 100000 ->
  get_topocentric_position (N := MathR) (Fin lat1) (Fin lon1) d1 (Fin el1) = Ok (Fin dec1, Fin ha1) ->
  get_topocentric_elevation_angle (N := MathR) (Fin lat1) (Fin dec1) (Fin ha1) = Ok (Fin E1) ->
  get_topocentric_position (N := MathR) (Fin lat2) (Fin lon2) d2 (Fin el2) = Ok (Fin dec2, Fin ha2) ->
  get_topocentric_elevation_angle (N := MathR) (Fin lat2) (Fin dec2) (Fin ha2) = Ok (Fin E2) ->
  get_altitude (N := MathR) (Fin lat1) (Fin lon1) d1 (Fin el1) (Fin T) (Fin P) = Ok (Fin a1) ->
  get_altitude (N := MathR) (Fin lat2) (Fin lon2) d2 (Fin el2) (Fin T) (Fin P) = Ok (Fin a2) ->
  E1 < E2 ->
  0.7 * (E2 - E1) <= a2 - a1 /\ (-0.83337 <= E1 \/ E2 < -0.83337 -> a2 - a1 <= E2 - E1).
Proof.
  intros HT HP Hi1 Hr1 Hl1 Hh1 Hi2 Hr2 Hl2 Hh2 A1 B1 A2 B2 C1 C2 H.
  pose proof (elevation_range _ _ _ _ _ _ _ _ Hi1 Hr1 Hl1 Hh1 A1 B1) as R1. pose proof (elevation_range _ _ _ _ _ _ _ _ Hi2 Hr2 Hl2 Hh2 A2 B2) as R2.
  apply (altitude_apparent _ _ _ _ u1 T P dec1 ha1 E1 _ Hi1 ltac:(lra) A1 B1 R1) in C1.
  apply (altitude_apparent _ _ _ _ u2 T P dec2 ha2 E2 _ Hi2 ltac:(lra) A2 B2 R2) in C2.
  assert (F1 : a1 = apparent P T E1) by congruence. assert (F2 : a2 = apparent P T E2) by congruence. subst a1 a2.
  apply apparent_step; try assumption; lra.
Qed.

Section F.
Context (L : libm) (HL : accurate L).
Lemma altitude_order64 T P xT xP lat1 lon1 d1 el1 u1 x1 y1 h1 dec1 ha1 E1 lat2 lon2 d2 el2 u2 x2 y2 h2 dec2 ha2 E2 :
  180 <= T <= 340 -> 0 <= P <= 110000 -> val xT T -> val xP P ->
  instant d1 u1 -> in_range u1 = true -> val x1 lat1 -> val y1 lon1 -> val h1 el1 ->
  -90 <= lat1 <= 90 -> -360 <= lon1 <= 360 -> -100000 <= el1 <= 100000 ->
  instant d2 u2 -> in_range u2 = true -> val x2 lat2 -> val y2 lon2 -> val h2 el2 ->
  -90 <= lat2 <= 90 -> -360 <= lon2 <= 360 -> -100000 <= el2 <= 100000 ->
  get_topocentric_position (N := MathR) (Fin lat1) (Fin lon1) d1 (Fin el1) = Ok (Fin dec1, Fin ha1) ->
  get_topocentric_elevation_angle (N := MathR) (Fin lat1) (Fin dec1) (Fin ha1) = Ok (Fin E1) ->
  get_topocentric_position (N := MathR) (Fin lat2) (Fin lon2) d2 (Fin el2) = Ok (Fin dec2, Fin ha2) ->
  get_topocentric_elevation_angle (N := MathR) (Fin lat2) (Fin dec2) (Fin ha2) = Ok (Fin E2) ->
  ~ (-5.21 < E1 < -4.99) -> 1e-5 <= Rabs (E1 + 0.83337) -> Rabs E1 <= 89 ->
  ~ (-5.21 < E2 < -4.99) -> 1e-5 <= Rabs (E2 + 0.83337) -> Rabs E2 <= 89 ->
  E1 + 8.1e-6 <= E2 ->
  exists q1 a1 q2 a2,
    get_altitude (N := B64 L) x1 y1 d1 h1 xT xP = Ok q1 /\ val q1 a1 /\
    get_altitude (N := B64 L) x2 y2 d2 h2 xT xP = Ok q2 /\ val q2 a2 /\ a1 < a2.
Proof.
  intros HT HP VT VP Hi1 Hr1 Vx1 Vy1 Vh1 Hl1 Ho1 Hh1 Hi2 Hr2 Vx2 Vy2 Vh2 Hl2 Ho2 Hh2 A1 B1 A2 B2 N1 G1 M1 N2 G2 M2 H.
  destruct (altitude_accuracy64 L HL lat1 lon1 el1 x1 y1 h1 d1 u1 xT T xP P dec1 ha1 E1 Hi1 Hr1 Vx1 Vy1 Vh1 Hl1 Ho1 Hh1 VT VP HT HP A1 B1 N1 G1)
    as [(q1 & a1 & a1' & Q1 & V1 & C1 & _ & D1 & _)|(_ & D1)]; [|exfalso; lra]. specialize (D1 M1).
  destruct (altitude_accuracy64 L HL lat2 lon2 el2 x2 y2 h2 d2 u2 xT T xP P dec2 ha2 E2 Hi2 Hr2 Vx2 Vy2 Vh2 Hl2 Ho2 Hh2 VT VP HT HP A2 B2 N2 G2)
    as [(q2 & a2 & a2' & Q2 & V2 & C2 & _ & D2 & _)|(_ & D2)]; [|exfalso; lra]. specialize (D2 M2).
  destruct (altitude_order T P lat1 lon1 d1 el1 u1 dec1 ha1 E1 a1' lat2 lon2 d2 el2 u2 dec2 ha2 E2 a2' HT HP Hi1 Hr1 Hl1 Hh1 Hi2 Hr2 Hl2 Hh2 A1 B1 A2 B2 C1 C2 ltac:(lra)) as [O _].
  exists q1, a1, q2, a2. repeat (split; [assumption|]). apply Rabs_le_inv in D1. apply Rabs_le_inv in D2. lra.
Qed.
End F.

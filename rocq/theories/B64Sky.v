(* get_altitude, get_azimuth and get_position in binary64 against exact arithmetic. *)
From Coq Require Import Reals Qreals Lra Lia List.
From Flocq Require Import Core IEEE754.BinarySingleNaN.
From Interval Require Import Tactic.
From Verif Require Import Py Num Cal TzCheck SolarTime Solar Tables Constants RInst RTac SpecTime SpecDt SpecGeom Trig SpaProofs GeoProofs RefractionProofs PositionProofs B64 SpecB64 B64Lemmas
  B64Ranges Rel Absint AbsintSound B64Lift B64Topo B64Pos AngleLip B64Horiz B64Refr.
Import ListNotations.
Local Open Scope R_scope.

Lemma deg_consts : deg (1.0035 * 3.4e-8) <= 1.96e-6 /\ deg (1.0035 * 5.6e-9) <= 3.23e-7.
Proof. unfold deg. split; interval. Qed.
Section L.
Variable L : libm.
Hypothesis HL : accurate L.
Notation N := (B64 L).

(* the exact elevation angle above the horizon, without refraction *)
Definition exact_elevation lat lon dt el e : Prop := exists d h,
  get_topocentric_position (N := MathR) (Fin lat) (Fin lon) dt (Fin el) = Ok (Fin d, Fin h) /\
  get_topocentric_elevation_angle (N := MathR) (Fin lat) (Fin d) (Fin h) = Ok (Fin e).

Lemma altitude64_gen e1 e2 lat lon el x xo xe dt xT T xP P E : aware dt = Ok tt -> pos_close L lat lon el x xo xe dt e1 e2 -> e1 + e2 <= 1.4e-6 ->
  val x lat -> -90 <= lat <= 90 -> val xT T -> val xP P -> 180 <= T <= 340 -> 0 <= P <= 110000 ->
  exact_elevation lat lon dt el E -> ~ (-5.21 < E < -4.99) -> 1e-5 <= Rabs (E + 0.83337) ->
  (exists q a a', get_altitude (N := N) x xo dt xe xT xP = Ok q /\ val q a /\
     get_altitude (N := MathR) (Fin lat) (Fin lon) dt (Fin el) (Fin T) (Fin P) = Ok (Fin a') /\
     Rabs (a - a') <= 2 * (e1 + e2 + 7e-6) + 3e-11 /\ (Rabs E <= 89 -> Rabs (a - a') <= 2 * (e1 + e2) + 1e-10)) \/
  (get_altitude (N := N) x xo dt xe xT xP = Err ValueError /\ 89.99998 < Rabs E).
Proof.
  intros A PC EE V B VT VP HT HP (d0 & h0 & X1 & X2) G HG.
  destruct PC as (qd & qh & d & h & d' & h' & k & Q & VD & VH & Q' & BD & BD' & BH & D1 & D2).
  rewrite X1 in Q'. apply Ok_inj in Q'. injection Q' as -> ->.
  destruct (elev64 L HL x lat qd d qh h d' h' k e1 e2 V VD VH B BD BH D1 D2 EE) as [EV EF]. cbv zeta in EV, EF.
  rewrite X2 in EV. apply Ok_inj in EV. injection EV as ->. set (E' := deg (asin (sin_elev lat d' h'))) in *.
  assert (BE : -90 <= E' <= 90) by apply deg_asin_range.
  unfold get_altitude. rewrite A. cbn [bind]. rewrite Q, X1. cbn [bind]. rewrite X2. cbn [bind].
  destruct EF as [(q & e & R1 & R2 & R3 & R4)|[R1 R2]]; [left|right; split; [rewrite R1; reflexivity|exact R2]].
  rewrite R1. cbn [bind].
  destruct (Rle_lt_dec (Rabs E') 89) as [C|C].
  - destruct (alt_float L HL xP P xT T q e E' (e1 + e2 + 2e-11) VP VT R2 HP HT BE (R4 C) ltac:(lra) G HG) as (r & s & a & Z1 & Z2 & Z3 & Z4).
    rewrite Z1, Z3. cbn [bind]. exists (add (n := N) q r), a, (E' + s). split; [reflexivity|]. split; [exact Z2|]. split; [reflexivity|]. split; [lra|]. intros _. lra.
  - destruct (alt_float L HL xP P xT T q e E' (e1 + e2 + 7e-6) VP VT R2 HP HT BE R3 ltac:(lra) G HG) as (r & s & a & Z1 & Z2 & Z3 & Z4).
    rewrite Z1, Z3. cbn [bind]. exists (add (n := N) q r), a, (E' + s). split; [reflexivity|]. split; [exact Z2|]. split; [reflexivity|]. split; lra.
Qed.
Lemma azimuth64_gen hh dd Y X n1 n2 m del c lat lon el x xo xe dt E : aware dt = Ok tt -> pos_sat L dd hh dt ->
  F_az1 AI [hh; Ab A90; dd] = Ok [Y; X] -> fits dd NoPer (-33) 33 1 1 = true -> fits hh Deg (-1) 361 1 1 = true ->
  fits Y NoPer (-4) 4 n1 m = true -> fits X NoPer (-4) 4 n2 m = true -> (0 < m)%Z ->
  IZR n1 / IZR m * (IZR n1 / IZR m) + IZR n2 / IZR m * (IZR n2 / IZR m) <= del * del -> 0 <= del <= 3.4e-8 -> deg (1.0035 * del) <= c - 1e-12 ->
  val x lat -> val xo lon -> val xe el -> -90 <= lat <= 90 -> -360 <= lon <= 360 -> -100000 <= el <= 100000 ->
  exact_elevation lat lon dt el E -> 1e-5 <= cosd E ->
  exists q a a' (k : Z), get_azimuth (N := N) x xo dt xe = Ok q /\ val q a /\
    get_azimuth (N := MathR) (Fin lat) (Fin lon) dt (Fin el) = Ok (Fin a') /\ Rabs (a - a' - 360 * IZR k) <= c / cosd E.
Proof.
  intros A PS HF FD FH FY FX Hm HD Hdel HC V Vo Ve B Bo Be (d0 & h0 & X1 & X2) CE.
  destruct (PS x lat xo lon xe el V B Vo Bo Ve Be) as (qd & qh & pd & ph & P1 & P2 & S1 & S2).
  rewrite X1 in P2. apply Ok_inj in P2. injection P2 as <- <-.
  destruct (fits_nop _ _ _ _ _ _ _ FD eq_refl S1) as (d & ? & VD & [= <-] & _ & BD & _).
  assert (EE : E = deg (asin (sin_elev lat d0 h0))) by (rewrite elevation_val in X2; apply Ok_inj in X2; injection X2 as <-; reflexivity).
  destruct (az64 L HL hh dd Y X n1 n2 m x lat qd d0 qh h0 del HF FY FX Hm V B S2 S1 BD HD Hdel) as (q & a & a' & k & Z1 & Z2 & Z3 & Z4).
  { rewrite <- EE. exact CE. }
  rewrite <- EE in Z4. exists q, a, a', k. unfold get_azimuth. rewrite A. cbn [bind]. rewrite P1, X1. cbn [bind]. split; [exact Z1|]. split; [exact Z2|]. split; [exact Z3|].
  eapply Rle_trans; [exact Z4|]. pose proof (cosd_bound E) as CB.
  apply Rmult_le_reg_r with (cosd E); [lra|]. replace (c / cosd E * cosd E) with c by (field; lra).
  replace ((4e-13 + deg (1.0035 * del) / cosd E) * cosd E) with (4e-13 * cosd E + deg (1.0035 * del)) by (field; lra). nra.
Qed.

Lemma altitude64 lat lon el x xo xe dt u xT T xP P E : instant dt u -> in_range u = true ->
  val x lat -> val xo lon -> val xe el -> -90 <= lat <= 90 -> -360 <= lon <= 360 -> -100000 <= el <= 100000 ->
  val xT T -> val xP P -> 180 <= T <= 340 -> 0 <= P <= 110000 ->
  exact_elevation lat lon dt el E -> ~ (-5.21 < E < -4.99) -> 1e-5 <= Rabs (E + 0.83337) ->
  (exists q a a', get_altitude (N := N) x xo dt xe xT xP = Ok q /\ val q a /\
     get_altitude (N := MathR) (Fin lat) (Fin lon) dt (Fin el) (Fin T) (Fin P) = Ok (Fin a') /\
     Rabs (a - a') <= 1.7e-5 /\ (Rabs E <= 89 -> Rabs (a - a') <= 2.8e-6) /\
     (Rabs E <= 89 -> (midnight 1834 1 1 <= u < midnight 2106 1 1)%Z -> Rabs (a - a') <= 4.6e-7)) \/
  (get_altitude (N := N) x xo dt xe xT xP = Err ValueError /\ 89.99998 < Rabs E).
Proof.
  intros Hi Hr V Vo Ve B Bo Be VT VP HT HP XE G HG.
  pose proof (position64 L HL lat lon el x xo xe dt u Hi Hr V Vo Ve B Bo Be) as PC.
  destruct (altitude64_gen _ _ lat lon el x xo xe dt xT T xP P E (instant_aware _ _ Hi) PC ltac:(lra) V B VT VP HT HP XE G HG) as [(q & a & a' & Q & VA & Q' & D1 & D2)|F]; [left|now right].
  exists q, a, a'. split; [exact Q|]. split; [exact VA|]. split; [exact Q'|]. split; [lra|]. split; [intros C; apply D2 in C; lra|].
  intros C M. pose proof (position64_modern L HL lat lon el x xo xe dt u Hi M V Vo Ve B Bo Be) as PM.
  destruct (altitude64_gen _ _ lat lon el x xo xe dt xT T xP P E (instant_aware _ _ Hi) PM ltac:(lra) V B VT VP HT HP XE G HG) as [(q2 & a2 & a2' & Q2 & VA2 & Q2' & _ & D3)|[_ F]]; [|lra].
  rewrite Q in Q2. apply Ok_inj in Q2. subst q2. rewrite Q' in Q2'. apply Ok_inj in Q2'. injection Q2' as <-. rewrite (val_unique _ _ _ VA2 VA) in D3. apply D3 in C. lra.
Qed.
Lemma azimuth64 lat lon el x xo xe dt u E : instant dt u -> in_range u = true ->
  val x lat -> val xo lon -> val xe el -> -90 <= lat <= 90 -> -360 <= lon <= 360 -> -100000 <= el <= 100000 ->
  exact_elevation lat lon dt el E -> 1e-5 <= cosd E ->
  exists q a a' (k : Z), get_azimuth (N := N) x xo dt xe = Ok q /\ val q a /\
    get_azimuth (N := MathR) (Fin lat) (Fin lon) dt (Fin el) = Ok (Fin a') /\ Rabs (a - a' - 360 * IZR k) <= 2e-6 / cosd E.
Proof.
  intros Hi Hr V Vo Ve B Bo Be XE CE.
  refine (azimuth64_gen _ _ _ _ _ _ _ 3.4e-8 2e-6 lat lon el x xo xe dt E (instant_aware _ _ Hi) (pos_sat_full L HL dt u Hi Hr) az1_full_ok _ _ Y_full_fits X_full_fits eq_refl _ _ _ V Vo Ve B Bo Be XE CE);
    try (vm_compute; reflexivity); try lra. destruct deg_consts. lra.
Qed.
Lemma azimuth64_modern lat lon el x xo xe dt u E : instant dt u -> (midnight 1834 1 1 <= u < midnight 2106 1 1)%Z ->
  val x lat -> val xo lon -> val xe el -> -90 <= lat <= 90 -> -360 <= lon <= 360 -> -100000 <= el <= 100000 ->
  exact_elevation lat lon dt el E -> 1e-5 <= cosd E ->
  exists q a a' (k : Z), get_azimuth (N := N) x xo dt xe = Ok q /\ val q a /\
    get_azimuth (N := MathR) (Fin lat) (Fin lon) dt (Fin el) = Ok (Fin a') /\ Rabs (a - a' - 360 * IZR k) <= 3.3e-7 / cosd E.
Proof.
  intros Hi Hr V Vo Ve B Bo Be XE CE.
  refine (azimuth64_gen _ _ _ _ _ _ _ 5.6e-9 3.3e-7 lat lon el x xo xe dt E (instant_aware _ _ Hi) (pos_sat_mod L HL dt u Hi Hr) az1_mod_ok _ _ Y_mod_fits X_mod_fits eq_refl _ _ _ V Vo Ve B Bo Be XE CE);
    try (vm_compute; reflexivity); try lra. destruct deg_consts. lra.
Qed.
End L.

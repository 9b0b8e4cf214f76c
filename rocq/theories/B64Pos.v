(* get_topocentric_position in binary64 against exact arithmetic, for every datetime. *)
From Coq Require Import Reals Qreals Lra Lia List.
From Flocq Require Import Core IEEE754.BinarySingleNaN.
From Interval Require Import Tactic.
From Verif Require Import Py Num Cal TzCheck SolarTime Solar Tables Constants RInst RTac SpecTime SpecDt SpecGeom Trig SolarTimeProofs JulianProofs PositionProofs B64 SpecB64 B64Lemmas B64Near B64Julian
  B64Ranges Absint AbsintFast AbsintSound B64Lift B64Topo.
Import ListNotations.
Local Open Scope R_scope.

Definition is_nop (p : period) : bool := match p with NoPer => true | _ => false end.
Definition is_deg (p : period) : bool := match p with Deg => true | _ => false end.
Lemma is_nop_ok p : is_nop p = true -> p = NoPer. Proof. now destruct p. Qed.
Lemma is_deg_ok p : is_deg p = true -> p = Deg. Proof. now destruct p. Qed.
Definition ra_checks (lam ob gb a b : ab) : bool :=
  is_deg (a_per lam) && is_nop (a_per ob) && is_nop (a_per gb) && is_nop (a_per a) && is_nop (a_per b) &&
  (20 * SC <=? a_lo ob)%Z && (a_hi ob <=? 25 * SC)%Z && (- SC <=? 1000 * a_lo gb)%Z && (1000 * a_hi gb <=? SC)%Z && (1000 * (a_err a + a_err b) <=? SC)%Z.
Section Run.
Variables P S R1 R2 T : list abs_val -> res (list abs_val).
Definition run_with (fl la j lon el : abs_val) : option (abs_val * abs_val) :=
  match P [fl; la; el] with
  | Ok [prd; pad] =>
      match S [j; j] with
      | Ok [ehp; st; dec; Ab lam; Ab ob; Ab gb] =>
          match R1 [Ab lam; Ab ob; Ab gb] with
          | Ok [Ab a; Ab b] =>
              if ra_checks lam ob gb a b then
                match R2 [ra_in (a_err a + a_err b)] with
                | Ok [ra] => match T [lon; prd; pad; ehp; st; dec; ra] with Ok [d; h] => Some (d, h) | _ => None end
                | _ => None
                end
              else None
          | _ => None
          end
      | _ => None
      end
  | _ => None
  end.
Lemma run_inv fl la j lon el d h : run_with fl la j lon el = Some (d, h) ->
  exists prd pad ehp st dec lam ob gb a b ra, P [fl; la; el] = Ok [prd; pad] /\ S [j; j] = Ok [ehp; st; dec; Ab lam; Ab ob; Ab gb] /\
    R1 [Ab lam; Ab ob; Ab gb] = Ok [Ab a; Ab b] /\ ra_checks lam ob gb a b = true /\ R2 [ra_in (a_err a + a_err b)] = Ok [ra] /\
    T [lon; prd; pad; ehp; st; dec; ra] = Ok [d; h].
Proof.
  unfold run_with. intros H.
  destruct (P [fl; la; el]) as [[|prd [|pad [|? ?]]]|]; try discriminate H.
  destruct (S [j; j]) as [[|ehp [|st [|dec [|[|lam] [|[|ob] [|[|gb] [|? ?]]]]]]]|]; try discriminate H.
  destruct (R1 [Ab lam; Ab ob; Ab gb]) as [[|[|a] [|[|b] [|? ?]]]|] eqn:E3; try discriminate H.
  destruct (ra_checks lam ob gb a b) eqn:EC; [|discriminate H].
  destruct (R2 [ra_in (a_err a + a_err b)]) as [[|ra [|? ?]]|] eqn:E4; try discriminate H.
  destruct (T [lon; prd; pad; ehp; st; dec; ra]) as [[|d' [|h' [|? ?]]]|] eqn:E5; try discriminate H.
  injection H as -> ->. exists prd, pad, ehp, st, dec, lam, ob, gb, a, b, ra. repeat split; assumption.
Qed.
End Run.
Definition ai_run (j lon el : abs_val) : option (abs_val * abs_val) :=
  run_with (F_proj AI) (F_sky AI) (F_ra1 AI) (F_ra2 AI) (F_topo AI) Aflat (Ab A90) j lon el.

Ltac inv3 A := repeat match type of A with
  | all3 (_ :: _) _ _ => let S := fresh "S" in let A' := fresh "A" in inversion A as [|? ? ? ? ? ? S A']; subst; clear A; rename A' into A
  | all3 [] _ _ => inversion A; subst; clear A
  end.
Section L.
Variable L : libm.
Hypothesis HL : accurate L.
Notation N := (B64 L).

Lemma ai_run_sound j lon el d h x v xo yo xe ye xj yj xk yk : ai_run j lon el = Some (d, h) ->
  val x v -> -90 <= v <= 90 -> satv lon xo yo -> satv el xe ye -> satv j xj yj -> satv j xk yk ->
  exists prd pad prd' pad' qd qh pd ph,
    get_projected_radial_distance (N := N) xe x = Ok prd /\ get_projected_axial_distance (N := N) xe x = Ok pad /\
    get_projected_radial_distance (N := MathR) ye (Fin v) = Ok prd' /\ get_projected_axial_distance (N := MathR) ye (Fin v) = Ok pad' /\
    topocentric_position_at (N := N) x xo xe prd pad xj xk = Ok (qd, qh) /\
    topocentric_position_at (N := MathR) (Fin v) yo ye prd' pad' yj yk = Ok (pd, ph) /\ satv d qd pd /\ satv h qh ph.
Proof.
  intros H V HV So Se Sj Sk. destruct (run_inv _ _ _ _ _ _ _ _ _ _ _ _ H) as (prd & pad & ehp & st & dec & lam & ob & gb & a & b & ra & E1 & E2 & E3 & EC & E4 & E5). clear H.
  unfold ra_checks in EC. rewrite !andb_true_iff, !Z.leb_le in EC.
  destruct EC as (((((((((C1 & C2) & C3) & C4) & C5) & C6) & C7) & C8) & C9) & C10).
  apply is_deg_ok in C1. apply is_nop_ok in C2, C3, C4, C5.
  destruct (flattened_sound L HL x v V HV) as (fq & fp & FQ & FP & FS).
  assert (S90 : satv (Ab A90) x (Fin v)).
  { apply (sat_exact x v (90 * SC)); [exact V|]. rewrite zr_int. apply Rabs_le. lra. }
  destruct (transport L HL F_proj F_proj_rel [Aflat; Ab A90; el] [fq; x; xe] [fp; Fin v; ye] _ ltac:(repeat constructor; assumption) E1) as (l1 & l2 & T1 & T2 & A).
  inv3 A.
  destruct (transport L HL F_sky F_sky_rel [j; j] [xj; xk] [yj; yk] _ ltac:(repeat constructor; assumption) E2) as (l1 & l2 & T3 & T4 & A).
  inv3 A.
  edestruct (ra_sound L HL lam ob gb a b ra) as (rq & rp & R1 & R2 & R3); try eassumption.
  match goal with R1 : get_geocentric_sun_right_ascension _ _ _ = _, T3 : F_sky N _ = Ok [?e1; ?s1; ?d1; _; _; _], T4 : F_sky MathR _ = Ok [?e2; ?s2; ?d2; _; _; _],
     T1 : F_proj N _ = Ok [?p1; ?q1], T2 : F_proj MathR _ = Ok [?p2; ?q2] |- _ =>
    destruct (transport L HL F_topo F_topo_rel [lon; prd; pad; ehp; st; dec; ra] [xo; p1; q1; e1; s1; d1; rq] [yo; p2; q2; e2; s2; d2; rp] _ ltac:(repeat constructor; assumption) E5)
      as (l1 & l2 & T5 & T6 & A); inv3 A;
    destruct (proj_assemble N _ _ _ _ _ FQ T1) as [PA PB]; destruct (proj_assemble MathR _ _ _ _ _ FP T2) as [PC PD];
    exists p1, q1, p2, q2
  end.
  do 4 eexists. repeat (split; [eassumption|]). split; [eapply topo_assemble; eassumption|]. split; [eapply topo_assemble; eassumption|]. split; assumption.
Qed.

Lemma position_run j lon el d h x v xo yo xe ye dt : ai_run j lon el = Some (d, h) -> aware dt = Ok tt ->
  val x v -> -90 <= v <= 90 -> satv lon xo yo -> satv el xe ye ->
  (exists q p, get_julian_solar_day (N := N) dt = Ok q /\ get_julian_solar_day (N := MathR) dt = Ok p /\ satv j q p) ->
  (exists q p, get_julian_ephemeris_day (N := N) dt = Ok q /\ get_julian_ephemeris_day (N := MathR) dt = Ok p /\ satv j q p) ->
  exists qd qh pd ph, get_topocentric_position (N := N) x xo dt xe = Ok (qd, qh) /\
    get_topocentric_position (N := MathR) (Fin v) yo dt ye = Ok (pd, ph) /\ satv d qd pd /\ satv h qh ph.
Proof.
  intros H A V HV So Se (q & p & Q & P & S) (q' & p' & Q' & P' & S').
  destruct (ai_run_sound _ _ _ _ _ _ _ _ _ _ _ _ _ _ _ H V HV So Se S S') as (prd & pad & prd' & pad' & qd & qh & pd & ph & K1 & K2 & K3 & K4 & K5 & K6 & K7 & K8).
  exists qd, qh, pd, ph. unfold get_topocentric_position. rewrite A. cbn [bind]. rewrite K1, K2, K3, K4. cbn [bind]. rewrite Q, Q', P, P'. cbn [bind].
  rewrite K5, K6. repeat split; assumption.
Qed.
End L.

Definition near_jd (lo hi err : Z) : abs_val := Ab (mkab (lo * SC) (hi * SC) ((hi + 1) * SC) err NoPer).
Lemma sat_near lo hi err y r e : near y r e -> IZR lo <= r <= IZR hi -> e <= zr err -> e <= 1 -> (0 <= lo)%Z -> satv (near_jd lo hi err) y (Fin r).
Proof.
  intros (v & V & H) B E E1 P. apply IZR_le in P. exists v, r, 0%Z. split; [exact V|]. split; [reflexivity|]. cbn [a_lo a_hi a_mag a_err a_per turn].
  rewrite !zr_int, plus_IZR. split; [exact B|]. replace (v - r - 0 * 0) with (v - r) by ring. split; [|lra].
  apply Rabs_le_inv in H. apply Rabs_le. lra.
Qed.
Definition J_full : abs_val := Eval vm_compute in near_jd 1721425 5373485 (17 * (SC / 10 ^ 10) + 17).
Definition J_mod : abs_val := Eval vm_compute in near_jd 2390914 2490261 (31 * (SC / 10 ^ 11) + 31).
Definition A_lon : abs_val := Eval vm_compute in Ab (mkab (- (360 * SC)) (360 * SC) (360 * SC) 0 NoPer).
Definition A_el : abs_val := Eval vm_compute in Ab (mkab (- (100000 * SC)) (100000 * SC) (100000 * SC) 0 NoPer).
Definition ai_runf (j lon el : abs_val) : option (abs_val * abs_val) :=
  run_with (F_proj AIf) (F_sky AIf) (F_ra1 AIf) (F_ra2 AIf) (F_topo AIf) Aflat (Ab A90) j lon el.
Lemma ai_run_fast j lon el : ai_run j lon el = ai_runf j lon el.
Proof. unfold ai_run, ai_runf. rewrite (AI_fast F_proj), (AI_fast F_sky), (AI_fast F_ra1), (AI_fast F_ra2), (AI_fast F_topo). reflexivity. Qed.
Definition run_full := Eval vm_compute in ai_runf J_full A_lon A_el.
Definition run_mod := Eval vm_compute in ai_runf J_mod A_lon A_el.
Lemma run_full_ok : ai_run J_full A_lon A_el = run_full.
Proof. rewrite ai_run_fast. vm_cast_no_check (eq_refl run_full). Qed.
Lemma run_mod_ok : ai_run J_mod A_lon A_el = run_mod.
Proof. rewrite ai_run_fast. vm_cast_no_check (eq_refl run_mod). Qed.

Lemma J_full_eq : J_full = near_jd 1721425 5373485 (17 * (SC / 10 ^ 10) + 17). Proof. vm_compute. reflexivity. Qed.
Lemma J_mod_eq : J_mod = near_jd 2390914 2490261 (31 * (SC / 10 ^ 11) + 31). Proof. vm_compute. reflexivity. Qed.
Lemma err_up (k n : Z) (e : R) : (0 < n)%Z -> e * IZR n = IZR k -> (0 <= k)%Z -> e <= zr (k * (SC / n) + k).
Proof.
  intros Hn E Hk. unfold zr. pose proof SC_pos. apply Rmult_le_reg_r with (IZR SC); [assumption|]. unfold Rdiv. rewrite Rmult_assoc, Rinv_l, Rmult_1_r by lra.
  apply Rmult_le_reg_r with (IZR n); [apply IZR_lt, Hn|]. replace (e * IZR SC * IZR n) with (e * IZR n * IZR SC) by ring. rewrite E, <- !mult_IZR. apply IZR_le.
  pose proof (Z.div_mod SC n ltac:(lia)). pose proof (Z.mod_pos_bound SC n Hn). nia.
Qed.
Section L.
Variable L : libm.
Hypothesis HL : accurate L.
Notation N := (B64 L).
Lemma jd_sat_full d u : instant d u -> in_range u = true ->
  (exists q p, get_julian_solar_day (N := N) d = Ok q /\ get_julian_solar_day (N := MathR) d = Ok p /\ satv J_full q p) /\
  (exists q p, get_julian_ephemeris_day (N := N) d = Ok q /\ get_julian_ephemeris_day (N := MathR) d = Ok p /\ satv J_full q p).
Proof.
  intros Hi Hr. destruct (jd_ok d u Hi Hr) as (jd & jde & E1 & E2 & B1 & B2).
  destruct (julian64 L d u Hi Hr) as [(y & r & A1 & A2 & A3) (y' & r' & A1' & A2' & A3')].
  rewrite E2 in A2. apply Ok_inj in A2. injection A2 as <-. rewrite E1 in A2'. apply Ok_inj in A2'. injection A2' as <-.
  assert (E : 1.7e-9 <= zr (17 * (SC / 10 ^ 10) + 17)) by (apply err_up; [reflexivity|replace (IZR (10 ^ 10)) with 10000000000 by (f_equal; reflexivity); lra|lia]).
  split; [exists y', (Fin jd)|exists y, (Fin jde)]; (split; [assumption|]); (split; [assumption|]); rewrite J_full_eq; eapply sat_near; try eassumption; lra || lia.
Qed.

Lemma jd_ok_modern d u : instant d u -> (midnight 1834 1 1 <= u < midnight 2106 1 1)%Z ->
  in_range u = true /\ exists jd jde, get_julian_solar_day (N := MathR) d = Ok (Fin jd) /\
    get_julian_ephemeris_day (N := MathR) d = Ok (Fin jde) /\ 2390914 < jd < 2490261 /\ 2390914 < jde < 2490261.
Proof.
  intros Hi Hu. change (midnight 1834 1 1) with 57843849600000000%Z in Hu. change (midnight 2106 1 1) with 66427344000000000%Z in Hu.
  assert (Hr : in_range u = true). { unfold in_range. apply andb_true_intro. split; [apply Z.leb_le; lia|]. apply Z.ltb_lt. apply Z.lt_trans with 66427344000000000%Z; [lia|vm_compute; reflexivity]. }
  split; [exact Hr|].
  do 2 eexists. split; [apply jd_off; eassumption|]. split; [apply jde_val; eassumption|].
  assert (J : 2390914.5 <= jd_utc u < 2490260.5).
  { destruct Hu as [U1 U2]. apply IZR_le in U1. apply IZR_lt in U2. unfold jd_utc. lra. }
  pose proof (tai_range u) as [T1 T2]. apply IZR_le in T1, T2.
  pose proof (adj_ok (f_year (fields_of_us u)) (f_mon (fields_of_us u)) (fields_mon_range u)) as A.
  destruct (next_ym (f_year (fields_of_us u)) (f_mon (fields_of_us u))) as [y' m']. destruct A as (_ & A1 & A2).
  apply Qle_Rle in A1, A2. replace (Q2R (-34)) with (-34) in A1 by (unfold Q2R; simpl; lra).
  replace (Q2R (-30)) with (-30) in A2 by (unfold Q2R; simpl; lra). lra.
Qed.
Lemma jd_sat_mod d u : instant d u -> (midnight 1834 1 1 <= u < midnight 2106 1 1)%Z ->
  (exists q p, get_julian_solar_day (N := N) d = Ok q /\ get_julian_solar_day (N := MathR) d = Ok p /\ satv J_mod q p) /\
  (exists q p, get_julian_ephemeris_day (N := N) d = Ok q /\ get_julian_ephemeris_day (N := MathR) d = Ok p /\ satv J_mod q p).
Proof.
  intros Hi Hu. destruct (jd_ok_modern d u Hi Hu) as (Hr & jd & jde & E1 & E2 & B1 & B2).
  destruct (julian64_modern L d u Hi Hu) as [(y & r & A1 & A2 & A3) (y' & r' & A1' & A2' & A3')].
  rewrite E2 in A2. apply Ok_inj in A2. injection A2 as <-. rewrite E1 in A2'. apply Ok_inj in A2'. injection A2' as <-.
  assert (E : 3.1e-10 <= zr (31 * (SC / 10 ^ 11) + 31)) by (apply err_up; [reflexivity|replace (IZR (10 ^ 11)) with 100000000000 by (f_equal; reflexivity); lra|lia]).
  split; [exists y', (Fin jd)|exists y, (Fin jde)]; (split; [assumption|]); (split; [assumption|]); rewrite J_mod_eq; eapply sat_near; try eassumption; lra || lia.
Qed.
Lemma lon_sat x v : val x v -> -360 <= v <= 360 -> satv A_lon x (Fin v).
Proof. intros V H. apply (sat_exact x v (360 * SC)); [exact V|]. rewrite zr_int. apply Rabs_le. lra. Qed.
Lemma el_sat x v : val x v -> -100000 <= v <= 100000 -> satv A_el x (Fin v).
Proof. intros V H. apply (sat_exact x v (100000 * SC)); [exact V|]. rewrite zr_int. apply Rabs_le. lra. Qed.

Definition D_full := Eval vm_compute in match run_full with Some (d, _) => d | None => Top end.
Definition H_full := Eval vm_compute in match run_full with Some (_, h) => h | None => Top end.
Definition D_mod := Eval vm_compute in match run_mod with Some (d, _) => d | None => Top end.
Definition H_mod := Eval vm_compute in match run_mod with Some (_, h) => h | None => Top end.
Lemma run_full_DH : ai_run J_full A_lon A_el = Some (D_full, H_full).
Proof. rewrite run_full_ok. vm_compute. reflexivity. Qed.
Lemma run_mod_DH : ai_run J_mod A_lon A_el = Some (D_mod, H_mod).
Proof. rewrite run_mod_ok. vm_compute. reflexivity. Qed.

(* what the two abstract results say *)
Definition fits (a : abs_val) (p : period) (lo hi en ed : Z) : bool :=
  match a with
  | Top => false
  | Ab a => (lo * SC <=? a_lo a)%Z && (a_hi a <=? hi * SC)%Z && (a_err a * ed <=? en * SC)%Z && (a_mag a <=? hi * SC)%Z &&
            match p, a_per a with NoPer, NoPer => true | Deg, Deg => true | _, _ => false end
  end.
Lemma fits_nop a lo hi en ed q p : fits a NoPer lo hi en ed = true -> (0 < ed)%Z -> satv a q p ->
  exists v w, val q v /\ p = Fin w /\ Rabs v <= IZR hi /\ IZR lo <= w <= IZR hi /\ Rabs (v - w) <= IZR en / IZR ed.
Proof.
  destruct a as [|a]; [discriminate|]. unfold fits. rewrite !andb_true_iff, !Z.leb_le. intros [[[[A B] C] M] D] E (v & w & k & V & W & R & VM & G).
  destruct (a_per a) eqn:P; try discriminate D. cbn [turn] in G. exists v, w. split; [exact V|]. split; [exact W|].
  apply zr_le in A, B, M. rewrite zr_int in A, B, M. split; [lra|]. split; [lra|].
  replace (v - w - IZR k * 0) with (v - w) in G by ring. apply Rle_trans with (1 := G).
  apply IZR_le in C. rewrite !mult_IZR in C. pose proof SC_pos. apply IZR_lt in E. unfold zr.
  apply Rmult_le_reg_r with (IZR ed); [assumption|]. apply Rmult_le_reg_r with (IZR SC); [assumption|]. field_simplify; lra.
Qed.
Lemma fits_deg a lo hi en ed q p : fits a Deg lo hi en ed = true -> (0 < ed)%Z -> satv a q p ->
  exists v w k, val q v /\ p = Fin w /\ Rabs v <= IZR hi /\ IZR lo <= w <= IZR hi /\ Rabs (v - w - 360 * IZR k) <= IZR en / IZR ed.
Proof.
  destruct a as [|a]; [discriminate|]. unfold fits. rewrite !andb_true_iff, !Z.leb_le. intros [[[[A B] C] M] D] E (v & w & k & V & W & R & VM & G).
  destruct (a_per a) eqn:P; try discriminate D. cbn [turn] in G. exists v, w, k. split; [exact V|]. split; [exact W|].
  apply zr_le in A, B, M. rewrite zr_int in A, B, M. split; [lra|]. split; [lra|].
  replace (v - w - IZR k * 360) with (v - w - 360 * IZR k) in G by ring. apply Rle_trans with (1 := G).
  apply IZR_le in C. rewrite !mult_IZR in C. pose proof SC_pos. apply IZR_lt in E. unfold zr.
  apply Rmult_le_reg_r with (IZR ed); [assumption|]. apply Rmult_le_reg_r with (IZR SC); [assumption|]. field_simplify; lra.
Qed.
Definition pos_close lat lon el (x xo xe : f64) dt (e1 e2 : R) : Prop :=
  exists qd qh d h d' h' k, get_topocentric_position (N := N) x xo dt xe = Ok (qd, qh) /\ val qd d /\ val qh h /\
    get_topocentric_position (N := MathR) (Fin lat) (Fin lon) dt (Fin el) = Ok (Fin d', Fin h') /\
    Rabs d <= 33 /\ -33 <= d' <= 33 /\ Rabs h <= 361 /\ Rabs (d - d') <= e1 /\ Rabs (h - h' - 360 * IZR k) <= e2.
(* an abstract result of the whole pipeline that holds of every call at the instant of dt *)
Definition pos_sat (dd hh : abs_val) dt : Prop := forall x v xo yo xe ye,
  val x v -> -90 <= v <= 90 -> val xo yo -> -360 <= yo <= 360 -> val xe ye -> -100000 <= ye <= 100000 ->
  exists qd qh pd ph, get_topocentric_position (N := N) x xo dt xe = Ok (qd, qh) /\
    get_topocentric_position (N := MathR) (Fin v) (Fin yo) dt (Fin ye) = Ok (pd, ph) /\ satv dd qd pd /\ satv hh qh ph.
Lemma pos_sat_gen j dd hh dt : ai_run j A_lon A_el = Some (dd, hh) -> aware dt = Ok tt ->
  (exists q p, get_julian_solar_day (N := N) dt = Ok q /\ get_julian_solar_day (N := MathR) dt = Ok p /\ satv j q p) ->
  (exists q p, get_julian_ephemeris_day (N := N) dt = Ok q /\ get_julian_ephemeris_day (N := MathR) dt = Ok p /\ satv j q p) -> pos_sat dd hh dt.
Proof.
  intros R A J1 J2 x v xo yo xe ye V B Vo Bo Ve Be.
  exact (position_run L HL j A_lon A_el dd hh x v xo (Fin yo) xe (Fin ye) dt R A V B (lon_sat _ _ Vo Bo) (el_sat _ _ Ve Be) J1 J2).
Qed.
Lemma pos_sat_full dt u : instant dt u -> in_range u = true -> pos_sat D_full H_full dt.
Proof. intros Hi Hr. destruct (jd_sat_full dt u Hi Hr) as [J1 J2]. exact (pos_sat_gen _ _ _ _ run_full_DH (instant_aware _ _ Hi) J1 J2). Qed.
Lemma pos_sat_mod dt u : instant dt u -> (midnight 1834 1 1 <= u < midnight 2106 1 1)%Z -> pos_sat D_mod H_mod dt.
Proof. intros Hi Hr. destruct (jd_sat_mod dt u Hi Hr) as [J1 J2]. exact (pos_sat_gen _ _ _ _ run_mod_DH (instant_aware _ _ Hi) J1 J2). Qed.
Lemma position64_gen dd hh n1 m1 n2 m2 lat lon el x xo xe dt : pos_sat dd hh dt ->
  fits dd NoPer (-33) 33 n1 m1 = true -> fits hh Deg (-1) 361 n2 m2 = true -> (0 < m1)%Z -> (0 < m2)%Z ->
  val x lat -> val xo lon -> val xe el -> -90 <= lat <= 90 -> -360 <= lon <= 360 -> -100000 <= el <= 100000 ->
  pos_close lat lon el x xo xe dt (IZR n1 / IZR m1) (IZR n2 / IZR m2).
Proof.
  intros R F1 F2 M1 M2 V Vo Ve B Bo Be. destruct (R x lat xo lon xe el V B Vo Bo Ve Be) as (qd & qh & pd & ph & P1 & P2 & S1 & S2).
  destruct (fits_nop _ _ _ _ _ _ _ F1 M1 S1) as (d & d' & X1 & -> & X0 & X2 & X3).
  destruct (fits_deg _ _ _ _ _ _ _ F2 M2 S2) as (h & h' & k & Y1 & -> & Y0 & Y2 & Y3).
  exists qd, qh, d, h, d', h', k. repeat (split; [assumption|]). assumption.
Qed.
Lemma position64 lat lon el x xo xe dt u : instant dt u -> in_range u = true ->
  val x lat -> val xo lon -> val xe el -> -90 <= lat <= 90 -> -360 <= lon <= 360 -> -100000 <= el <= 100000 ->
  pos_close lat lon el x xo xe dt 1.7e-8 1.35e-6.
Proof.
  intros Hi Hr V Vo Ve B Bo Be.
  replace 1.7e-8 with (IZR 17 / IZR 1000000000) by lra. replace 1.35e-6 with (IZR 135 / IZR 100000000) by lra.
  refine (position64_gen _ _ _ _ _ _ _ _ _ _ _ _ _ (pos_sat_full dt u Hi Hr) _ _ _ _ V Vo Ve B Bo Be); vm_compute; reflexivity.
Qed.
Lemma position64_modern lat lon el x xo xe dt u : instant dt u -> (midnight 1834 1 1 <= u < midnight 2106 1 1)%Z ->
  val x lat -> val xo lon -> val xe el -> -90 <= lat <= 90 -> -360 <= lon <= 360 -> -100000 <= el <= 100000 ->
  pos_close lat lon el x xo xe dt 8.1e-10 2.25e-7.
Proof.
  intros Hi Hr V Vo Ve B Bo Be.
  replace 8.1e-10 with (IZR 81 / IZR 100000000000) by lra. replace 2.25e-7 with (IZR 225 / IZR 1000000000) by lra.
  refine (position64_gen _ _ _ _ _ _ _ _ _ _ _ _ _ (pos_sat_mod dt u Hi Hr) _ _ _ _ V Vo Ve B Bo Be); vm_compute; reflexivity.
Qed.
End L.

(* Soundness of the abstract arithmetic: whatever the model computes on it bounds what binary64 with an
   accurate C library and what exact real arithmetic compute. *)
From Coq Require Import Reals Qreals Lra Lia.
From Flocq Require Import Core IEEE754.BinarySingleNaN Relative.
From Interval Require Import Tactic.
From Verif Require Import Py Num RInst RTac Trig SpaProofs TopoProofs B64 SpecB64 B64Lemmas B64Angles B64Ranges Rel Absint.
Local Open Scope R_scope.

Definition zr (z : Z) : R := IZR z / IZR SC.
Definition turn (p : period) : R := match p with NoPer => 0 | Deg => 360 | Rad => 2 * PI end.
Definition sat (a : ab) (x : f64) (y : Rx) : Prop := exists v r (j : Z),
  val x v /\ y = Fin r /\ zr (a_lo a) <= r <= zr (a_hi a) /\ Rabs v <= zr (a_mag a) /\
  Rabs (v - r - IZR j * turn (a_per a)) <= zr (a_err a).
Definition satv (a : abs_val) (x : f64) (y : Rx) : Prop := match a with Top => True | Ab a => sat a x y end.

(* ---- scaled integers *)
Lemma SC_pos : 0 < IZR SC. Proof. apply (IZR_lt 0). reflexivity. Qed.
Lemma zr_add a b : zr (a + b) = zr a + zr b. Proof. unfold zr. rewrite plus_IZR. field. pose proof SC_pos; lra. Qed.
Lemma zr_sub a b : zr (a - b) = zr a - zr b. Proof. unfold zr. rewrite minus_IZR. field. pose proof SC_pos; lra. Qed.
Lemma zr_opp a : zr (- a) = - zr a. Proof. unfold zr. rewrite opp_IZR. field. pose proof SC_pos; lra. Qed.
Lemma zr_scale k a : zr (k * a) = IZR k * zr a. Proof. unfold zr. rewrite mult_IZR. field. pose proof SC_pos; lra. Qed.
Lemma zr_le a b : (a <= b)%Z -> zr a <= zr b.
Proof. intros H. apply IZR_le in H. unfold zr, Rdiv. apply Rmult_le_compat_r; [left; apply Rinv_0_lt_compat, SC_pos|exact H]. Qed.
Lemma zr_lt a b : (a < b)%Z -> zr a < zr b.
Proof. intros H. apply IZR_lt in H. unfold zr, Rdiv. apply Rmult_lt_compat_r; [apply Rinv_0_lt_compat, SC_pos|exact H]. Qed.
Lemma zr_0 : zr 0 = 0. Proof. unfold zr. field. pose proof SC_pos; lra. Qed.
Lemma zr_SC : zr SC = 1. Proof. unfold zr. field. pose proof SC_pos; lra. Qed.
Lemma zr_int k : zr (k * SC) = IZR k. Proof. rewrite zr_scale, zr_SC. ring. Qed.
Lemma zr_abs a : zr (Z.abs a) = Rabs (zr a).
Proof. unfold zr. rewrite abs_IZR. unfold Rdiv. rewrite Rabs_mult, (Rabs_pos_eq (/ IZR SC)); [reflexivity|left; apply Rinv_0_lt_compat, SC_pos]. Qed.
Lemma zr_max a b : zr (Z.max a b) = Rmax (zr a) (zr b).
Proof.
  destruct (Z.max_spec a b) as [[H ->]|[H ->]]; symmetry; [apply Rmax_right|apply Rmax_left]; apply zr_le; lia.
Qed.
Lemma zr_min a b : zr (Z.min a b) = Rmin (zr a) (zr b).
Proof.
  destruct (Z.min_spec a b) as [[H ->]|[H ->]]; symmetry; [apply Rmin_left|apply Rmin_right]; apply zr_le; lia.
Qed.
Lemma floor_le a b : (0 < b)%Z -> IZR (a / b) <= IZR a / IZR b.
Proof.
  intros H. pose proof (Z.mul_div_le a b H) as K. apply IZR_le in K. rewrite mult_IZR in K. apply IZR_lt in H.
  apply Rmult_le_reg_l with (IZR b); [exact H|]. replace (IZR b * (IZR a / IZR b)) with (IZR a) by (field; lra). exact K.
Qed.
Lemma floor_gt a b : (0 < b)%Z -> IZR a / IZR b - 1 <= IZR (a / b).
Proof.
  intros H. assert (K : (a < b * (a / b) + b)%Z). { pose proof (Z.mod_pos_bound a b H). pose proof (Z.div_mod a b ltac:(lia)). lia. }
  apply IZR_lt in K. rewrite plus_IZR, mult_IZR in K. apply IZR_lt in H.
  apply Rmult_le_reg_l with (IZR b); [exact H|]. replace (IZR b * (IZR a / IZR b - 1)) with (IZR a - IZR b) by (field; lra). lra.
Qed.
Lemma ceil_ge a b : (0 < b)%Z -> IZR a / IZR b <= IZR (cdiv a b).
Proof. intros H. unfold cdiv. rewrite opp_IZR. pose proof (floor_le (- a) b H) as K. rewrite opp_IZR in K. apply IZR_lt in H. unfold Rdiv in *. lra. Qed.
(* products come back to scale by dividing by SC *)
Lemma zr_mul a b : zr a * zr b = IZR (a * b) / IZR SC / IZR SC.
Proof. unfold zr. rewrite mult_IZR. field. pose proof SC_pos; lra. Qed.
Lemma zr_dn a : zr (a / SC) <= IZR a / IZR SC / IZR SC.
Proof. unfold zr. apply Rmult_le_compat_r; [left; apply Rinv_0_lt_compat, SC_pos|]. now apply floor_le. Qed.
Lemma zr_up a : IZR a / IZR SC / IZR SC <= zr (cdiv a SC).
Proof. unfold zr. apply Rmult_le_compat_r; [left; apply Rinv_0_lt_compat, SC_pos|]. now apply ceil_ge. Qed.
Lemma zr_up_mul a b : zr a * zr b <= zr (cdiv (a * b) SC).
Proof. rewrite zr_mul. apply zr_up. Qed.
Lemma IZR_split2 a : IZR a / IZR SC / IZR SC = zr a * / IZR SC. Proof. unfold zr. field. pose proof SC_pos; lra. Qed.

Lemma unit_small : bpow radix2 (-1074) <= / IZR SC.
Proof. change (IZR SC) with (bpow radix2 160). rewrite <- bpow_opp. apply bpow_le. lia. Qed.
Lemma ulp_ok m : zr m * bpow radix2 (-53) + bpow radix2 (-1074) <= zr (ulp_of m).
Proof.
  unfold ulp_of. rewrite zr_add. pose proof unit_small. pose proof (floor_gt m P53 ltac:(reflexivity)) as K.
  change (bpow radix2 (-53)) with (/ IZR P53).
  assert (zr 2 = 2 * / IZR SC) by (unfold zr; lra). assert (zr (m / P53) >= zr m * / IZR P53 - / IZR SC); [|lra].
  unfold zr. replace (IZR m / IZR SC * / IZR P53 - / IZR SC) with ((IZR m / IZR P53 - 1) * / IZR SC).
  - apply Rle_ge, Rmult_le_compat_r; [left; apply Rinv_0_lt_compat, SC_pos|lra].
  - field. split; [pose proof SC_pos; lra|]. apply (IZR_neq P53 0). discriminate.
Qed.
Lemma big_bound : zr BIG <= bpow radix2 1000.
Proof. unfold zr. change (IZR BIG) with (bpow radix2 900). change (IZR SC) with (bpow radix2 160). unfold Rdiv. rewrite <- bpow_opp, <- bpow_plus. apply bpow_le. lia. Qed.

(* ---- results of float operations *)
Definition approx (k : Z) (f : f64) (w : R) : Prop := Rabs w <= bpow radix2 1000 ->
  exists fv, val f fv /\ Rabs (fv - w) <= IZR k * (Rabs w * bpow radix2 (-53) + bpow radix2 (-1074)).

Lemma rnd_rel w : Rabs (rnd w - w) <= Rabs w * bpow radix2 (-53) + bpow radix2 (-1074).
Proof.
  destruct (error_N_FLT radix2 (-1074) 53 ltac:(lia) (fun x => negb (Z.even x)) w) as (eps & eta & He & Ht & _ & E).
  change (round radix2 (FLT_exp (-1074) 53) (Znearest _) w) with (rnd w) in E. rewrite E.
  replace (w * (1 + eps) + eta - w) with (w * eps + eta) by ring.
  eapply Rle_trans; [apply Rabs_triang|]. rewrite Rabs_mult.
  change (/ 2 * bpow radix2 (- (53) + 1)) with (bpow radix2 (-1) * bpow radix2 (- (53) + 1)) in He. rewrite <- bpow_plus in He. 
  apply Rplus_le_compat; [|pose proof (bpow_gt_0 radix2 (-1074)); lra]. apply Rmult_le_compat_l; [apply Rabs_pos|exact He].
Qed.
Lemma approx_rnd f w : (Rabs w <= bpow radix2 1000 -> val f (rnd w)) -> approx 1 f w.
Proof. intros H B. exists (rnd w). split; [auto|]. rewrite Rmult_1_l. apply rnd_rel. Qed.
Lemma approx_close f w : (Rabs w <= bpow radix2 1000 -> close f w) -> approx 2 f w.
Proof.
  intros H B. destruct (H B) as (v & V & K). exists v. split; [exact V|]. eapply Rle_trans; [exact K|].
  change (bpow radix2 (-52)) with (bpow radix2 (1 + -53)). rewrite bpow_plus. change (bpow radix2 1) with 2. 
  pose proof (bpow_gt_0 radix2 (-1074)). lra.
Qed.

Lemma finish_sound k lo hi m e p f r w (j : Z) : (0 <= k)%Z -> approx k f w -> Rabs w <= zr m -> zr lo <= r <= zr hi ->
  Rabs (w - r - IZR j * turn p) <= zr e -> satv (finish k lo hi m e p) f (Fin r).
Proof.
  intros Hk A M B E. unfold finish. destruct (Z.leb_spec m BIG) as [LB|]; [|exact I].
  destruct A as (fv & V & H). { eapply Rle_trans; [exact M|]. eapply Rle_trans; [apply zr_le; exact LB|apply big_bound]. }
  apply IZR_le in Hk. pose proof (ulp_ok m) as U.
  assert (D : Rabs (fv - w) <= zr (k * ulp_of m)).
  { rewrite zr_scale. eapply Rle_trans; [exact H|]. apply Rmult_le_compat_l; [exact Hk|]. eapply Rle_trans; [|exact U].
    apply Rplus_le_compat_r. apply Rmult_le_compat_r; [apply bpow_ge_0|exact M]. }
  exists fv, r, j. split; [exact V|]. split; [reflexivity|]. cbn [a_lo a_hi a_mag a_err a_per]. split; [exact B|]. rewrite !zr_add.
  split.
  - replace fv with (w + (fv - w)) by ring. eapply Rle_trans; [apply Rabs_triang|]. lra.
  - replace (fv - r - IZR j * turn p) with ((w - r - IZR j * turn p) + (fv - w)) by ring. eapply Rle_trans; [apply Rabs_triang|]. lra.
Qed.
Lemma abs_bound lo hi r : zr lo <= r <= zr hi -> Rabs r <= zr (Z.max (Z.abs lo) (Z.abs hi)).
Proof.
  intros H. rewrite zr_max, !zr_abs. apply Rabs_le. pose proof (Rmax_l (Rabs (zr lo)) (Rabs (zr hi))). pose proof (Rmax_r (Rabs (zr lo)) (Rabs (zr hi))).
  pose proof (Rle_abs (zr hi)). pose proof (Rle_abs (- zr lo)). rewrite Rabs_Ropp in *. lra.
Qed.
Lemma finish0_sound k lo hi e f r w : (0 <= k)%Z -> approx k f w -> zr lo <= r <= zr hi -> Rabs (w - r) <= zr e -> satv (finish0 k lo hi e) f (Fin r).
Proof.
  intros Hk A B E. apply finish_sound with (w := w) (j := 0%Z); auto.
  - rewrite zr_add. pose proof (abs_bound _ _ _ B). replace w with (r + (w - r)) by ring. eapply Rle_trans; [apply Rabs_triang|]. lra.
  - replace (w - r - 0 * turn NoPer) with (w - r) by ring. exact E.
Qed.

(* the parts of a description without period *)
Lemma sat0 a x y : a_per a = NoPer -> sat a x y -> exists v r, val x v /\ y = Fin r /\ zr (a_lo a) <= r <= zr (a_hi a) /\
  Rabs (v - r) <= zr (a_err a) /\ Rabs r <= zr (zmax a) /\ Rabs v <= zr (zmax a + a_err a) /\ 0 <= zr (a_err a).
Proof.
  intros P (v & r & j & V & -> & B & M & E). rewrite P in E. cbn [turn] in E. rewrite Rmult_0_r, Rminus_0_r in E.
  exists v, r. pose proof (abs_bound _ _ _ B). fold (zmax a) in *. repeat (split; [now auto|]). split; [|pose proof (Rabs_pos (v - r)); lra].
  rewrite zr_add. replace v with (r + (v - r)) by ring. eapply Rle_trans; [apply Rabs_triang|]. lra.
Qed.

Lemma neg_sound a x y : sat a x y -> sat (a_neg a) (Bopp x) (xneg y).
Proof.
  intros (v & r & j & V & -> & B & M & E). exists (- v), (- r), (- j)%Z. split; [now apply val_neg|]. split; [reflexivity|].
  cbn [a_neg a_lo a_hi a_mag a_err a_per]. rewrite !zr_opp, Rabs_Ropp, opp_IZR. split; [lra|]. split; [exact M|].
  replace (- v - - r - - IZR j * turn (a_per a)) with (- (v - r - IZR j * turn (a_per a))) by ring. now rewrite Rabs_Ropp.
Qed.

Definition sat_with (a : ab) (v r : R) (j : Z) : Prop := zr (a_lo a) <= r <= zr (a_hi a) /\ Rabs v <= zr (a_mag a) /\
  Rabs (v - r - IZR j * turn (a_per a)) <= zr (a_err a).
Lemma add_gen a b f v r j v' r' j' : sat_with a v r j -> sat_with b v' r' j' -> approx 1 f (v + v') -> satv (a_add a b) f (Fin (r + r')).
Proof.
  intros (B & M & E) (B' & M' & E') AP. unfold a_add.
  assert (G : forall p, (exists i : Z, IZR j * turn (a_per a) + IZR j' * turn (a_per b) = IZR i * turn p) ->
     satv (finish 1 (a_lo a + a_lo b) (a_hi a + a_hi b) (a_mag a + a_mag b) (a_err a + a_err b) p) f (Fin (r + r'))).
  { intros p (i & Ei). apply finish_sound with (w := v + v') (j := i); [lia|exact AP| |rewrite !zr_add; lra|].
    - rewrite zr_add. eapply Rle_trans; [apply Rabs_triang|]. lra.
    - rewrite <- Ei, zr_add. replace (_ - _) with ((v - r - IZR j * turn (a_per a)) + (v' - r' - IZR j' * turn (a_per b))) by ring.
      eapply Rle_trans; [apply Rabs_triang|]. lra. }
  destruct (a_per a) eqn:P, (a_per b) eqn:P'; cbn [per_add turn] in *; try exact I;
    try (apply G; (exists j; cbn [turn]; ring) || (exists j'; cbn [turn]; ring) || (exists (j + j')%Z; rewrite plus_IZR; cbn [turn]; ring)).
  apply finish0_sound with (w := v + v'); [lia|exact AP|rewrite !zr_add; lra|].
  rewrite zr_add. replace (v + v' - (r + r')) with ((v - r - IZR j * 0) + (v' - r' - IZR j' * 0)) by ring.
  eapply Rle_trans; [apply Rabs_triang|]. lra.
Qed.
Lemma neg_with a v r j : sat_with a v r j -> sat_with (a_neg a) (- v) (- r) (- j).
Proof.
  intros (B & M & E). unfold sat_with. cbn [a_neg a_lo a_hi a_mag a_err a_per]. rewrite !zr_opp, Rabs_Ropp, opp_IZR. split; [lra|]. split; [exact M|].
  replace (- v - - r - - IZR j * turn (a_per a)) with (- (v - r - IZR j * turn (a_per a))) by ring. now rewrite Rabs_Ropp.
Qed.
Lemma add_sound a b x y x' y' : sat a x y -> sat b x' y' -> satv (a_add a b) (Bplus mode_NE x x') (xadd y y').
Proof.
  intros (v & r & j & V & -> & S) (v' & r' & j' & V' & -> & S'). cbn [xadd]. apply add_gen with v j v' j'; [exact S|exact S'|].
  apply approx_rnd. now apply val_add.
Qed.
Lemma sub_sound a b x y x' y' : sat a x y -> sat b x' y' -> satv (a_add a (a_neg b)) (Bminus mode_NE x x') (xsub y y').
Proof.
  intros (v & r & j & V & -> & S) (v' & r' & j' & V' & -> & S'). cbn [xsub]. replace (r - r') with (r + - r') by ring.
  apply add_gen with v j (- v') (- j')%Z; [exact S|now apply neg_with|]. apply approx_rnd. intros H. replace (v + - v') with (v - v') in * by ring. now apply val_sub.
Qed.

Lemma prod_bounds a b c d r s : a <= r <= b -> c <= s <= d ->
  Rmin (Rmin (a * c) (a * d)) (Rmin (b * c) (b * d)) <= r * s <= Rmax (Rmax (a * c) (a * d)) (Rmax (b * c) (b * d)).
Proof.
  intros H K.
  assert (L : forall x, Rmin (x * c) (x * d) <= x * s <= Rmax (x * c) (x * d)).
  { intros x. destruct (Rle_dec 0 x).
    - split; [eapply Rle_trans; [apply Rmin_l|]|eapply Rle_trans; [|apply Rmax_r]]; apply Rmult_le_compat_l; lra.
    - split; [eapply Rle_trans; [apply Rmin_r|]|eapply Rle_trans; [|apply Rmax_l]]; nra. }
  pose proof (L a) as [La Ua]. pose proof (L b) as [Lb Ub]. clear L.
  assert (Rmin (a * s) (b * s) <= r * s <= Rmax (a * s) (b * s)).
  { destruct (Rle_dec 0 s).
    - split; [eapply Rle_trans; [apply Rmin_l|]|eapply Rle_trans; [|apply Rmax_r]]; apply Rmult_le_compat_r; lra.
    - split; [eapply Rle_trans; [apply Rmin_r|]|eapply Rle_trans; [|apply Rmax_l]]; nra. }
  split.
  - eapply Rle_trans; [|apply H0]. apply Rmin_glb; [eapply Rle_trans; [apply Rmin_l|exact La]|eapply Rle_trans; [apply Rmin_r|exact Lb]].
  - eapply Rle_trans; [apply H0|]. apply Rmax_lub; [eapply Rle_trans; [exact Ua|apply Rmax_l]|eapply Rle_trans; [exact Ub|apply Rmax_r]].
Qed.
Definition s2 (a : Z) : R := IZR a / IZR SC / IZR SC.
Lemma s2_le a b : (a <= b)%Z -> s2 a <= s2 b.
Proof. intros H. apply IZR_le in H. unfold s2, Rdiv. pose proof (Rinv_0_lt_compat _ SC_pos). do 2 (apply Rmult_le_compat_r; [lra|]). exact H. Qed.
Lemma s2_min a b : s2 (Z.min a b) = Rmin (s2 a) (s2 b).
Proof. destruct (Z.min_spec a b) as [[H ->]|[H ->]]; symmetry; [apply Rmin_left|apply Rmin_right]; apply s2_le; lia. Qed.
Lemma s2_max a b : s2 (Z.max a b) = Rmax (s2 a) (s2 b).
Proof. destruct (Z.max_spec a b) as [[H ->]|[H ->]]; symmetry; [apply Rmax_right|apply Rmax_left]; apply s2_le; lia. Qed.
Lemma s2_mul a b : s2 (a * b) = zr a * zr b. Proof. symmetry. apply zr_mul. Qed.
Lemma s2_add a b : s2 (a + b) = s2 a + s2 b.
Proof. unfold s2. rewrite plus_IZR. field. pose proof SC_pos; lra. Qed.
Lemma s2_dn a : zr (a / SC) <= s2 a. Proof. apply zr_dn. Qed.
Lemma s2_up a : s2 a <= zr (cdiv a SC). Proof. apply zr_up. Qed.

Lemma mul_err v r v' r' M M' e e' : Rabs (v - r) <= e -> Rabs (v' - r') <= e' -> Rabs r <= M -> Rabs r' <= M' ->
  Rabs (v * v' - r * r') <= M * e' + M' * e + e * e'.
Proof.
  intros E E' B B'. replace (v * v' - r * r') with (r * (v' - r') + r' * (v - r) + (v - r) * (v' - r')) by ring.
  eapply Rle_trans; [apply Rabs_triang|]. apply Rplus_le_compat; [eapply Rle_trans; [apply Rabs_triang|]; apply Rplus_le_compat|];
    rewrite Rabs_mult; apply Rmult_le_compat; auto using Rabs_pos.
Qed.
Lemma mul_sound a b x y x' y' : sat a x y -> sat b x' y' -> satv (a_mul a b) (Bmult mode_NE x x') (xmul y y').
Proof.
  intros S S'. unfold a_mul. destruct (a_per a) eqn:P, (a_per b) eqn:P'; try exact I.
  destruct (sat0 _ _ _ P S) as (v & r & V & -> & B & E & M & _ & _). destruct (sat0 _ _ _ P' S') as (v' & r' & V' & -> & B' & E' & M' & _ & _).
  cbn [xmul]. apply finish0_sound with (w := v * v'); [lia|apply approx_rnd; now apply val_mul| |].
  - pose proof (prod_bounds _ _ _ _ _ _ B B') as [Hl Hu]. rewrite <- !s2_mul in Hl, Hu. rewrite <- !s2_min in Hl. rewrite <- !s2_max in Hu.
    split; [eapply Rle_trans; [apply s2_dn|exact Hl]|eapply Rle_trans; [exact Hu|apply s2_up]].
  - eapply Rle_trans; [|apply s2_up]. rewrite !s2_add, !s2_mul. now apply mul_err.
Qed.

(* ---- quotients *)
Lemma q_lo_ok lo ylo yhi r s : zr lo <= r -> zr ylo <= s <= zr yhi -> (0 < ylo)%Z -> zr (q_lo lo ylo yhi) <= r / s.
Proof.
  intros H K L. pose proof (zr_lt _ _ L) as L'. rewrite zr_0 in L'.
  assert (Y : (0 < yhi)%Z). { apply Z.lt_le_trans with ylo; [exact L|]. apply le_IZR. assert (zr ylo <= zr yhi) by lra. unfold zr in *.
    apply Rmult_le_reg_r with (/ IZR SC); [apply Rinv_0_lt_compat, SC_pos|exact H0]. }
  pose proof (zr_lt _ _ Y) as Y'. rewrite zr_0 in Y'.
  assert (Q : forall a b, (0 < b)%Z -> zr (a * SC / b) <= zr a / zr b).
  { intros a b Hb. unfold zr at 1. eapply Rle_trans; [apply Rmult_le_compat_r; [left; apply Rinv_0_lt_compat, SC_pos|apply floor_le; exact Hb]|].
    rewrite mult_IZR. unfold zr. apply Req_le. apply IZR_lt in Hb. field. pose proof SC_pos. lra. }
  unfold q_lo. destruct (Z.leb_spec 0 lo) as [P|P].
  - pose proof (zr_le _ _ P) as P'. rewrite zr_0 in P'. eapply Rle_trans; [apply Q; exact Y|]. unfold Rdiv.
    apply Rmult_le_compat; [lra|left; now apply Rinv_0_lt_compat|exact H|]. apply Rinv_le; lra.
  - pose proof (zr_lt _ _ P) as P'. rewrite zr_0 in P'. eapply Rle_trans; [apply Q; exact L|]. unfold Rdiv.
    apply Rle_trans with (zr lo * / s); [|apply Rmult_le_compat_r; [left; apply Rinv_0_lt_compat; lra|exact H]].
    assert (/ s <= / zr ylo) by (apply Rinv_le; lra). nra.
Qed.
Lemma quot_err v r v' r' e e' Q m : Rabs (v - r) <= e -> Rabs (v' - r') <= e' -> Rabs (r / r') <= Q -> 0 < m <= v' -> 0 < r' ->
  Rabs (v / v' - r / r') <= (e + Q * e') / m.
Proof.
  intros E E' H M R. replace (v / v' - r / r') with (((v - r) + - (r / r' * (v' - r'))) * / v') by (field; lra).
  rewrite Rabs_mult. unfold Rdiv at 2. apply Rmult_le_compat; [apply Rabs_pos|apply Rabs_pos| |].
  - eapply Rle_trans; [apply Rabs_triang|]. rewrite Rabs_Ropp, Rabs_mult. apply Rplus_le_compat; [exact E|]. apply Rmult_le_compat; auto using Rabs_pos.
  - rewrite Rabs_pos_eq by (left; apply Rinv_0_lt_compat; lra). apply Rinv_le; lra.
Qed.
Lemma quot_sound a b l h e v r v' r' : a_quot a b = Some (l, h, e) ->
  zr (a_lo a) <= r <= zr (a_hi a) -> Rabs (v - r) <= zr (a_err a) -> zr (a_lo b) <= r' <= zr (a_hi b) -> Rabs (v' - r') <= zr (a_err b) ->
  a_per a = NoPer /\ a_per b = NoPer /\ 0 < v' /\ 0 < r' /\ zr l <= r / r' <= zr h /\ Rabs (v / v' - r / r') <= zr e.
Proof.
  unfold a_quot. destruct (a_per a), (a_per b); try discriminate. destruct (Z.ltb_spec 0 (a_lo b - a_err b)) as [Y|]; [|discriminate].
  intros [= <- <- <-] B E B' E'. split; [reflexivity|]. split; [reflexivity|].
  pose proof (zr_lt _ _ Y) as Y'. rewrite zr_0, zr_sub in Y'. pose proof (Rabs_pos (v' - r')) as EP.
  assert (V : zr (a_lo b - a_err b) <= v'). { rewrite zr_sub. apply Rabs_le_inv in E'. lra. }
  assert (L : (0 < a_lo b)%Z). { apply lt_IZR. assert (0 < zr (a_lo b)) as G by lra. unfold zr in G. apply Rmult_lt_reg_r with (/ IZR SC); [apply Rinv_0_lt_compat, SC_pos|]. rewrite Rmult_0_l. exact G. }
  rewrite zr_sub in V. split; [lra|]. split; [lra|].
  assert (Q : zr (q_lo (a_lo a) (a_lo b) (a_hi b)) <= r / r' <= zr (- q_lo (- a_hi a) (a_lo b) (a_hi b))).
  { split; [apply q_lo_ok; tauto|]. rewrite zr_opp. assert (zr (q_lo (- a_hi a) (a_lo b) (a_hi b)) <= (- r) / r').
    { apply q_lo_ok; [rewrite zr_opp; lra|tauto|exact L]. } unfold Rdiv in *. lra. }
  split; [exact Q|]. pose proof (abs_bound _ _ _ Q) as A. set (l := q_lo _ _ _) in *. set (h := (- q_lo _ _ _)%Z) in *.
  eapply Rle_trans; [apply quot_err with (m := zr (a_lo b - a_err b)) (1 := E) (2 := E') (3 := A)|].
  - rewrite zr_sub. lra.
  - lra.
  - unfold zr at 5. eapply Rle_trans; [|apply Rmult_le_compat_r; [left; apply Rinv_0_lt_compat, SC_pos|apply ceil_ge; exact Y]].
    apply Req_le. rewrite plus_IZR, !mult_IZR. unfold zr. apply IZR_lt in Y. field. pose proof SC_pos. lra.
Qed.
Lemma xdiv_fin r s : s <> 0 -> xdiv_py (Fin r) (Fin s) = Ok (Fin (r / s)).
Proof. intros H. unfold xdiv_py, xis_zero, Req_bool. now destruct (Req_EM_T s 0). Qed.

Section L.
Variable L : libm.
Hypothesis HL : accurate L.
Notation N := (B64 L).

Lemma div_sound a b x y x' y' z : sat a x y -> sat b x' y' -> a_div a b = Ok z ->
  exists q p, div (n := N) x x' = Ok q /\ xdiv_py y y' = Ok p /\ satv z q p.
Proof.
  intros (v & r & j & V & -> & B & M & E) (v' & r' & j' & V' & -> & B' & M' & E') H.
  assert (K : exists l h e, finish0 1 l h e = z /\ r' <> 0 /\ v' <> 0 /\ zr l <= r / r' <= zr h /\ Rabs (v / v' - r / r') <= zr e).
  { unfold a_div in H. destruct (a_quot a b) as [[[l h] e]|] eqn:Q.
    - apply Ok_inj in H; subst z. exists l, h, e. split; [reflexivity|].
      assert (PP : a_per a = NoPer /\ a_per b = NoPer) by (unfold a_quot in Q; destruct (a_per a), (a_per b); try discriminate; auto).
      destruct PP as [PA PB]. rewrite PA in E. rewrite PB in E'. cbn [turn] in *. rewrite Rmult_0_r, Rminus_0_r in E, E'.
      destruct (quot_sound a b l h e v r v' r' Q B E B' E') as (_ & _ & P1 & P2 & K1 & K2). repeat split; try lra; tauto.
    - destruct (a_quot (a_neg a) (a_neg b)) as [[[l h] e]|] eqn:Q'; [|discriminate]. apply Ok_inj in H; subst z. exists l, h, e. split; [reflexivity|].
      assert (PP : a_per a = NoPer /\ a_per b = NoPer) by (unfold a_quot in Q'; cbn [a_neg a_per] in Q'; destruct (a_per a), (a_per b); try discriminate; auto).
      destruct PP as [PA PB]. rewrite PA in E. rewrite PB in E'. cbn [turn] in *. rewrite Rmult_0_r, Rminus_0_r in E, E'.
      destruct (quot_sound _ _ l h e (- v) (- r) (- v') (- r') Q') as (_ & _ & P1 & P2 & K1 & K2); cbn [a_neg a_lo a_hi a_err]; rewrite ?zr_opp; try lra.
      + replace (- v - - r) with (- (v - r)) by ring. now rewrite Rabs_Ropp.
      + replace (- v' - - r') with (- (v' - r')) by ring. now rewrite Rabs_Ropp.
      + replace (- r / - r') with (r / r') in * by (field; lra). replace (- v / - v') with (v / v') in * by (field; lra).
        repeat split; try lra; tauto. }
  destruct K as (l & h & e & <- & R0 & V0 & K1 & K2). exists (Bdiv mode_NE x x'), (Fin (r / r')).
  split; [cbn [div B64]; now rewrite (val_nz _ _ V' V0)|]. split; [now apply xdiv_fin|].
  apply finish0_sound with (w := v / v'); [lia| |exact K1|exact K2]. apply approx_rnd. now apply val_div.
Qed.

Lemma D360_eq : zr D360 = 360. Proof. apply (zr_int 360). Qed.
Lemma Rfmod_shift a b : 0 < b -> exists k : Z, Rfmod a b = a - IZR k * b /\ 0 <= Rfmod a b < b.
Proof.
  intros Hb. exists (Zfloor (a / b)). unfold Rfmod. split; [ring|]. pose proof (Zfloor_lb (a / b)) as H1. pose proof (Zfloor_ub (a / b)) as H2.
  assert (a = b * (a / b)) by (field; lra). split; nra.
Qed.
Lemma fmod_sound a b x y x' y' z : sat a x y -> sat b x' y' -> a_fmod a b = Ok z ->
  exists q p, fmod (n := N) x x' = Ok q /\ xfmod_py y y' = Ok p /\ satv z q p.
Proof.
  intros (v & r & j & V & -> & B & M & E) (v' & r' & j' & V' & -> & B' & M' & E'). unfold a_fmod.
  destruct (Z.eqb_spec (a_lo b) D360) as [E1|]; [|discriminate]. destruct (Z.eqb_spec (a_hi b) D360) as [E2|]; [|discriminate].
  destruct (Z.eqb_spec (a_err b) 0) as [E3|]; [|discriminate]. destruct (a_per b); try discriminate.
  rewrite E1, E2, E3, zr_0, D360_eq in *. cbn [turn] in E'. rewrite Rmult_0_r, Rminus_0_r in E'.
  assert (R3 : r' = 360) by lra. assert (V3 : v' = 360). { apply Rabs_le_inv in E'. lra. }
  subst r'. subst v'. intros H.
  assert (X : x' = flit 360) by (apply (val_inj _ _ 360); [exact V'|exact v360|lra]). subst x'.
  destruct (fmod360 x v V) as (f & w & F & W & BW & _ & EW). exists f, (Fin (Rfmod r 360)). split; [exact F|].
  split. { unfold xfmod_py, xis_zero, Req_bool. destruct (Req_EM_T 360 0); [lra|reflexivity]. }
  assert (T : exists i : Z, IZR j * turn (a_per a) = IZR i * 360).
  { destruct (a_per a); [exists 0%Z; cbn; ring|exists j; reflexivity|discriminate]. }
  assert (H' : z = Ab (mkab 0 D360 D360 (a_err a + ulp_of D360) Deg)) by (destruct (a_per a); [|  |discriminate]; symmetry; exact (Ok_inj _ _ H)). subst z. clear H.
  destruct T as (i & Ti). destruct (Rfmod_shift v 360) as (k1 & K1 & K1'); [lra|]. destruct (Rfmod_shift r 360) as (k2 & K2 & K2'); [lra|].
  cbn [satv]. exists w, (Rfmod r 360), (i - k1 + k2)%Z. split; [exact W|]. split; [reflexivity|]. cbn [a_lo a_hi a_mag a_err a_per turn].
  rewrite zr_0, zr_add, D360_eq. split; [lra|]. split; [rewrite Rabs_pos_eq; lra|].
  assert (D : Rabs (w - Rfmod v 360) <= zr (ulp_of D360)).
  { rewrite EW. eapply Rle_trans; [apply rnd_rel|]. eapply Rle_trans; [|apply ulp_ok]. rewrite D360_eq. apply Rplus_le_compat_r.
    apply Rmult_le_compat_r; [apply bpow_ge_0|]. rewrite Rabs_pos_eq; lra. }
  rewrite plus_IZR, minus_IZR. replace (w - Rfmod r 360 - (IZR i - IZR k1 + IZR k2) * 360) with ((w - Rfmod v 360) + (v - r - IZR i * 360)) by (rewrite K1, K2; ring).
  eapply Rle_trans; [apply Rabs_triang|]. rewrite Ti in E. lra.
Qed.

(* ---- functions of the C library *)
Lemma close_fin f w : close f w -> is_nan f = false /\ is_inf f = false.
Proof. intros (v & V & _). exact (val_fin _ _ V). Qed.
Lemma math1_close ex (f : f64 -> f64) x w : close (f x) w -> math_1 ex f x = Ok (f x).
Proof. intros C. destruct (close_fin _ _ C) as [A B]. unfold math_1. now rewrite A, B. Qed.
Lemma math2_close (f : f64 -> f64 -> f64) x y w : close (f x y) w -> math_2 f x y = Ok (f x y).
Proof. intros C. destruct (close_fin _ _ C) as [A B]. unfold math_2. now rewrite A, B. Qed.
Lemma approx_close' f w : close f w -> approx 2 f w.
Proof. intros C. now apply approx_close. Qed.

Lemma turn_sin a v r (j : Z) : a_per a <> Deg -> Rabs (v - r - IZR j * turn (a_per a)) <= zr (a_err a) ->
  Rabs (sin v - sin r) <= zr (a_err a) /\ Rabs (cos v - cos r) <= zr (a_err a).
Proof.
  intros P E. assert (K : exists i : Z, IZR j * turn (a_per a) = 2 * IZR i * PI).
  { destruct (a_per a); [exists 0%Z; cbn; ring|congruence|exists j; cbn [turn]; ring]. }
  destruct K as (i & Ei). rewrite Ei in E. set (v' := v - 2 * IZR i * PI).
  assert (S : sin v = sin v' /\ cos v = cos v').
  { rewrite <- (sin_2kPI v' i), <- (cos_2kPI v' i). unfold v'. split; f_equal; ring. }
  destruct S as [-> ->]. replace (v - r - 2 * IZR i * PI) with (v' - r) in E by (unfold v'; ring).
  split; (eapply Rle_trans; [|exact E]); [apply sin_lip|apply cos_lip].
Qed.
Lemma abs_sin r : Rabs (sin r) <= Rabs r.
Proof. pose proof (sin_lip r 0) as H. rewrite sin_0, !Rminus_0_r in H. exact H. Qed.
Lemma abs_le1 f : -1 <= f <= 1 -> Rabs f <= 1. Proof. intros. apply Rabs_le. lra. Qed.
Lemma sin_sound a x y z : sat a x y -> a_sin a = Ok z -> exists q p, nsin (n := N) x = Ok q /\ nsin (n := MathR) y = Ok p /\ satv z q p.
Proof.
  intros (v & r & j & V & -> & B & M & E) H.
  assert (K : a_per a <> Deg /\ z = finish 2 (- Z.min SC (zmax a)) (Z.min SC (zmax a)) SC (a_err a) NoPer).
  { unfold a_sin in H. destruct (a_per a); [|discriminate|]; (split; [discriminate|symmetry; exact (Ok_inj _ _ H)]). }
  destruct K as [P ->]. pose proof (ac_sin L HL x v V) as C.
  exists (l_sin L x), (Fin (sin r)). split; [apply (math1_close _ _ _ _ C)|]. split; [reflexivity|].
  apply finish_sound with (w := sin v) (j := 0%Z); [lia|now apply approx_close'| | |].
  - rewrite zr_SC. apply abs_le1, SIN_bound.
  - rewrite zr_opp, zr_min, zr_SC. pose proof (abs_sin r) as S. pose proof (abs_bound _ _ _ B) as S'. fold (zmax a) in S'. pose proof (SIN_bound r).
    apply Rabs_le_inv in S. unfold Rmin. destruct (Rle_dec 1 (zr (zmax a))); lra.
  - replace (sin v - sin r - 0 * turn NoPer) with (sin v - sin r) by ring. now apply (turn_sin a v r j P E).
Qed.
Lemma sq_le a m : Rabs a <= m -> a * a <= m * m.
Proof. intros H. pose proof (Rabs_pos a). apply Rabs_le_inv in H. nra. Qed.
Lemma cos_lower r : 1 - r * r / 2 <= cos r.
Proof.
  replace r with (2 * (r / 2)) at 3 by field. rewrite cos_2a_sin. pose proof (abs_sin (r / 2)) as S.
  apply sq_le in S. assert (Rabs (r / 2) * Rabs (r / 2) = r / 2 * (r / 2)); [|lra].
  rewrite <- Rabs_mult. apply Rabs_pos_eq. nra.
Qed.
Lemma cos_sound a x y z : sat a x y -> a_cos a = Ok z -> exists q p, ncos (n := N) x = Ok q /\ ncos (n := MathR) y = Ok p /\ satv z q p.
Proof.
  intros (v & r & j & V & -> & B & M & E) H.
  assert (K : a_per a <> Deg /\ z = finish 2 (Z.max (- SC) (SC - cdiv (zmax a * zmax a) (2 * SC))) SC SC (a_err a) NoPer).
  { unfold a_cos in H. destruct (a_per a); [|discriminate|]; (split; [discriminate|symmetry; exact (Ok_inj _ _ H)]). }
  destruct K as [P ->]. pose proof (ac_cos L HL x v V) as C.
  exists (l_cos L x), (Fin (cos r)). split; [apply (math1_close _ _ _ _ C)|]. split; [reflexivity|].
  apply finish_sound with (w := cos v) (j := 0%Z); [lia|now apply approx_close'| | |].
  - rewrite zr_SC. apply abs_le1, COS_bound.
  - rewrite zr_max, zr_sub, zr_opp, zr_SC. pose proof (COS_bound r). split; [|lra]. apply Rmax_lub; [lra|].
    eapply Rle_trans; [|apply cos_lower]. pose proof (abs_bound _ _ _ B) as S'. fold (zmax a) in S'.
    assert (Q : r * r / 2 <= zr (cdiv (zmax a * zmax a) (2 * SC))).
    { apply Rle_trans with (zr (zmax a) * zr (zmax a) / 2).
      - apply Rmult_le_compat_r; [lra|]. now apply sq_le.
      - unfold zr at 3. pose proof (ceil_ge (zmax a * zmax a) (2 * SC) ltac:(reflexivity)) as CG. rewrite !mult_IZR in CG.
        replace (zr (zmax a) * zr (zmax a) / 2) with (IZR (zmax a) * IZR (zmax a) / (2 * IZR SC) / IZR SC) by (unfold zr; field; pose proof SC_pos; lra).
        apply Rmult_le_compat_r; [left; apply Rinv_0_lt_compat, SC_pos|exact CG]. }
    lra.
  - replace (cos v - cos r - 0 * turn NoPer) with (cos v - cos r) by ring. now apply (turn_sin a v r j P E).
Qed.

(* tan and asin have slope at most 2 within 1/2 *)
Lemma cos_half c : -(1/2) <= c <= 1/2 -> 7/8 <= cos c.
Proof. intros H. pose proof (cos_lower c). nra. Qed.
Lemma cos_one c : -1 <= c <= 1 -> 1/2 <= cos c.
Proof. intros H. pose proof (cos_lower c). nra. Qed.
Lemma tan_lip_gen m a b : 0 < m -> m <= cos a -> m <= cos b -> Rabs (tan a - tan b) <= / (m * m) * Rabs (a - b).
Proof.
  intros Hm Ha Hb. replace (tan a - tan b) with (sin (a - b) * / (cos a * cos b)) by (rewrite sin_minus; unfold tan; field; lra).
  assert (0 < / (cos a * cos b) <= / (m * m)).
  { split; [apply Rinv_0_lt_compat; nra|]. apply Rinv_le; nra. }
  rewrite Rabs_mult, (Rabs_pos_eq (/ _)) by lra. pose proof (abs_sin (a - b)). pose proof (Rabs_pos (sin (a - b))). nra.
Qed.
Lemma tan_lip a b : -(1/2) <= a <= 1/2 -> -(1/2) <= b <= 1/2 -> Rabs (tan a - tan b) <= IZR 12 / 6 * Rabs (a - b).
Proof.
  intros Ha Hb. pose proof (tan_lip_gen (7/8) a b ltac:(lra) (cos_half a Ha) (cos_half b Hb)) as K. pose proof (Rabs_pos (a - b)). lra.
Qed.
Lemma tan_lip1 a b : -(1) <= a <= 1 -> -(1) <= b <= 1 -> Rabs (tan a - tan b) <= IZR 24 / 6 * Rabs (a - b).
Proof.
  intros Ha Hb. pose proof (tan_lip_gen (1/2) a b ltac:(lra) (cos_one a Ha) (cos_one b Hb)) as K. pose proof (Rabs_pos (a - b)). lra.
Qed.
Lemma asin_half a : -(1/2) <= a <= 1/2 -> - (PI / 6) <= asin a <= PI / 6.
Proof.
  intros H. pose proof (asin_bound a) as B. pose proof PI_RGT_0. pose proof (sin_asin a ltac:(lra)) as S. split.
  - destruct (Rle_dec (- (PI / 6)) (asin a)) as [|K]; [assumption|]. assert (sin (asin a) < sin (- (PI / 6))) as Q by (apply sin_increasing_1; lra).
    rewrite S, sin_neg, sin_PI6 in Q. lra.
  - destruct (Rle_dec (asin a) (PI / 6)) as [|K]; [assumption|]. assert (sin (PI / 6) < sin (asin a)) as Q by (apply sin_increasing_1; lra).
    rewrite S, sin_PI6 in Q. lra.
Qed.
Lemma asin_lip a b : -(1/2) <= a <= 1/2 -> -(1/2) <= b <= 1/2 -> Rabs (asin a - asin b) <= IZR 7 / 6 * Rabs (a - b).
Proof.
  intros Ha Hb. pose proof (asin_half a Ha) as A. pose proof (asin_half b Hb) as B.
  rewrite <- (sin_asin a) at 2 by lra. rewrite <- (sin_asin b) at 2 by lra. set (u := asin a) in *. set (w := asin b) in *. clearbody u w.
  assert (P4 : 3 < PI < 3.15) by (split; interval).
  assert (G : forall s t, s < t -> - (PI / 6) <= s <= PI / 6 -> - (PI / 6) <= t <= PI / 6 -> Rabs (t - s) <= IZR 7 / 6 * Rabs (sin t - sin s)).
  { intros s t K Hs Ht. destruct (MVT_cor2 sin cos s t K) as (c & E & Hc); [intros; apply derivable_pt_lim_sin|].
    rewrite E, Rabs_mult. pose proof (cos_lower c). assert (6 / 7 <= cos c) by nra. rewrite (Rabs_pos_eq (cos c)) by lra. pose proof (Rabs_pos (t - s)). nra. }
  destruct (Rtotal_order u w) as [K|[->|K]].
  - rewrite Rabs_minus_sym, (Rabs_minus_sym (sin u)). now apply G.
  - rewrite !Rminus_diag_eq by reflexivity. rewrite Rabs_R0. lra.
  - now apply G.
Qed.
Lemma slope_up n m : IZR n / 6 * zr m <= zr (cdiv (n * m) 6).
Proof.
  unfold zr. eapply Rle_trans; [|apply Rmult_le_compat_r; [left; apply Rinv_0_lt_compat, SC_pos|apply ceil_ge; reflexivity]].
  rewrite mult_IZR. apply Req_le. field. apply IZR_neq. discriminate.
Qed.
Lemma steep_gen n d a x y z (f : R -> R) q : (0 <= n)%Z -> (0 < d)%Z -> sat a x y -> a_steep n d a = Ok z -> f 0 = 0 ->
  (forall a b, - / IZR d <= a <= / IZR d -> - / IZR d <= b <= / IZR d -> Rabs (f a - f b) <= IZR n / 6 * Rabs (a - b)) ->
  exists v r, val x v /\ y = Fin r /\ - / IZR d <= v <= / IZR d /\ - / IZR d <= r <= / IZR d /\ Rabs (f v) <= IZR n / 6 * / IZR d /\
    (close q (f v) -> satv z q (Fin (f r))).
Proof.
  intros Hn Hd S H F0 FL. apply IZR_le in Hn. apply IZR_lt in Hd. pose proof (Rinv_0_lt_compat _ Hd) as Hi.
  unfold a_steep in H. destruct (a_per a) eqn:P; try discriminate. destruct (sat0 _ _ _ P S) as (v & r & V & -> & B & E & M & MV & EP).
  destruct (Z.leb_spec (d * (zmax a + a_err a)) SC) as [Q|]; [|discriminate]. apply Ok_inj in H; subst z.
  apply zr_le in Q. rewrite zr_scale, zr_SC, zr_add in Q. rewrite zr_add in MV. exists v, r.
  assert (Q' : zr (zmax a) + zr (a_err a) <= / IZR d).
  { apply Rmult_le_reg_l with (IZR d); [exact Hd|]. rewrite Rinv_r by lra. exact Q. }
  assert (RV : - / IZR d <= v <= / IZR d) by (apply Rabs_le_inv; lra). assert (RR : - / IZR d <= r <= / IZR d) by (apply Rabs_le_inv; lra).
  split; [exact V|]. split; [reflexivity|]. split; [exact RV|]. split; [exact RR|]. split.
  - pose proof (FL v 0 RV ltac:(lra)) as K. rewrite F0, !Rminus_0_r in K. eapply Rle_trans; [exact K|]. apply Rmult_le_compat_l; [lra|]. apply Rabs_le. lra.
  - intros C. apply finish0_sound with (w := f v); [lia|now apply approx_close'| |].
    + pose proof (FL r 0 RR ltac:(lra)) as K. rewrite F0, !Rminus_0_r in K. rewrite zr_opp. apply Rabs_le_inv. eapply Rle_trans; [exact K|].
      eapply Rle_trans; [|apply slope_up]. apply Rmult_le_compat_l; [lra|exact M].
    + eapply Rle_trans; [apply FL; assumption|]. eapply Rle_trans; [|apply slope_up]. apply Rmult_le_compat_l; [lra|exact E].
Qed.
Lemma tan_sound a x y z : sat a x y -> a_tan a = Ok z -> exists q p, ntan (n := N) x = Ok q /\ ntan (n := MathR) y = Ok p /\ satv z q p.
Proof.
  intros S H. unfold a_tan in H.
  assert (G : exists v r, val x v /\ y = Fin r /\ 1/2 <= cos r /\ Rabs (tan v) <= 4 /\ (close (l_tan L x) (tan v) -> satv z (l_tan L x) (Fin (tan r)))).
  { destruct (a_steep 12 2 a) as [z'|] eqn:A.
    - apply Ok_inj in H; subst z'. destruct (steep_gen 12 2 a x y z tan (l_tan L x) ltac:(lia) ltac:(lia) S A tan_0) as (v & r & V & -> & RV & RR & T1 & K).
      { intros ? ? ? ?. apply tan_lip; lra. }
      exists v, r. repeat split; auto; [apply V|apply V|apply cos_one; lra|lra].
    - destruct (steep_gen 24 1 a x y z tan (l_tan L x) ltac:(lia) ltac:(lia) S H tan_0) as (v & r & V & -> & RV & RR & T1 & K).
      { intros ? ? ? ?. apply tan_lip1; lra. }
      exists v, r. repeat split; auto; [apply V|apply V|apply cos_one; lra|lra]. }
  destruct G as (v & r & V & -> & RR & T1 & K).
  assert (C : close (l_tan L x) (tan v)).
  { apply ac_tan; auto. eapply Rle_trans; [exact T1|]. change 4 with (bpow radix2 2). now apply bpow_le. }
  exists (l_tan L x), (Fin (tan r)). split; [apply (math1_close _ _ _ _ C)|]. split; [|now apply K].
  apply ntan_R. lra.
Qed.
Lemma asin_sound a x y z : sat a x y -> a_asin a = Ok z -> exists q p, nasin (n := N) x = Ok q /\ nasin (n := MathR) y = Ok p /\ satv z q p.
Proof.
  intros S H. destruct (steep_gen 7 2 a x y z asin (l_asin L x) ltac:(lia) ltac:(lia) S H asin_0) as (v & r & V & -> & RV & RR & _ & K).
  { intros ? ? ? ?. apply asin_lip; lra. }
  assert (C : close (l_asin L x) (asin v)) by (apply ac_asin; [exact HL|exact V|apply Rabs_le; lra]).
  exists (l_asin L x), (Fin (asin r)). split; [apply (math1_close _ _ _ _ C)|]. split; [|now apply K]. apply nasin_R. lra.
Qed.
Lemma atan_abs r : Rabs (atan r) <= Rabs r /\ Rabs (atan r) <= 2.
Proof.
  split; [pose proof (atan_lip r 0) as H; rewrite atan_0, !Rminus_0_r in H; exact H|].
  pose proof (atan_bound r) as H. assert (PI < 4) by interval. apply Rabs_le. lra.
Qed.
Lemma min2_bound m r : Rabs r <= zr m -> Rabs r <= 2 -> zr (- Z.min (2 * SC) m) <= r <= zr (Z.min (2 * SC) m).
Proof.
  intros A B. rewrite zr_opp, zr_min, zr_int. apply Rabs_le_inv. unfold Rmin. destruct (Rle_dec 2 (zr m)); assumption.
Qed.
Lemma atan_sound a x y z : sat a x y -> a_atan a = Ok z -> exists q p, natan (n := N) x = Ok q /\ natan (n := MathR) y = Ok p /\ satv z q p.
Proof.
  intros S H. unfold a_atan in H. destruct (a_per a) eqn:P; try discriminate. apply Ok_inj in H; subst z. destruct (sat0 _ _ _ P S) as (v & r & V & -> & B & E & M & MV & EP).
  pose proof (ac_atan L HL x v V) as C. exists (l_atan L x), (Fin (atan r)). split; [apply (math1_close _ _ _ _ C)|]. split; [reflexivity|].
  apply finish0_sound with (w := atan v); [lia|now apply approx_close'| |eapply Rle_trans; [apply atan_lip|exact E]].
  apply min2_bound; [|apply (proj2 (atan_abs _))]. eapply Rle_trans; [apply (proj1 (atan_abs _))|exact M].
Qed.
Lemma atan2_sound a b x y x' y' z : sat a x y -> sat b x' y' -> a_atan2 a b = Ok z ->
  exists q p, natan2 (n := N) x x' = Ok q /\ natan2 (n := MathR) y y' = Ok p /\ satv z q p.
Proof.
  intros (v & r & j & V & -> & B & M & E) (v' & r' & j' & V' & -> & B' & M' & E') H. unfold a_atan2 in H.
  destruct (a_quot a b) as [[[l h] e]|] eqn:Q; [|discriminate]. apply Ok_inj in H; subst z.
  assert (PP : a_per a = NoPer /\ a_per b = NoPer) by (unfold a_quot in Q; destruct (a_per a), (a_per b); try discriminate; auto).
  destruct PP as [PA PB]. rewrite PA in E. rewrite PB in E'. cbn [turn] in *. rewrite Rmult_0_r, Rminus_0_r in E, E'.
  destruct (quot_sound a b l h e v r v' r' Q B E B' E') as (_ & _ & P1 & P2 & K1 & K2).
  pose proof (ac_atan2 L HL x x' v v' V V') as C. rewrite (atan2_ieee_pos x x' v v' V V' P1), Ratan2_pos in C by exact P1.
  exists (l_atan2 L x x'), (Fin (Ratan2 r r')). split; [apply (math2_close _ _ _ _ C)|]. split; [reflexivity|]. rewrite Ratan2_pos by exact P2.
  apply finish0_sound with (w := atan (v / v')); [lia|now apply approx_close'| |eapply Rle_trans; [apply atan_lip|exact K2]].
  apply min2_bound; [|apply (proj2 (atan_abs _))]. eapply Rle_trans; [apply (proj1 (atan_abs _))|]. now apply abs_bound.
Qed.

(* ---- x ** n *)
Definition small_pow_ok : bool := forallb (fun n => let y := flit (inject_Z (Z.of_nat n)) in
  negb (is_zero y) && negb (is_nan y) && negb (is_inf y) && negb (f_neg y) && is_integer y && Bool.eqb (is_odd y) (Nat.odd n)) (seq 1 20).
Lemma small_pow n : (1 <= n <= 20)%nat -> let y := flit (inject_Z (Z.of_nat n)) in
  is_zero y = false /\ is_nan y = false /\ is_inf y = false /\ f_neg y = false /\ is_integer y = true /\ is_odd y = Nat.odd n.
Proof.
  intros H. assert (K : small_pow_ok = true) by (vm_compute; reflexivity). unfold small_pow_ok in K. rewrite forallb_forall in K.
  specialize (K n). cbv zeta in *. rewrite !andb_true_iff, !negb_true_iff, Bool.eqb_true_iff in K. assert (HI : In n (seq 1 20)) by (apply in_seq; lia). apply K in HI. tauto.
Qed.
Lemma powi_close n x v : (1 <= n <= 20)%nat -> val x v -> Rabs (v ^ n) <= bpow radix2 1000 ->
  exists q, powi (n := N) x n = Ok q /\ close q (v ^ n).
Proof.
  intros Hn V Hb. destruct (small_pow n Hn) as (Y1 & Y2 & Y3 & Y4 & Y5 & Y6). cbn [powi B64].
  set (y := flit (inject_Z (Z.of_nat n))) in *. destruct (val_fin _ _ V) as [X1 X2]. unfold py_pow. rewrite Y1, X1, Y2, Y3, X2, Y4, Y5.
  assert (VY : val y (INR n)). { unfold y. rewrite INR_IZR_INZ. apply val_int. lia. }
  pose proof (zero_val x v V) as Z. destruct (is_zero x) eqn:X3.
  - assert (v = 0) by now apply Z. subst v. rewrite pow_i by (clear - Hn; lia). eexists. split; [reflexivity|]. exists 0. split; [destruct (is_odd y); [exact V|now split]|].
    rewrite Rminus_diag_eq by reflexivity. rewrite Rabs_R0. pose proof (bpow_gt_0 radix2 (-1074)). lra.
  - assert (v <> 0) by (intros K; apply Z in K; congruence). cbn [negb]. rewrite andb_false_r. rewrite Y6. cbv zeta.
    assert (VA : val (Fabs x) (Rabs v)). { destruct V as [F <-]. split; [unfold Fabs; now rewrite is_finite_Babs|apply B2R_Babs]. }
    assert (C : close (if Beqb (Fabs x) one then one else l_pow L (Fabs x) y) (Rabs v ^ n)).
    { assert (V1 : val one 1) by (apply (val_int 1); clear; lia).
      assert (E : Beqb (Fabs x) one = Req_bool (Rabs v) 1).
      { destruct VA as [F <-]. destruct V1 as [F1 E1]. rewrite Beqb_correct by assumption. rewrite E1. unfold Raux.Req_bool, Req_bool.
        destruct (Rcompare_spec (B2R (Fabs x)) 1), (Req_EM_T (B2R (Fabs x)) 1); try reflexivity; lra. }
      rewrite E. unfold Req_bool. destruct (Req_EM_T (Rabs v) 1) as [E1|E1].
      - rewrite E1, pow1. exists 1. split; [exact V1|]. rewrite Rminus_diag_eq by reflexivity. rewrite !Rabs_R0 || rewrite Rabs_R0. rewrite Rabs_R1.
        pose proof (bpow_gt_0 radix2 (-1074)). pose proof (bpow_gt_0 radix2 (-52)). lra.
      - assert (P : 0 < Rabs v) by now apply Rabs_pos_lt. pose proof (ac_pow L HL (Fabs x) y (Rabs v) (INR n) VA VY P) as K.
        rewrite Rpower_pow in K by exact P. apply K. rewrite RPow_abs. exact Hb. }
    set (q := if Beqb (Fabs x) one then one else l_pow L (Fabs x) y) in *.
    assert (C' : close (if f_neg x && Nat.odd n then Bopp q else q) (v ^ n)).
    { rewrite (f_neg_val _ _ V). destruct (Rlt_bool_spec v 0) as [S|S]; cbn [andb].
      - rewrite (Rabs_left v S) in C. destruct (Nat.odd n) eqn:O.
        + apply Nat.odd_spec in O as (m & Em). replace (v ^ n) with (- (- v) ^ n).
          2:{ rewrite Em, Nat.add_comm. cbn [Nat.add]. rewrite <- !tech_pow_Rmult, !pow_mult, <- !Rsqr_pow2, <- Rsqr_neg. ring. }
          destruct C as (u & U & K). exists (- u). split; [now apply val_neg|]. rewrite Rabs_Ropp.
          replace (- u - - (- v) ^ n) with (- (u - (- v) ^ n)) by ring. now rewrite Rabs_Ropp.
        + assert (E : Nat.even n = true) by (rewrite <- Nat.negb_odd, O; reflexivity). apply Nat.even_spec in E as (m & Em).
          replace (v ^ n) with ((- v) ^ n); [exact C|]. rewrite Em, !pow_mult, <- !Rsqr_pow2, <- Rsqr_neg. reflexivity.
      - now rewrite Rabs_pos_eq in C by lra. }
    match goal with |- context [is_inf ?z] => change (close z (v ^ n)) in C'; destruct (close_fin z _ C') as [_ E]; rewrite E end.
    eexists. split; [reflexivity|exact C'].
Qed.
Lemma pow_err v r M e n : Rabs v <= M -> Rabs r <= M -> Rabs (v - r) <= e -> Rabs (v ^ S n - r ^ S n) <= INR (S n) * M ^ n * e.
Proof.
  intros V R E. pose proof (Rabs_pos v) as Pv. assert (PM : forall k, 0 <= M ^ k) by (intros; apply pow_le; lra). induction n as [|n IH].
  - cbn [pow INR]. rewrite !Rmult_1_r, Rmult_1_l. exact E.
  - rewrite <- (tech_pow_Rmult v), <- (tech_pow_Rmult r).
    replace (v * v ^ S n - r * r ^ S n) with (v * (v ^ S n - r ^ S n) + (v - r) * r ^ S n) by ring.
    eapply Rle_trans; [apply Rabs_triang|]. rewrite !Rabs_mult. rewrite (S_INR (S n)).
    replace ((INR (S n) + 1) * M ^ S n * e) with (M * (INR (S n) * M ^ n * e) + e * M ^ S n) by (rewrite <- tech_pow_Rmult; ring).
    apply Rplus_le_compat; apply Rmult_le_compat; auto using Rabs_pos. rewrite <- RPow_abs. apply pow_incr. split; [apply Rabs_pos|exact R].
Qed.
Lemma pw_ok m n x : 0 <= x <= zr m -> x ^ n <= zr (pw m n).
Proof.
  intros H. induction n as [|n IH]; [cbn [pow pw]; rewrite zr_SC; lra|]. cbn [pow pw]. eapply Rle_trans; [|apply zr_up_mul].
  apply Rmult_le_compat; [lra|apply pow_le; lra|lra|exact IH].
Qed.
Lemma powi_sound a x y z n : sat a x y -> a_powi a n = Ok z -> exists q p, powi (n := N) x n = Ok q /\ powi (n := MathR) y n = Ok p /\ satv z q p.
Proof.
  intros S H. unfold a_powi in H. destruct (a_per a) eqn:P; try discriminate. destruct n as [|n]; [discriminate|].
  destruct (Nat.leb_spec n 19) as [Hn|]; [|discriminate]. cbn [andb] in H.
  destruct (sat0 _ _ _ P S) as (v & r & V & -> & B & E & M & MV & EP). set (m := (zmax a + a_err a)%Z) in *.
  destruct (Z.leb_spec (pw m (Datatypes.S n)) BIG) as [HB|]; [|discriminate].
  assert (MR : Rabs r <= zr m) by (unfold m; rewrite zr_add; lra). pose proof (Rabs_pos r) as Rp. pose proof (Rabs_pos v) as Vp.
  apply Ok_inj in H. subst z.
  assert (PR : Rabs (r ^ Datatypes.S n) <= zr (pw m (Datatypes.S n))) by (rewrite <- RPow_abs; apply pw_ok; lra).
  assert (PV : Rabs (v ^ Datatypes.S n) <= zr (pw m (Datatypes.S n))) by (rewrite <- RPow_abs; apply pw_ok; lra).
  rewrite powi_R. destruct (powi_close (Datatypes.S n) x v ltac:(lia) V) as (q & Q & C).
  { eapply Rle_trans; [exact PV|]. eapply Rle_trans; [apply zr_le; exact HB|apply big_bound]. }
  exists q, (Fin (r ^ Datatypes.S n)). split; [exact Q|]. split; [reflexivity|].
  apply finish0_sound with (w := v ^ Datatypes.S n); [lia|now apply approx_close'| |].
  - rewrite zr_opp. now apply Rabs_le_inv.
  - eapply Rle_trans; [apply pow_err with (M := zr m) (e := zr (a_err a)); assumption|].
    eapply Rle_trans; [|apply s2_up]. rewrite s2_mul, zr_scale, <- INR_IZR_INZ.
    apply Rmult_le_compat_r; [exact EP|]. apply Rmult_le_compat_l; [apply pos_INR|]. apply pw_ok. lra.
Qed.

(* ---- literals, constants, radians and degrees *)
Lemma zr_q_dn p d : zr (p * SC / Zpos d) <= IZR p / IZR (Zpos d).
Proof.
  unfold zr. eapply Rle_trans; [apply Rmult_le_compat_r; [left; apply Rinv_0_lt_compat, SC_pos|apply floor_le; reflexivity]|].
  rewrite mult_IZR. apply Req_le. field. split; apply IZR_neq; discriminate.
Qed.
Lemma zr_q_up p d : IZR p / IZR (Zpos d) <= zr (cdiv (p * SC) (Zpos d)).
Proof.
  unfold zr. eapply Rle_trans; [|apply Rmult_le_compat_r; [left; apply Rinv_0_lt_compat, SC_pos|apply ceil_ge; reflexivity]].
  rewrite mult_IZR. apply Req_le. field. split; apply IZR_neq; discriminate.
Qed.
Lemma lit_sound q : satv (a_lit q) (flit q) (Fin (Q2R q)).
Proof.
  unfold a_lit. set (l := (Qnum q * SC / Z.pos (Qden q))%Z). set (h := cdiv (Qnum q * SC) (Z.pos (Qden q))).
  assert (B : zr l <= Q2R q <= zr h) by (split; [apply zr_q_dn|apply zr_q_up]).
  destruct (Pos.eqb_spec (Qden q) 1) as [D|]; cbn [andb]; [destruct (Z.leb_spec (Z.abs (Qnum q)) P53) as [HP|]|].
  - destruct q as [p d]. cbn [Qnum Qden] in *. subst d. exists (IZR p), (Q2R (p # 1)), 0%Z.
    assert (E : Q2R (p # 1) = IZR p) by (unfold Q2R; cbn; lra). split; [apply (val_int p HP)|]. split; [reflexivity|]. cbn [a_lo a_hi a_mag a_err a_per turn].
    split; [exact B|]. rewrite E, zr_0. split; [|replace (IZR p - IZR p - 0 * 0) with 0 by ring; rewrite Rabs_R0; lra].
    unfold l. rewrite Z.div_1_r, zr_abs, zr_int. lra.
  - apply finish0_sound with (w := Q2R q); [lia|apply approx_rnd; apply val_lit|exact B|]. rewrite Rminus_diag_eq by reflexivity. rewrite Rabs_R0, zr_0. lra.
  - apply finish0_sound with (w := Q2R q); [lia|apply approx_rnd; apply val_lit|exact B|]. rewrite Rminus_diag_eq by reflexivity. rewrite Rabs_R0, zr_0. lra.
Qed.

Lemma scale_sound k ke a x y c K p : sat a x y -> 0 <= zr k -> zr k <= K <= zr (k + 1) -> val c (B2R c) -> Rabs (B2R c - K) <= zr ke ->
  (forall j : Z, exists i : Z, IZR j * turn (a_per a) * K = IZR i * turn p) ->
  satv (a_scale k ke a p) (Bmult mode_NE x c) (xmul y (Fin K)).
Proof.
  intros (v & r & j & V & -> & B & M & E) K0 BK VC EC HT. cbn [xmul]. destruct (HT j) as (i & Ei).
  pose proof (Rabs_pos v) as Pv. pose proof (Rabs_pos (B2R c - K)) as Pc.
  apply finish_sound with (w := v * B2R c) (j := i); [lia|apply approx_rnd; now apply val_mul| | |].
  - eapply Rle_trans; [|apply s2_up]. rewrite s2_mul, Rabs_mult. apply Rmult_le_compat; auto using Rabs_pos.
    rewrite zr_add. replace (B2R c) with (K + (B2R c - K)) by ring. eapply Rle_trans; [apply Rabs_triang|]. rewrite (Rabs_pos_eq K) by lra. lra.
  - split.
    + eapply Rle_trans; [apply s2_dn|]. rewrite s2_min, !s2_mul. apply Rle_trans with (zr (a_lo a) * K); [|apply Rmult_le_compat_r; lra].
      destruct (Rle_dec 0 (zr (a_lo a))); [eapply Rle_trans; [apply Rmin_l|]; apply Rmult_le_compat_l; lra|eapply Rle_trans; [apply Rmin_r|]; nra].
    + eapply Rle_trans; [|apply s2_up]. rewrite s2_max, !s2_mul. apply Rle_trans with (zr (a_hi a) * K); [apply Rmult_le_compat_r; lra|].
      destruct (Rle_dec 0 (zr (a_hi a))); [eapply Rle_trans; [|apply Rmax_r]; apply Rmult_le_compat_l; lra|eapply Rle_trans; [|apply Rmax_l]; nra].
  - eapply Rle_trans; [|apply s2_up]. rewrite s2_add, !s2_mul.
    replace (v * B2R c - r * K - IZR i * turn p) with (v * (B2R c - K) + (v - r - IZR j * turn (a_per a)) * K) by (rewrite <- Ei; ring).
    eapply Rle_trans; [apply Rabs_triang|]. rewrite !Rabs_mult. apply Rplus_le_compat; apply Rmult_le_compat; auto using Rabs_pos.
    rewrite Rabs_pos_eq; lra.
Qed.
Lemma d2r_K : 0 <= zr d2r_lo /\ zr d2r_lo <= PI / 180 <= zr (d2r_lo + 1).
Proof. unfold zr. split; [|split]; unfold SC, d2r_lo; interval with (i_prec 300). Qed.
Lemma r2d_K : 0 <= zr r2d_lo /\ zr r2d_lo <= 180 / PI <= zr (r2d_lo + 1).
Proof. unfold zr. split; [|split]; unfold SC, r2d_lo; interval with (i_prec 300). Qed.
Lemma pi_K : zr pi_lo <= PI <= zr (pi_lo + 1).
Proof. unfold zr. split; unfold SC, pi_lo; interval with (i_prec 300). Qed.
Lemma d2r_c : val deg_to_rad (B2R deg_to_rad) /\ Rabs (B2R deg_to_rad - PI / 180) <= zr d2r_e.
Proof.
  assert (E : deg_to_rad = fl 5030569068109113 (-58)) by (apply B2SF_inj; vm_compute; reflexivity). rewrite E.
  destruct (val_fl 5030569068109113 (-58)) as [F V]; [reflexivity|lia|]. split; [now split|]. rewrite V. unfold zr, SC, d2r_e.
  change (bpow radix2 (-58)) with (/ IZR (2 ^ 58)). interval with (i_prec 300).
Qed.
Lemma r2d_c : val rad_to_deg (B2R rad_to_deg) /\ Rabs (B2R rad_to_deg - 180 / PI) <= zr r2d_e.
Proof.
  assert (E : rad_to_deg = fl 8063664102031864 (-47)) by (apply B2SF_inj; vm_compute; reflexivity). rewrite E.
  destruct (val_fl 8063664102031864 (-47)) as [F V]; [reflexivity|lia|]. split; [now split|]. rewrite V. unfold zr, SC, r2d_e.
  change (bpow radix2 (-47)) with (/ IZR (2 ^ 47)). interval with (i_prec 300).
Qed.
Lemma radians_sound a x y : sat a x y -> satv (a_radians a) (radians (n := N) x) (xradians y).
Proof.
  intros S. unfold a_radians. destruct d2r_K as [A B]. destruct d2r_c as [C D]. cbn [radians B64]. unfold xradians.
  destruct (a_per a) eqn:P; [| |exact I]; (apply scale_sound; auto); intros j; exists j; rewrite P; cbn [turn]; field.
Qed.
Lemma degrees_sound a x y : sat a x y -> satv (a_degrees a) (degrees (n := N) x) (xdegrees y).
Proof.
  intros S. unfold a_degrees. destruct r2d_K as [A B]. destruct r2d_c as [C D]. cbn [degrees B64]. unfold xdegrees.
  destruct (a_per a) eqn:P; [|exact I|]; (apply scale_sound; auto); intros j; exists j; rewrite P; cbn [turn]; field; apply PI_ne0.
Qed.
Lemma pi_sound : satv (npi (n := AI)) pi64 (Fin PI).
Proof.
  pose proof pi_K. exists (B2R pi64), PI, 0%Z. split; [split; [vm_compute; reflexivity|reflexivity]|]. split; [reflexivity|]. cbn [a_lo a_hi a_mag a_err a_per turn].
  split; [exact H|]. rewrite pi64_val. split; [rewrite zr_int; rewrite Rabs_pos_eq; lra|].
  unfold zr, SC, pi_e. rewrite Rmult_0_r, Rminus_0_r. interval with (i_prec 300).
Qed.

(* ---- the relations *)
Definition sat2 (a : abs_val) (p : f64 * Rx) : Prop := satv a (fst p) (snd p).
Lemma both_ok {A A'} (R : A * A' -> Prop) (r : res A) (r' : res A') : (exists q p, r = Ok q /\ r' = Ok p /\ R (q, p)) ->
  exists z, both r r' = Ok z /\ R z.
Proof. intros (q & p & -> & -> & H). now exists (q, p). Qed.
Ltac top := match goal with |- relres _ (Err _) _ => apply relres_Err | |- _ => exact I end.
Lemma div1_ok {K : Num} (a b z : T K) : div a b = Ok z -> div_or_inf a b = Ok z.
Proof. unfold div_or_inf. now intros ->. Qed.
Lemma both_eq {A A'} (r : res A) (r' : res A') q p : r = Ok q -> r' = Ok p -> both r r' = Ok (q, p).
Proof. now intros -> ->. Qed.
Definition ai_pair : NumRel AI (Pair N MathR).
Proof.
  refine {| rT := (sat2 : T AI -> T (Pair N MathR) -> Prop); rB := fun _ _ => True; r_scalar := False; r_recip := True |}.
  - intros q. apply lit_sound.
  - exact I.
  - intros [|a] [x y] [|b] [x' y'] H H'; try exact I. now apply add_sound.
  - intros [|a] [x y] [|b] [x' y'] H H'; try exact I. now apply sub_sound.
  - intros [|a] [x y] [|b] [x' y'] H H'; try exact I. now apply mul_sound.
  - intros [|a] [x y] H; try exact I. now apply neg_sound.
  - intros [|a] [x y] [|b] [x' y'] H H' z Hz; try discriminate Hz. apply both_ok. apply (div_sound a b x y x' y' z H H' Hz).
  - intros [|b] [x' y'] _ H'; unfold div_or_inf.
    + intros z Hz; discriminate Hz.
    + assert (S : sat2 (lit (n := AI) 1) (lit (n := Pair N MathR) 1)) by apply lit_sound.
      destruct (lit (n := AI) 1) as [|a] eqn:EL; [vm_compute in EL; discriminate|]. cbn [lit Pair] in S |- *. cbn [div AI res2].
      intros z Hz. assert (Hz' : a_div a b = Ok z).
      { unfold a_div in *. destruct (a_quot a b) as [[[l h] e]|]; [exact Hz|]. destruct (a_quot (a_neg a) (a_neg b)) as [[[l h] e]|]; [exact Hz|discriminate Hz]. }
      destruct (div_sound a b _ _ x' y' z S H' Hz') as (q & p & Q & P & K). exists (q, p). split; [|exact K].
      apply div1_ok. exact (both_eq _ _ _ _ Q P).
  - intros [|a]; [discriminate|]. cbn [nsin AI res1]. unfold a_sin. destruct (a_per a); discriminate.
  - intros [|a] [x y] [|b] [x' y'] H H' z Hz; try discriminate Hz. apply both_ok. apply (fmod_sound a b x y x' y' z H H' Hz).
  - intros [|a] [x y] n H z Hz; try discriminate Hz. apply both_ok. apply (powi_sound a x y z n H Hz).
  - intros. apply relres_Err.
  - intros [|a] [x y] H z Hz; try discriminate Hz. apply both_ok. apply (sin_sound a x y z H Hz).
  - intros [|a] [x y] H z Hz; try discriminate Hz. apply both_ok. apply (cos_sound a x y z H Hz).
  - intros [|a] [x y] H z Hz; try discriminate Hz. apply both_ok. apply (tan_sound a x y z H Hz).
  - intros [|a] [x y] H z Hz; try discriminate Hz. apply both_ok. apply (asin_sound a x y z H Hz).
  - intros. apply relres_Err.
  - intros [|a] [x y] H z Hz; try discriminate Hz. apply both_ok. apply (atan_sound a x y z H Hz).
  - intros [|a] [x y] [|b] [x' y'] H H' z Hz; try discriminate Hz. apply both_ok. apply (atan2_sound a b x y x' y' z H H' Hz).
  - intros. apply relres_Err.
  - intros [|a] [x y] H; try exact I. now apply radians_sound.
  - intros [|a] [x y] H; try exact I. now apply degrees_sound.
  - apply pi_sound.
  - exact I.
  - intros. exact I.
  - intros. exact I.
  - intros. exact I.
  - intros. contradiction.
  - intros. exact I.
  - intros. contradiction.
  - intros. contradiction.
Defined.
End L.

(* the two components of a pair *)
Lemma both_fst {A A'} (r : res A) (r' : res A') : relres (fun p x => fst p = x) (both r r') r.
Proof. intros p H. destruct r, r'; try discriminate. injection H as <-. eauto. Qed.
Lemma both_snd {A A'} (r : res A) (r' : res A') : relres (fun p x => snd p = x) (both r r') r'.
Proof. intros p H. destruct r, r'; try discriminate. injection H as <-. eauto. Qed.
Lemma both_not_zde {A A'} (r : res A) (r' : res A') : both r r' <> Err ZeroDivisionError.
Proof. now destruct r, r'. Qed.
Definition pair_fst (N M : Num) : NumRel (Pair N M) N.
Proof.
  refine {| rT := (fun p x => fst p = x) : T (Pair N M) -> T N -> Prop; rB := (fun p x => fst p = x) : B (Pair N M) -> B N -> Prop; r_scalar := False; r_recip := True |};
  intros; try reflexivity; try contradiction; try (cbn [add sub mul neg radians degrees lt le of_bool where_ Pair fst snd]; congruence);
  try (subst; apply both_fst).
  - subst b'. unfold div_or_inf. intros z Hz. cbn [div lit Pair fst snd] in *. destruct (both _ _) as [p|e] eqn:E.
    + injection Hz as <-. destruct (both_fst _ _ p E) as (x & -> & K). eauto.
    + exfalso. destruct (div _ _) in E; [|injection E as <-; discriminate]. destruct (div _ _) in E; [discriminate|injection E as <-; discriminate].
  - apply both_not_zde.
Defined.
Definition pair_snd (N M : Num) : NumRel (Pair N M) M.
Proof.
  refine {| rT := (fun p x => snd p = x) : T (Pair N M) -> T M -> Prop; rB := (fun p x => snd p = x) : B (Pair N M) -> B M -> Prop; r_scalar := False; r_recip := True |};
  intros; try reflexivity; try contradiction; try (cbn [add sub mul neg radians degrees lt le of_bool where_ Pair fst snd]; congruence);
  try (subst; apply both_snd).
  - subst b'. unfold div_or_inf. intros z Hz. cbn [div lit Pair fst snd] in *. destruct (both _ _) as [p|e] eqn:E.
    + injection Hz as <-. destruct (both_snd _ _ p E) as (x & -> & K). eauto.
    + exfalso. destruct (div _ _) in E; [|injection E as <-; discriminate]. destruct (div _ _) in E; [discriminate|injection E as <-; discriminate].
  - apply both_not_zde.
Defined.

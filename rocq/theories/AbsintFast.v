(* The abstract arithmetic of Absint.v again, with shifts for the divisions by powers of two and with
   shared subterms.  It is the same arithmetic ([AI_fast]); runs of it are cheaper to check. *)
From Coq Require Import FunctionalExtensionality Lia.
From Verif Require Import Py Num Absint.
Local Open Scope Z_scope.

Definition fdiv (x : Z) : Z := Z.shiftr x 160.
Definition fcdiv (x : Z) : Z := - Z.shiftr (- x) 160.
Lemma fdiv_eq x : fdiv x = x / SC. Proof. unfold fdiv. now rewrite Z.shiftr_div_pow2. Qed.
Lemma fcdiv_eq x : fcdiv x = cdiv x SC. Proof. unfold fcdiv, cdiv. now rewrite Z.shiftr_div_pow2. Qed.
Definition fulp (m : Z) : Z := Z.shiftr m 53 + 2.
Lemma fulp_eq m : fulp m = ulp_of m. Proof. unfold fulp, ulp_of. now rewrite Z.shiftr_div_pow2. Qed.
Definition fscale (x : Z) : Z := Z.shiftl x 160.
Lemma fscale_eq x : fscale x = x * SC. Proof. unfold fscale. now rewrite Z.shiftl_mul_pow2. Qed.

Definition ffinish (k lo hi m e : Z) (p : period) : abs_val :=
  if m <=? BIG then let u := k * fulp m in Ab (mkab lo hi (m + u) (e + u) p) else Top.
Lemma ffinish_eq k lo hi m e p : ffinish k lo hi m e p = finish k lo hi m e p.
Proof. unfold ffinish, finish. now rewrite fulp_eq. Qed.
Definition ffinish0 (k lo hi e : Z) : abs_val := let m := Z.max (Z.abs lo) (Z.abs hi) + e in ffinish k lo hi m e NoPer.
Lemma ffinish0_eq k lo hi e : ffinish0 k lo hi e = finish0 k lo hi e.
Proof. unfold ffinish0, finish0. now rewrite ffinish_eq. Qed.

Definition fadd (a b : ab) : abs_val :=
  let l := a_lo a + a_lo b in let h := a_hi a + a_hi b in let e := a_err a + a_err b in
  match per_add (a_per a) (a_per b) with
  | Some NoPer => ffinish0 1 l h e
  | Some p => let m := a_mag a + a_mag b in ffinish 1 l h m e p
  | None => Top
  end.
Lemma fadd_eq a b : fadd a b = a_add a b.
Proof. unfold fadd, a_add. destruct (per_add _ _) as [[]|]; rewrite ?ffinish_eq, ?ffinish0_eq; reflexivity. Qed.
Definition fmul (a b : ab) : abs_val :=
  match a_per a, a_per b with
  | NoPer, NoPer =>
      let p1 := a_lo a * a_lo b in let p2 := a_lo a * a_hi b in
      let p3 := a_hi a * a_lo b in let p4 := a_hi a * a_hi b in
      let l := fdiv (min4 p1 p2 p3 p4) in let h := fcdiv (max4 p1 p2 p3 p4) in
      let e := fcdiv (zmax a * a_err b + zmax b * a_err a + a_err a * a_err b) in
      ffinish0 1 l h e
  | _, _ => Top
  end.
Lemma fmul_eq a b : fmul a b = a_mul a b.
Proof. unfold fmul, a_mul. destruct (a_per a), (a_per b); try reflexivity. now rewrite ffinish0_eq, fdiv_eq, !fcdiv_eq. Qed.

Definition fq_lo (lo ylo yhi : Z) : Z := if 0 <=? lo then fscale lo / yhi else fscale lo / ylo.
Lemma fq_lo_eq lo ylo yhi : fq_lo lo ylo yhi = q_lo lo ylo yhi. Proof. unfold fq_lo, q_lo. now rewrite fscale_eq. Qed.
Definition fquot (a b : ab) : option (Z * Z * Z) :=
  match a_per a, a_per b with
  | NoPer, NoPer =>
      let ymin := a_lo b - a_err b in
      if 0 <? ymin then
        let l := fq_lo (a_lo a) (a_lo b) (a_hi b) in
        let h := - fq_lo (- a_hi a) (a_lo b) (a_hi b) in
        Some (l, h, cdiv (fscale (a_err a) + Z.max (Z.abs l) (Z.abs h) * a_err b) ymin)
      else None
  | _, _ => None
  end.
Lemma fquot_eq a b : fquot a b = a_quot a b.
Proof. unfold fquot, a_quot. destruct (a_per a), (a_per b); try reflexivity. cbv zeta. now rewrite !fq_lo_eq, fscale_eq. Qed.
Definition fdivide (a b : ab) : res abs_val :=
  match fquot a b with
  | Some (l, h, e) => Ok (ffinish0 1 l h e)
  | None =>
      match fquot (a_neg a) (a_neg b) with
      | Some (l, h, e) => Ok (ffinish0 1 l h e)
      | None => Err Unmodelled
      end
  end.
Lemma fdivide_eq a b : fdivide a b = a_div a b.
Proof. unfold fdivide, a_div. rewrite !fquot_eq. destruct (a_quot a b) as [[[]]|]; [now rewrite ffinish0_eq|]. destruct (a_quot _ _) as [[[]]|]; [now rewrite ffinish0_eq|reflexivity]. Qed.

Fixpoint fpw (m : Z) (n : nat) : Z := match n with O => SC | S n => fcdiv (m * fpw m n) end.
Lemma fpw_eq m n : fpw m n = pw m n. Proof. induction n as [|n IH]; [reflexivity|]. cbn [fpw pw]. now rewrite IH, fcdiv_eq. Qed.
Definition fpowi (a : ab) (n : nat) : res abs_val :=
  match a_per a, n with
  | NoPer, S n' =>
      let m := zmax a + a_err a in let q := fpw m n' in let p := fcdiv (m * q) in let np := - p in
      if (n' <=? 19)%nat && (p <=? BIG)
      then let e := fcdiv (Z.of_nat n * q * a_err a) in Ok (ffinish0 2 np p e) else Err Unmodelled
  | _, _ => Err Unmodelled
  end.
Lemma fpowi_eq a n : fpowi a n = a_powi a n.
Proof. unfold fpowi, a_powi. destruct (a_per a), n; try reflexivity. cbv zeta. cbn [pw]. now rewrite !ffinish0_eq, !fcdiv_eq, !fpw_eq. Qed.

Definition fsin (a : ab) : res abs_val :=
  match a_per a with
  | Deg => Err Unmodelled
  | _ => let m := Z.min SC (zmax a) in Ok (ffinish 2 (- m) m SC (a_err a) NoPer)
  end.
Lemma fsin_eq a : fsin a = a_sin a. Proof. unfold fsin, a_sin. destruct (a_per a); cbv zeta; now rewrite ?ffinish_eq. Qed.
Definition fcos (a : ab) : res abs_val :=
  match a_per a with
  | Deg => Err Unmodelled
  | _ => let l := Z.max (- SC) (SC + Z.shiftr (- (zmax a * zmax a)) 161) in Ok (ffinish 2 l SC SC (a_err a) NoPer)
  end.
Lemma fcos_eq a : fcos a = a_cos a.
Proof.
  assert (E : SC + Z.shiftr (- (zmax a * zmax a)) 161 = SC - cdiv (zmax a * zmax a) (2 * SC)).
  { unfold cdiv. rewrite Z.shiftr_div_pow2 by lia. change (2 ^ 161) with (2 * SC). lia. }
  unfold fcos, a_cos. rewrite E. destruct (a_per a); cbv zeta; now rewrite ?ffinish_eq.
Qed.
Definition fscal (k ke : Z) (a : ab) (p : period) : abs_val :=
  let l := fdiv (Z.min (a_lo a * k) (a_lo a * (k + 1))) in let h := fcdiv (Z.max (a_hi a * k) (a_hi a * (k + 1))) in
  let m := fcdiv (a_mag a * (k + 1 + ke)) in let e := fcdiv (a_mag a * ke + a_err a * (k + 1)) in ffinish 1 l h m e p.
Lemma fscal_eq k ke a p : fscal k ke a p = a_scale k ke a p.
Proof. unfold fscal, a_scale. now rewrite ffinish_eq, fdiv_eq, !fcdiv_eq. Qed.
Definition fradians (a : ab) : abs_val :=
  match a_per a with NoPer => fscal d2r_lo d2r_e a NoPer | Deg => fscal d2r_lo d2r_e a Rad | Rad => Top end.
Lemma fradians_eq a : fradians a = a_radians a. Proof. unfold fradians, a_radians. destruct (a_per a); now rewrite ?fscal_eq. Qed.
Definition fdegrees (a : ab) : abs_val :=
  match a_per a with NoPer => fscal r2d_lo r2d_e a NoPer | Rad => fscal r2d_lo r2d_e a Deg | Deg => Top end.
Lemma fdegrees_eq a : fdegrees a = a_degrees a. Proof. unfold fdegrees, a_degrees. destruct (a_per a); now rewrite ?fscal_eq. Qed.

Definition flit (q : Q) : abs_val :=
  if Pos.eqb (Qden q) 1 then
    let l := fscale (Qnum q) in if Z.abs (Qnum q) <=? P53 then Ab (mkab l l (Z.abs l) 0 NoPer) else ffinish0 1 l l 0
  else let '(l, r) := Z.div_eucl (fscale (Qnum q)) (Zpos (Qden q)) in
       let h := if r =? 0 then l else l + 1 in ffinish0 1 l h 0.
Lemma cdiv_eucl n d : 0 < d -> cdiv n d = (if n mod d =? 0 then n / d else n / d + 1).
Proof.
  intros H. unfold cdiv. destruct (Z.eqb_spec (n mod d) 0) as [E|E].
  - rewrite Z.div_opp_l_z by lia. lia.
  - rewrite Z.div_opp_l_nz by lia. lia.
Qed.
Lemma flit_eq q : flit q = a_lit q.
Proof.
  unfold flit, a_lit. rewrite cdiv_eucl by reflexivity. rewrite fscale_eq. unfold Z.div, Z.modulo.
  destruct (Pos.eqb_spec (Qden q) 1) as [E|E]; cbn [andb].
  - rewrite E. pose proof (Z.div_1_r (Qnum q * SC)) as D. pose proof (Z.mod_1_r (Qnum q * SC)) as M. unfold Z.div in D. unfold Z.modulo in M.
    destruct (Z.div_eucl (Qnum q * SC) 1) as [l r]. subst. cbv zeta. change (0 =? 0) with true. cbv iota. now rewrite ffinish0_eq.
  - destruct (Z.div_eucl _ _) as [l r]. cbv zeta. now rewrite ffinish0_eq.
Qed.

Definition mkAI (lit : Q -> abs_val) (add mul : ab -> ab -> abs_val) (div : ab -> ab -> res abs_val) (pow : ab -> nat -> res abs_val)
    (sin cos : ab -> res abs_val) (rad deg : ab -> abs_val) : Num := {|
  T := abs_val;
  B := unit;
  lit := lit;
  inf := Top;
  add := app2 add; sub := app2 (fun a b => add a (a_neg b)); mul := app2 mul; neg := app1 (fun a => Ab (a_neg a));
  div := res2 div; fmod := res2 a_fmod;
  powi x n := res1 (fun a => pow a n) x;
  powf _ _ := Err Unmodelled;
  nsin := res1 sin; ncos := res1 cos; ntan := res1 a_tan; nasin := res1 a_asin;
  nacos _ := Err Unmodelled; natan := res1 a_atan; natan2 := res2 a_atan2; nexp _ := Err Unmodelled;
  radians := app1 rad; degrees := app1 deg;
  npi := Ab (mkab pi_lo (pi_lo + 1) (4 * SC) pi_e NoPer);
  ne := Top;
  lt _ _ := tt; le _ _ := tt;
  of_bool _ := Top; truth _ := Err Unmodelled; where_ _ _ _ := Top;
  round_int _ := Err Unmodelled; timedelta_hours _ := Err Unmodelled
|}.
Definition AIf : Num := mkAI flit fadd fmul fdivide fpowi fsin fcos fradians fdegrees.
(* a function written over any arithmetic does the same on both *)
Lemma AI_fast (F : forall N : Num, list (T N) -> res (list (T N))) : F AI = F AIf.
Proof.
  change AI with (mkAI a_lit a_add a_mul a_div a_powi a_sin a_cos a_radians a_degrees). unfold AIf.
  assert (E0 : flit = a_lit) by (extensionality q; apply flit_eq).
  assert (E1 : fadd = a_add) by (extensionality a; extensionality b; apply fadd_eq).
  assert (E2 : fmul = a_mul) by (extensionality a; extensionality b; apply fmul_eq).
  assert (E3 : fdivide = a_div) by (extensionality a; extensionality b; apply fdivide_eq).
  assert (E4 : fpowi = a_powi) by (extensionality a; extensionality n; apply fpowi_eq).
  assert (E5 : fsin = a_sin) by (extensionality a; apply fsin_eq).
  assert (E6 : fcos = a_cos) by (extensionality a; apply fcos_eq).
  assert (E7 : fradians = a_radians) by (extensionality a; apply fradians_eq).
  assert (E8 : fdegrees = a_degrees) by (extensionality a; apply fdegrees_eq).
  now rewrite E0, E1, E2, E3, E4, E5, E6, E7, E8.
Qed.

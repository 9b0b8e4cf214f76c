(* util/get_delta_t from the file's text to the table Python reads back. *)
From Coq Require Import String Ascii ZArith List Reals Qreals Lra Lia Psatz.
From Flocq Require Import Core IEEE754.BinarySingleNaN Relative.
From Verif Require Import Py Num RInst B64 SpecB64 B64Lemmas Script SpecScript ScriptProofs SolarTime ScriptText SpecPyText ScriptTextProofs.
Import ListNotations.
Local Open Scope string_scope.
Local Open Scope char_scope.
Local Open Scope list_scope.
Local Open Scope Z_scope.

(* ---------------------------------------------------------------- one reading only *)
Fixpoint p_expr (fuel : nat) (ts : list tok) : option (value * list tok) :=
  match fuel with
  | O => None
  | S fuel =>
      match ts with
      | TInt z :: r => Some (VInt z, r)
      | TFloat q :: r => Some (VFloat (flit q), r)
      | TMinus :: TInt z :: r => Some (VInt (- z), r)
      | TMinus :: TFloat q :: r => Some (VFloat (Bopp (flit q)), r)
      | TOpen :: r => match p_elems fuel r with Some (vs, TClose :: r') => Some (VList vs, r') | _ => None end
      | _ => None
      end
  end
with p_elems (fuel : nat) (ts : list tok) : option (list value * list tok) :=
  match fuel with
  | O => None
  | S fuel =>
      match ts with
      | TClose :: _ => Some ([], ts)
      | _ => match p_expr fuel ts with
             | Some (v, TComma :: r) => match p_elems fuel r with Some (vs, r') => Some (v :: vs, r') | None => None end
             | Some (v, r) => Some ([v], r)
             | None => None
             end
      end
  end.
Fixpoint p_assign (fuel : nat) (ts : list tok) : option (list (text * value)) :=
  match fuel with
  | O => None
  | S fuel =>
      match ts with
      | [] => Some []
      | TName x :: TEq :: r =>
          match p_expr fuel r with
          | Some (v, TEnd :: r') => option_map (cons (x, v)) (p_assign fuel r')
          | _ => None
          end
      | _ => None
      end
  end.
Scheme expr_ind2 := Minimality for expr Sort Prop with elements_ind2 := Minimality for elements Sort Prop.
Combined Scheme expr_mut from expr_ind2, elements_ind2.

Lemma p_complete :
  (forall ts v, expr ts v -> ts <> [] /\ (forall c r, ts = c :: r -> c <> TClose) /\ forall fuel rest, (List.length ts < fuel)%nat -> p_expr fuel (ts ++ rest) = Some (v, rest)) /\
  (forall ts vs, elements ts vs -> forall fuel rest, (List.length ts + 1 < fuel)%nat -> p_elems fuel (ts ++ TClose :: rest) = Some (vs, TClose :: rest)).
Proof.
  apply expr_mut.
  - intros z. split; [discriminate|]. split; [now intros c r [= <- _]|]. intros [|f] rest H; [easy|reflexivity].
  - intros z. split; [discriminate|]. split; [now intros c r [= <- _]|]. intros [|f] rest H; [easy|reflexivity].
  - intros z. split; [discriminate|]. split; [now intros c r [= <- _]|]. intros [|f] rest H; [easy|reflexivity].
  - intros z. split; [discriminate|]. split; [now intros c r [= <- _]|]. intros [|f] rest H; [easy|reflexivity].
  - intros ts vs _ IH. split; [discriminate|]. split; [now intros c r [= <- _]|]. intros [|f] rest H; [easy|].
    cbn [List.length] in H. rewrite app_length in H. cbn [List.length] in H. cbn [app p_expr]. rewrite <- app_assoc. cbn [app]. rewrite IH by lia. reflexivity.
  - intros [|f] rest H; [easy|reflexivity].
  - intros ts v _ (NE & NC & IH) [|f] rest H; [easy|]. cbn [p_elems]. destruct ts as [|c ts]; [easy|].
    assert (E : p_expr f ((c :: ts) ++ TClose :: rest) = Some (v, TClose :: rest)) by (apply IH; lia). cbn [app] in *. rewrite E.
    destruct c; try reflexivity. now destruct (NC _ _ eq_refl).
  - intros ts v ts' vs _ (NE & NC & IH) _ IH' [|f] rest H; [easy|]. rewrite app_length in H. cbn [List.length] in H.
    cbn [p_elems]. rewrite <- app_assoc. cbn [app]. destruct ts as [|c ts]; [easy|]. 
    assert (E : p_expr f ((c :: ts) ++ TComma :: ts' ++ TClose :: rest) = Some (v, TComma :: ts' ++ TClose :: rest)) by (apply IH; lia). cbn [app] in *. rewrite E.
    rewrite IH' by lia. destruct c; try reflexivity. now destruct (NC _ _ eq_refl).
Qed.
Lemma p_assign_complete ts env : assignments ts env -> forall fuel, (List.length ts < fuel)%nat -> p_assign fuel ts = Some env.
Proof.
  induction 1 as [|x ts v ts' env E A IH]; intros [|f] H; try easy. cbn [List.length] in H. rewrite app_length in H. cbn [List.length] in H.
  cbn [p_assign]. destruct (proj1 p_complete _ _ E) as (_ & _ & C). rewrite C by lia. rewrite IH by lia. reflexivity.
Qed.
Lemma module_unique l env env' : module_binds l env -> module_binds l env' -> env = env'.
Proof.
  intros (ks & T & A) (ks' & T' & A'). rewrite T in T'. injection T' as <-.
  pose proof (p_assign_complete _ _ A (S (List.length ks)) ltac:(lia)) as E. rewrite (p_assign_complete _ _ A') in E by lia. congruence.
Qed.

(* ---------------------------------------------------------------- the round trip *)
Lemma reread_signed w x : signed w x -> is_finite x = true /\ reread x = x.
Proof.
  assert (F : forall w x, fixed w x -> is_finite x = true /\ reread x = x /\ is_finite (Bopp x) = true /\ reread (Bopp x) = Bopp x).
  { intros v y [v' m N B|a b m N L B].
    - destruct (natural_ok _ _ N) as (_ & _ & _ & _ & P). destruct (reread_fixed m 1 P) as (A & C & D); [exists 0; lia|lia|].
      unfold inject_Z. rewrite is_finite_Bopp. auto.
    - destruct (natural_ok _ _ N) as (_ & _ & _ & _ & P). assert (ZP : 0 < 10 ^ zlength b) by (apply Z.pow_pos_nonneg; [lia|unfold zlength; lia]).
      destruct (reread_fixed m (Z.to_pos (10 ^ zlength b)) P) as (A & C & D).
      + exists (zlength b). unfold zlength in *. split; [lia|]. now rewrite Z2Pos.id.
      + now rewrite Z2Pos.id.
      + rewrite is_finite_Bopp. auto. }
  intros [v y H|v y H]; destruct (F _ _ H) as (A & B & C & D); auto.
Qed.
Lemma data_file_values s es : data_file s es -> Forall (fun e => is_finite (e_dt e) = true /\ reread (e_dt e) = e_dt e) es.
Proof.
  assert (L : forall l es, data_line l es -> Forall (fun e : entry f64 => is_finite (e_dt e) = true /\ reread (e_dt e) = e_dt e) es).
  { intros l e []; constructor; [|constructor]. cbn. eapply reread_signed. eassumption. }
  induction 1 as [l es D|l es s es' D F IH]; [eauto|]. apply Forall_app. eauto.
Qed.
Lemma forall_concat {A} (P : A -> Prop) rows : Forall P (List.concat rows) -> Forall (Forall P) rows.
Proof. induction rows as [|r rows IH]; intros H; constructor; cbn in H; apply Forall_app in H as [H1 H2]; auto. Qed.
Lemma map_same {A} (f : A -> A) l : Forall (fun x => f x = x) l -> map f l = l.
Proof. induction 1 as [|x l H _ IH]; [reflexivity|]. cbn. now rewrite H, IH. Qed.
Lemma script_text_eq data es : parse_data data = (es, None) -> script_text data = (texts (fst (script es)), snd (script es)).
Proof. intros E. unfold script_text. rewrite E. fold (@run f64). unfold script, run. destruct (run_on None es None None). reflexivity. Qed.

Lemma text_round_trip data es : data_file data es -> monthly es -> exists o base_year base_month rows,
  script_text data = (o, None) /\ (forall env, module_binds o env <-> env = table_env base_year base_month rows) /\
  List.concat rows = map e_dt es /\ forall e, In e es -> delta_t_lookup base_year base_month rows (e_year e) (e_month e) = Ok (e_dt e).
Proof.
  intros F M. pose proof (data_file_values _ _ F) as FV. destruct (script_complete es M) as (o & y & m & rows & E & T & C & L).
  assert (FR : Forall (Forall (fun x : f64 => is_finite x = true /\ reread x = x)) rows).
  { apply forall_concat. rewrite C. apply Forall_map. exact FV. }
  exists (texts o), y, m, rows. split; [|split; [|split; [exact C|exact L]]].
  - rewrite (script_text_eq _ _ (data_file_ok _ _ F)), E. reflexivity.
  - assert (B : module_binds (texts o) (table_env y m rows)).
    { replace rows with (map (map reread) rows) at 1.
      - apply table_module; [exact T|]. eapply Forall_impl; [|exact FR]. intros r H. eapply Forall_impl; [|exact H]. cbn. tauto.
      - apply map_same. eapply Forall_impl; [|exact FR]. intros r H. apply map_same. eapply Forall_impl; [|exact H]. cbn. tauto. }
    intros env. split; [intros H; exact (module_unique _ _ _ H B)|intros ->; exact B].
Qed.
Lemma text_rejects data es : data_file data es -> es <> [] -> months_valid es -> ~ monthly es -> snd (script_text data) = Some AssertionError.
Proof. intros F N V M. rewrite (script_text_eq _ _ (data_file_ok _ _ F)). now apply script_rejects. Qed.

(* ---------------------------------------------------------------- a line without four words *)
Lemma run_on_fin {V} e (es : list (entry V)) : forall y m, snd (run_on None es y m) = None -> snd (run_on (Some e) es y m) = Some e.
Proof.
  induction es as [|x es IH]; intros y m; [reflexivity|]. cbn [run_on]. cbv zeta. unfold assert_, emit.
  repeat match goal with |- context [if ?b then _ else _] => destruct b | |- context [match ?o with Some _ => _ | None => _ end] => is_var o; destruct o end;
    cbn; try congruence; try apply IH.
Qed.
Lemma parse_lines_app ls l ls' e : forall es, parse_lines ls = (es, None) -> parse_line l = Err e -> parse_lines (ls ++ l :: ls') = (es, Some e).
Proof.
  induction ls as [|a ls IH]; intros es H E.
  - injection H as <-. cbn. now rewrite E.
  - cbn in *. destruct (parse_line a) as [[x|]|]; [|auto|discriminate]. destruct (parse_lines ls) as [es' f]. injection H as <- ->.
    now rewrite (IH es' eq_refl E).
Qed.
Lemma split_nl_both s t : split_nl (s ++ nl :: t) = split_nl s ++ split_nl t.
Proof.
  induction s as [|c s IH]; [reflexivity|]. cbn [app split_nl]. rewrite IH. destruct (Ascii.eqb c nl); [reflexivity|].
  destruct (split_nl s) as [|l ls] eqn:E; [|reflexivity]. destruct s; cbn in E; [discriminate|]. destruct (Ascii.eqb a nl); [discriminate|]. destruct (split_nl s); discriminate.
Qed.
Lemma bad_line_stops data es l rest e : data_file data es -> es = [] \/ monthly es -> parse_line l = Err e -> forallb (fun c => negb (Ascii.eqb c nl)) l = true ->
  rest = [] \/ (exists r, rest = nl :: r) -> snd (script_text (data ++ nl :: l ++ rest)) = Some e.
Proof.
  intros F M E N R. unfold script_text, parse_data. pose proof (data_file_ok _ _ F) as P. unfold parse_data in P.
  assert (S : exists ls', split_nl (data ++ nl :: l ++ rest) = split_nl data ++ l :: ls').
  { rewrite split_nl_both. destruct R as [->|(r & ->)].
    - exists []. rewrite app_nil_r, (split_nl_none l) by exact N. reflexivity.
    - exists (split_nl r). rewrite (split_nl_app l) by exact N. reflexivity. }
  destruct S as (ls' & S). rewrite S, (parse_lines_app _ _ _ e es P E).
  assert (H : snd (run_on (Some e) es None None) = Some e).
  { apply run_on_fin. destruct M as [->|M]; [reflexivity|]. destruct (script_complete es M) as (o & y & m & rows & EE & _). unfold script, run in EE. now rewrite EE. }
  destruct (run_on (Some e) es None None). exact H.
Qed.

(* a word: characters that are not white space *)
Lemma span_word_all w : solid w -> span_word w = (w, []).
Proof. induction w as [|c w IH]; intros S; [reflexivity|]. cbn in S. apply andb_prop in S as [S1 S2]. apply negb_true_iff in S1. cbn. now rewrite S1, IH. Qed.
Lemma word_solid w : word w -> solid w /\ w <> [] /\ forallb (fun c => negb (Ascii.eqb c nl)) w = true.
Proof.
  intros [NE F]. assert (S : solid w). { unfold solid. apply forallb_forall. intros c Hc. rewrite Forall_forall in F. specialize (F c Hc). unfold is_space.
    apply negb_true_iff. rewrite orb_false_iff, !andb_false_iff, !Z.leb_gt. cbn [In] in F. lia. }
  split; [exact S|]. split; [exact NE|]. now apply solid_nl.
Qed.
Lemma short_line_err l : short_line l -> parse_line l = Err ValueError /\ forallb (fun c => negb (Ascii.eqb c nl)) l = true.
Proof.
  assert (Z1 : forall w r, w <> [] -> (zlength (w ++ r) =? 0) = false) by (intros w r H; apply Z.eqb_neq; unfold zlength; destruct w; [easy|cbn [app List.length]; lia]).
  intros [s0 s1 w1 B0 B1 W1|s0 s1 s2 w1 w2 B0 B1 B2 N1 W1 W2|s0 s1 s2 s3 w1 w2 w3 B0 B1 B2 B3 N1 N2 W1 W2 W3];
    repeat match goal with H : blank _ |- _ => apply blank_ok in H as [? ?] | H : word _ |- _ => apply word_solid in H as (? & ? & ?) end; split;
    try (rewrite !forallb_app; repeat match goal with H : forallb (fun c => negb (Ascii.eqb c nl)) _ = true |- _ => rewrite H end; reflexivity).
  - unfold parse_line. assert (E : strip (s0 ++ w1 ++ s1) = w1).
    { unfold strip. rewrite lstrip_space, lstrip_solid by assumption. rewrite rev_app_distr, lstrip_space by (now rewrite forallb_rev). rewrite <- (app_nil_r (rev w1)), lstrip_solid.
      - now rewrite app_nil_r, rev_involutive.
      - unfold solid. now rewrite forallb_rev.
      - intros K. apply (f_equal (@rev ascii)) in K. rewrite rev_involutive in K. easy. }
    rewrite E. rewrite <- (app_nil_r w1) at 1. rewrite Z1 by assumption. cbn [re_split]. rewrite span_word_all by assumption. reflexivity.
  - unfold parse_line. rewrite (strip_line s0 w1 s1 w2 s2) by assumption. rewrite Z1 by assumption. rewrite re_split_step by assumption.
    rewrite <- (app_nil_r w2), lstrip_solid, app_nil_r by assumption. cbn [re_split]. rewrite span_word_all by assumption. reflexivity.
  - unfold parse_line. replace (s0 ++ w1 ++ s1 ++ w2 ++ s2 ++ w3 ++ s3) with (s0 ++ w1 ++ (s1 ++ w2 ++ s2) ++ w3 ++ s3) by (now rewrite <- !app_assoc).
    rewrite strip_line by assumption. rewrite Z1 by assumption. rewrite <- !app_assoc. rewrite re_split_step by assumption. rewrite lstrip_solid by assumption.
    rewrite re_split_step by assumption. rewrite <- (app_nil_r w3), lstrip_solid, app_nil_r by assumption. cbn [re_split]. rewrite span_word_all by assumption. reflexivity.
Qed.
Lemma text_short_line data es l rest : data_file data es -> es = [] \/ monthly es -> short_line l -> rest = [] \/ (exists r, rest = nl :: r) ->
  snd (script_text (data ++ nl :: l ++ rest)) = Some ValueError.
Proof. intros F M S R. destruct (short_line_err l S) as [E N]. now apply (bad_line_stops data es). Qed.

(* ---------------------------------------------------------------- rounding to four decimals *)
Lemma half_even_err a b : 0 < b -> Z.abs (2 * a - 2 * div_half_even a b * b) <= b.
Proof.
  intros B. unfold div_half_even. pose proof (Z.div_mod a b ltac:(lia)) as D. pose proof (Z.mod_pos_bound a b B) as M. set (q := a / b) in *. set (r := a mod b) in *. cbv zeta.
  destruct (Z.compare_spec (2 * r) b) as [E|E|E]; [destruct (Z.even q)| |]; nia.
Qed.
Lemma ten_thousandths_err m e : (Rabs (IZR (ten_thousandths m e) / 10000 - IZR (Zpos m) * bpow radix2 e) <= 5e-5)%R.
Proof.
  unfold ten_thousandths. destruct (Z.leb_spec 0 e) as [E|E].
  - replace (bpow radix2 e) with (IZR (2 ^ e)) by (apply (IZR_Zpower radix2); exact E). rewrite !mult_IZR.
    replace (IZR (Zpos m) * IZR (2 ^ e) * 10000 / 10000 - IZR (Zpos m) * IZR (2 ^ e))%R with 0%R by field. rewrite Rabs_R0. lra.
  - set (b := 2 ^ (- e)). assert (B : 0 < b) by (apply Z.pow_pos_nonneg; lia). pose proof (half_even_err (Zpos m * 10000) b B) as H. assert (BR : (0 < IZR b)%R) by now apply IZR_lt.
    assert (EB : bpow radix2 e = (/ IZR b)%R). { unfold b. rewrite <- (Z.opp_involutive e) at 1. rewrite bpow_opp. f_equal. symmetry. apply (IZR_Zpower radix2). lia. }
    rewrite EB. set (n := div_half_even _ _) in *. apply IZR_le in H. rewrite abs_IZR, minus_IZR, !mult_IZR in H.
    replace (IZR n / 10000 - IZR (Zpos m) * / IZR b)%R with (- (2 * (IZR (Zpos m) * 10000) - 2 * IZR n * IZR b) * / (20000 * IZR b))%R by (field; lra).
    rewrite Rabs_mult, Rabs_Ropp. rewrite (Rabs_pos_eq (/ _)) by (apply Rlt_le, Rinv_0_lt_compat; lra).
    apply Rle_trans with (IZR b * / (20000 * IZR b))%R; [apply Rmult_le_compat_r; [apply Rlt_le, Rinv_0_lt_compat; lra|exact H]|]. right. field. lra.
Qed.
Lemma reread_close x : is_finite x = true -> (Rabs (B2R x) <= bpow radix2 900)%R ->
  is_finite (reread x) = true /\ (Rabs (B2R (reread x) - B2R x) <= 5.1e-5 + 1.2e-16 * Rabs (B2R x))%R.
Proof.
  intros F B. assert (TR : forall x : f64, is_finite x = true -> reread x = x -> is_finite (reread x) = true /\ (Rabs (B2R (reread x) - B2R x) <= 5.1e-5 + 1.2e-16 * Rabs (B2R x))%R).
  { intros y Fy E. rewrite E. split; [exact Fy|]. replace (B2R y - B2R y)%R with 0%R by ring. rewrite Rabs_R0. pose proof (Rabs_pos (B2R y)). lra. }
  destruct x as [s|s| |s m e H]; try discriminate; [now apply TR|]. clear TR.
  pose proof (ten_thousandths_err m e) as TE. pose proof (ten_thousandths_pos m e) as TP. set (n := ten_thousandths m e) in *.
  set (a := (IZR (Zpos m) * bpow radix2 e)%R) in *. assert (AP : (0 <= a)%R) by (apply Rmult_le_pos; [apply IZR_le; lia|apply bpow_ge_0]).
  assert (BX : B2R (B754_finite s m e H : f64) = (if s then - a else a)%R).
  { unfold a. destruct s; unfold B2R, F2R; cbn [cond_Zopp Fnum Fexp]; [|reflexivity]. change (Z.neg m) with (- Zpos m). rewrite opp_IZR. ring. }
  rewrite BX in *. assert (RA : Rabs (if s then - a else a) = a) by (destruct s; rewrite ?Rabs_Ropp; now apply Rabs_pos_eq). rewrite RA in *.
  assert (QE : Q2R (Qmake n 10000) = (IZR n / 10000)%R) by reflexivity.
  assert (NP : (0 <= IZR n)%R) by now apply IZR_le.
  assert (P9 : (bpow radix2 900 + 1 <= bpow radix2 1000)%R).
  { change 1000 with (900 + 100). rewrite bpow_plus. pose proof (bpow_le radix2 0 900 ltac:(lia)) as K1. pose proof (bpow_le radix2 1 100 ltac:(lia)) as K2. change (bpow radix2 0) with 1%R in K1. change (bpow radix2 1) with 2%R in K2. nra. }
  assert (BB : (Rabs (Q2R (Qmake n 10000)) <= bpow radix2 1000)%R).
  { rewrite QE, Rabs_pos_eq by lra. apply Rabs_le_inv in TE. lra. }
  destruct (val_lit (Qmake n 10000) BB) as [F1 V1]. pose proof (rnd_close (Q2R (Qmake n 10000))) as RC. rewrite QE in *. rewrite (Rabs_pos_eq (IZR n / 10000)) in RC by lra.
  assert (D : (Rabs (B2R (flit (Qmake n 10000)) - a) <= 5.1e-5 + 1.2e-16 * a)%R).
  { rewrite V1. apply Rabs_le_inv in TE. apply Rabs_le_inv in RC. apply Rabs_le. lra. }
  cbn [reread]. fold n. cbv zeta. destruct s.
  - rewrite is_finite_Bopp, B2R_Bopp. split; [exact F1|]. replace (- B2R (flit (Qmake n 10000)) - - a)%R with (- (B2R (flit (Qmake n 10000)) - a))%R by ring. now rewrite Rabs_Ropp.
  - split; [exact F1|exact D].
Qed.
Lemma Forall2_map_both {A B C} (R : B -> C -> Prop) (f : A -> B) (g : A -> C) l : Forall (fun a => R (f a) (g a)) l -> Forall2 R (map f l) (map g l).
Proof. induction 1; cbn; constructor; auto. Qed.
Lemma concat_map_map {A B} (f : A -> B) rows : List.concat (map (map f) rows) = map f (List.concat rows).
Proof. induction rows as [|r rows IH]; [reflexivity|]. cbn. now rewrite map_app, IH. Qed.
Lemma text_rounds data es : parse_data data = (es, None) -> monthly es ->
  Forall (fun e => is_finite (e_dt e) = true /\ (Rabs (B2R (e_dt e)) <= bpow radix2 900)%R) es ->
  exists o base_year base_month rows, script_text data = (o, None) /\ (forall env, module_binds o env <-> env = table_env base_year base_month rows) /\
  Forall2 (fun e x => is_finite x = true /\ (Rabs (B2R x - B2R (e_dt e)) <= 5.1e-5 + 1.2e-16 * Rabs (B2R (e_dt e)))%R) es (List.concat rows).
Proof.
  intros P M FV. destruct (script_complete es M) as (o & y & m & rows & E & T & C & L).
  exists (texts o), y, m, (map (map reread) rows). split; [|split].
  - rewrite (script_text_eq _ _ P), E. reflexivity.
  - assert (B : module_binds (texts o) (table_env y m (map (map reread) rows))).
    { apply table_module; [exact T|]. apply forall_concat. rewrite C. apply Forall_map. eapply Forall_impl; [|exact FV]. cbn. tauto. }
    intros env. split; [intros H; exact (module_unique _ _ _ H B)|intros ->; exact B].
  - rewrite concat_map_map, C, map_map. rewrite <- (map_id es) at 1. apply Forall2_map_both. eapply Forall_impl; [|exact FV]. intros e [F1 F2]. now apply reread_close.
Qed.

(* nan is read and written, and the result is not a table *)
Definition nan_data : text := txt "1973 2 1 nan".
Lemma nan_unreadable : exists es o, parse_data nan_data = (es, None) /\ monthly es /\ script_text nan_data = (o, None) /\ forall env, ~ module_binds o env.
Proof.
  exists [mkentry 1973 2 1 B754_nan]. eexists. split; [reflexivity|]. split.
  { split; [discriminate|]. split; [repeat constructor; cbn; lia|]. split; [repeat constructor|exact I]. }
  split; [vm_compute; reflexivity|]. intros env (ks & T & A). 
  match type of T with tokens ?l = _ => let v := eval vm_compute in (tokens l) in assert (E : tokens l = v) by (vm_compute; reflexivity) end.
  rewrite E in T. injection T as <-. apply p_assign_complete with (fuel := 40%nat) in A; [|cbn; lia]. vm_compute in A. discriminate.
Qed.

(* ---------------------------------------------------------------- samples *)
Definition sample_data : text := txt " 1973 12  1  44.4 " ++ nl :: [] ++ nl :: txt "1974 01 1 -0.3000" ++ nl :: [].
Definition sample_entries : list (entry f64) := [mkentry 1973 12 1 (flit (Qmake 444 10)); mkentry 1974 1 1 (Bopp (flit (Qmake 3000 10000)))].
Definition sample_output : text := List.concat (map (fun s => txt s ++ [nl])
  ["# table generated by util/get_delta_t script"; "delta_t_base_year = 1973"; "delta_t_base_month = 12"; "delta_t = \"; "  [";
   "        [ # 1973"; "            44.4000, # 12"; "        ],"; "        [ # 1974"; "            -0.3000, # 1"; "        ],"; "    ] # delta_t"]%string).
Lemma nat_word w z : forallb is_digit w = true -> w <> [] -> digits_value w = z -> natural w z.
Proof.
  assert (DG : forall c, is_digit c = true -> digit c (digit_value c)).
  { intros c H. unfold is_digit in H. rewrite andb_true_iff, !Z.leb_le in H. unfold digit, digit_value. lia. }
  intros D NE <-. revert D NE. induction w as [|c w IH] using rev_ind; intros D NE; [easy|]. rewrite forallb_app in D. apply andb_prop in D as [D1 D2]. cbn in D2. rewrite andb_true_r in D2.
  destruct w as [|c' w'].
  - replace (digits_value ([] ++ [c])) with (digit_value c) by (cbn; lia). apply nat_one. now apply DG.
  - rewrite digits_value_fold, dfold_app. change (natural ((c' :: w') ++ [c]) (10 * digits_value (c' :: w') + digit_value c)). apply nat_more; [|now apply DG]. apply IH; [exact D1|discriminate].
Qed.
Lemma text_samples : data_file sample_data sample_entries /\ monthly sample_entries /\
  script_text sample_data = (sample_output, None) /\ short_line (txt " 1974 2  1").
Proof.
  assert (B : forall n, blank (repeat " "%char n)) by (intros n; apply Forall_forall; intros c Hc; apply repeat_spec in Hc as ->; cbn; tauto).
  split; [|split; [|split]].
  - apply (df_more (txt " 1973 12  1  44.4 ") [_] _ [_]).
    + apply (dl_entry (repeat " "%char 1) (repeat " "%char 1) (repeat " "%char 2) (repeat " "%char 2) (repeat " "%char 1) (txt "1973") (txt "12") (txt "1") (txt "44.4")); try apply B; try discriminate;
        try (apply nat_word; [reflexivity|discriminate|reflexivity]).
      apply sg_plain. apply (fx_point (txt "44") (txt "4")); [apply nat_word; [reflexivity|discriminate|reflexivity]|cbn; lia|vm_compute; discriminate].
    + apply (df_more [] [] _ [_]); [constructor; constructor|]. apply (df_more (txt "1974 01 1 -0.3000") [_] _ []).
      * apply (dl_entry [] (repeat " "%char 1) (repeat " "%char 1) (repeat " "%char 1) [] (txt "1974") (txt "01") (txt "1") (txt "-0.3000")); try apply B; try discriminate; try exact (Forall_nil _);
          try (apply nat_word; [reflexivity|discriminate|reflexivity]).
        apply sg_minus. apply (fx_point (txt "0") (txt "3000")); [apply nat_word; [reflexivity|discriminate|reflexivity]|cbn; lia|vm_compute; discriminate].
      * constructor. constructor. constructor.
  - split; [discriminate|]. split; [repeat constructor; cbn; lia|]. split; [repeat constructor|]. cbn. split; [reflexivity|exact I].
  - vm_compute. reflexivity.
  - assert (W : forall w, w <> [] -> forallb (fun c => negb (is_space c)) w = true -> word w).
    { intros w NE S. split; [exact NE|]. apply Forall_forall. intros c Hc. rewrite forallb_forall in S. specialize (S c Hc). apply negb_true_iff in S. unfold is_space in S.
      rewrite orb_false_iff, !andb_false_iff, !Z.leb_gt in S. cbn [In]. lia. }
    apply (sl_three (repeat " "%char 1) (repeat " "%char 1) (repeat " "%char 2) [] (txt "1974") (txt "2") (txt "1")); try apply B; try discriminate; try (apply W; [discriminate|reflexivity]). constructor.
Qed.
Lemma rounding_sample : exists x, parse_data (txt "+1973 02 1 4.347246e1") = ([mkentry 1973 2 1 x], None) /\ is_finite x = true /\ (Rabs (B2R x) <= bpow radix2 900)%R.
Proof.
  exists (flit (Qmake 4347246 100000)). split; [reflexivity|]. 
  set (q := Qmake 4347246 100000). assert (QE : (43 <= Q2R q <= 44)%R) by (unfold Q2R; cbn [Qnum Qden q]; lra).
  assert (BB : (Rabs (Q2R q) <= bpow radix2 1000)%R).
  { rewrite Rabs_pos_eq by lra. apply Rle_trans with (bpow radix2 10); [change (bpow radix2 10) with 1024%R; lra|now apply bpow_le]. }
  destruct (val_lit _ BB) as [F V]. split; [exact F|]. rewrite V. pose proof (rnd_close (Q2R q)) as RC. apply Rabs_le_inv in RC. rewrite (Rabs_pos_eq (Q2R q)) in RC by lra.
  apply Rle_trans with (bpow radix2 10); [change (bpow radix2 10) with 1024%R; apply Rabs_le; lra|now apply bpow_le].
Qed.

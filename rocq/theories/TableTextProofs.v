(* The text of the Delta-T table in solartime.py: what Python reads in it, and that util/get_delta_t
   writes it. *)
From Coq Require Import String Ascii ZArith QArith List Lia.
From Flocq Require Import IEEE754.BinarySingleNaN.
From Verif Require Import Py Num B64 Script ScriptProofs SolarTime Tables ScriptText SpecPyText ScriptTextProofs ScriptTextMore TableText.
Import ListNotations.
Local Open Scope string_scope.
Local Open Scope list_scope.
Local Open Scope Z_scope.

Definition row_toks (row : list Q) : list tok := flat_map (fun q => [TFloat q; TComma]) row.
Definition rows_toks (rows : list (list Q)) : list tok := flat_map (fun row => TOpen :: row_toks row ++ [TClose; TComma]) rows.
Definition table_toks (y m : Z) (rows : list (list Q)) : list tok :=
  TName (txt "delta_t_base_year") :: TEq :: [TInt y] ++ TEnd :: TName (txt "delta_t_base_month") :: TEq :: [TInt m] ++
  TEnd :: TName (txt "delta_t") :: TEq :: (TOpen :: rows_toks rows ++ [TClose]) ++ TEnd :: [].
Lemma row_elements row : elements (row_toks row) (map VFloat (map flit row)).
Proof. induction row as [|q row IH]; [constructor|]. cbn. apply (el_cons [TFloat q]); [constructor|exact IH]. Qed.
Lemma rows_elements rows : elements (rows_toks rows) (map (fun r => VList (map VFloat r)) (map (map flit) rows)).
Proof.
  induction rows as [|r rows IH]; [constructor|]. cbn [rows_toks flat_map map].
  replace ((TOpen :: row_toks r ++ [TClose; TComma]) ++ flat_map (fun row => TOpen :: row_toks row ++ [TClose; TComma]) rows)
    with ((TOpen :: row_toks r ++ [TClose]) ++ TComma :: rows_toks rows) by (cbn; rewrite <- !app_assoc; reflexivity).
  apply el_cons; [constructor; apply row_elements|exact IH].
Qed.
Lemma table_assignments y m rows : assignments (table_toks y m rows) (table_env y m (map (map flit) rows)).
Proof. apply as_one; [constructor|]. apply as_one; [constructor|]. apply as_one; [constructor; apply rows_elements|constructor]. Qed.

Lemma source_tokens : tokens (txt table_source) = Some (table_toks 1973 2 delta_t).
Proof. vm_compute. reflexivity. Qed.
Lemma source_binds env : module_binds (txt table_source) env <-> env = table_env 1973 2 (map (map flit) delta_t).
Proof.
  assert (B : module_binds (txt table_source) (table_env 1973 2 (map (map flit) delta_t))) by (eexists; split; [exact source_tokens|apply table_assignments]).
  split; [intros H; exact (module_unique _ _ _ H B)|intros ->; exact B].
Qed.

(* the input *)
Lemma show_nat_natural n : 0 <= n -> natural (show_nat n) n.
Proof. intros H. destruct (show_nat_ok n H) as (D & NE & V & _). now apply nat_word. Qed.
Lemma digit_char_spec k : 0 <= k < 10 -> digit (digit_char k) k.
Proof. intros H. unfold digit. rewrite digit_char_code by lia. lia. Qed.
Lemma show_frac_fixed n : 0 <= n <= 10 ^ 15 -> fixed (show_frac n) (flit (Qmake n 10000)).
Proof.
  intros H. unfold show_frac. apply (fx_point _ [digit_char (n / 1000 mod 10); digit_char (n / 100 mod 10); digit_char (n / 10 mod 10); digit_char (n mod 10)]); [|cbn; lia|cbn; lia].
  assert (P : 0 <= n / 10000) by (apply Z.div_pos; lia).
  pose proof (Z.mod_pos_bound (n / 1000) 10 ltac:(lia)) as M1. pose proof (Z.mod_pos_bound (n / 100) 10 ltac:(lia)) as M2. pose proof (Z.mod_pos_bound (n / 10) 10 ltac:(lia)) as M3. pose proof (Z.mod_pos_bound n 10 ltac:(lia)) as M4.
  pose proof (nat_more _ _ _ _ (nat_more _ _ _ _ (nat_more _ _ _ _ (nat_more _ _ _ _ (show_nat_natural _ P) (digit_char_spec _ M1)) (digit_char_spec _ M2)) (digit_char_spec _ M3)) (digit_char_spec _ M4)) as N.
  rewrite <- !app_assoc in N. cbn [app] in N. match type of N with natural _ ?v => replace n with v at 6 end; [exact N|].
  assert (Q1 : n / 10 = 10 * (n / 100) + n / 10 mod 10) by (rewrite (Z.div_mod (n / 10) 10) at 1 by lia; rewrite Z.div_div by lia; reflexivity).
  assert (Q2 : n / 100 = 10 * (n / 1000) + n / 100 mod 10) by (rewrite (Z.div_mod (n / 100) 10) at 1 by lia; rewrite Z.div_div by lia; reflexivity).
  assert (Q3 : n / 1000 = 10 * (n / 10000) + n / 1000 mod 10) by (rewrite (Z.div_mod (n / 1000) 10) at 1 by lia; rewrite Z.div_div by lia; reflexivity).
  pose proof (Z.div_mod n 10 ltac:(lia)). lia.
Qed.
Definition entry_line (e : entry Q) : text :=
  show_nat (e_year e) ++ txt " " ++ show_nat (e_month e) ++ txt " " ++ show_nat (e_day e) ++ txt " " ++ show_frac (Qnum (e_dt e)).
Definition plain (e : entry Q) : bool :=
  (0 <=? e_year e) && (0 <=? e_month e) && (0 <=? e_day e) && (0 <=? Qnum (e_dt e)) && (Qnum (e_dt e) <=? 10 ^ 15) && Pos.eqb (Qden (e_dt e)) 10000.
Definition float_entry (e : entry Q) : entry f64 := mkentry (e_year e) (e_month e) (e_day e) (flit (e_dt e)).
Definition file_of (es : list (entry Q)) : text := flat_map (fun e => entry_line e ++ [nl]) es.
Lemma entry_line_ok e : plain e = true -> data_line (entry_line e) [float_entry e].
Proof.
  unfold plain. rewrite !andb_true_iff, !Z.leb_le, Pos.eqb_eq. intros (((((Y & M) & D) & X) & X') & QD). destruct e as [y m d [n q]]. unfold float_entry, entry_line in *. cbn [e_year e_month e_day e_dt Qnum Qden] in *. subst q.
  assert (B : blank (txt " ")) by (repeat constructor; cbn; tauto).
  pose proof (dl_entry [] (txt " ") (txt " ") (txt " ") [] _ _ _ _ _ _ _ _ ltac:(constructor) B B B ltac:(constructor) ltac:(discriminate) ltac:(discriminate) ltac:(discriminate)
    (show_nat_natural y Y) (show_nat_natural m M) (show_nat_natural d D) (sg_plain _ _ (show_frac_fixed n (conj X X')))) as L.
  rewrite app_nil_r in L. exact L.
Qed.
Lemma file_of_ok es : forallb plain es = true -> data_file (file_of es) (map float_entry es).
Proof.
  induction es as [|e es IH]; intros H; [do 2 constructor; constructor|]. cbn in H. apply andb_prop in H as [H1 H2]. cbn [file_of flat_map map].
  replace ((entry_line e ++ [nl]) ++ flat_map (fun e => entry_line e ++ [nl]) es) with (entry_line e ++ nl :: file_of es) by (now rewrite <- app_assoc).
  apply (df_more _ [float_entry e]); [now apply entry_line_ok|now apply IH].
Qed.
(* the run commutes with a change of values *)
Definition out_map {V W} (f : V -> W) (o : out V) : out W :=
  match o with OHeader y m => OHeader y m | OOpen y => OOpen y | OItem x m => OItem (f x) m | OClose => OClose | OEnd => OEnd end.
Definition entry_map {V W} (f : V -> W) (e : entry V) : entry W := mkentry (e_year e) (e_month e) (e_day e) (f (e_dt e)).
Lemma run_on_map {V W} (f : V -> W) fin es : forall y m,
  run_on fin (map (entry_map f) es) y m = (map (out_map f) (fst (run_on fin es y m)), snd (run_on fin es y m)).
Proof.
  induction es as [|e es IH]; intros y m.
  - cbn. destruct fin, y; reflexivity.
  - cbn [map run_on]. cbv zeta. cbn [entry_map e_year e_month e_day e_dt]. unfold assert_, emit. rewrite IH.
    repeat match goal with |- context [if ?b then _ else _] => destruct b | |- context [match ?o with Some _ => _ | None => _ end] => is_var o; destruct o end; reflexivity.
Qed.
Definition render_q (o : out Q) : text :=
  match o with
  | OItem q m => line [txt "            "; show_frac (Qnum q); txt ", # "; show_int m]
  | OHeader y m => render (OHeader y m) | OOpen y => render (OOpen y) | OClose => render OClose | OEnd => render OEnd
  end.
Definition plain_out (o : out Q) : bool :=
  match o with OItem q _ => (0 <=? Qnum q) && (Qnum q <=? 10 ^ 15) && Pos.eqb (Qden q) 10000 | _ => true end.
Lemma render_map o : forallb plain_out o = true -> texts (map (out_map flit) o) = flat_map render_q o.
Proof.
  induction o as [|x o IH]; intros H; [reflexivity|]. cbn in H. apply andb_prop in H as [H1 H2]. unfold texts in *. cbn [map List.concat flat_map]. rewrite IH by exact H2. f_equal.
  destruct x as [| |q m| |]; try reflexivity. cbn [plain_out] in H1. rewrite !andb_true_iff, !Z.leb_le, Pos.eqb_eq in H1. destruct H1 as [[A B] C]. destruct q as [n d]. cbn [Qnum Qden] in *. subst d.
  cbn [out_map render render_q]. rewrite (show_4f_fixed n (conj A B)). reflexivity.
Qed.
Lemma generated es : forallb plain es = true -> snd (script es) = None -> forallb plain_out (fst (script es)) = true ->
  data_file (file_of es) (map float_entry es) /\ script_text (file_of es) = (flat_map render_q (fst (script es)), None).
Proof.
  intros P S O. pose proof (file_of_ok es P) as F. split; [exact F|]. rewrite (script_text_eq _ _ (data_file_ok _ _ F)).
  change (map float_entry es) with (map (entry_map flit) es). unfold script, run in *. rewrite (run_on_map flit). cbn [fst snd]. now rewrite S, render_map.
Qed.
Definition source_entries : list (entry Q) := table_entries 1973 2 delta_t.
Definition first_line : text := txt "# table of values to add to UT1 to get TT (to date), generated by util/get_delta_t script" ++ [nl].
Definition script_line : text := txt "# table generated by util/get_delta_t script" ++ [nl].
Lemma source_out : flat_map render_q (fst (script source_entries)) = script_line ++ skipn (List.length first_line) (txt table_source).
Proof. vm_compute. reflexivity. Qed.
Lemma source_head : txt table_source = first_line ++ skipn (List.length first_line) (txt table_source).
Proof. vm_compute. reflexivity. Qed.
Lemma source_plain : forallb plain source_entries = true /\ snd (script source_entries) = None /\ forallb plain_out (fst (script source_entries)) = true.
Proof. vm_compute. repeat split. Qed.
Lemma source_generated : exists data es body, data_file data es /\ txt table_source = first_line ++ body /\ script_text data = (script_line ++ body, None).
Proof.
  destruct source_plain as (P & S & O). destruct (generated _ P S O) as [F E]. rewrite source_out in E.
  exists (file_of source_entries), (map float_entry source_entries), (skipn (List.length first_line) (txt table_source)).
  split; [exact F|]. split; [exact source_head|exact E].
Qed.

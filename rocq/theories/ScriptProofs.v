(* util/get_delta_t: the generated table. *)
From Coq Require Import Lia.
From Verif Require Import Py Tables SolarTime Script SpecScript.
Local Open Scope Z_scope.

Section V.
Context {V : Type}.
Fixpoint chain (y m : Z) (es : list (entry V)) : Prop :=
  match es with
  | [] => True
  | e :: es => month_index e = 12 * y + m /\ chain (e_year e) (e_month e) es
  end.
Lemma chain_consecutive e es : consecutive (e :: es) <-> chain (e_year e) (e_month e) es.
Proof.
  revert e. induction es as [|e' es IH]; intros e; [cbn; tauto|].
  change (consecutive (e :: e' :: es)) with (month_index e' = month_index e + 1 /\ consecutive (e' :: es)).
  cbn [chain]. rewrite IH. unfold month_index at 2. split; intros [H1 H2]; split; auto; lia.
Qed.

Lemma nth_error_shift {A} (x : A) l k j : 0 < k -> j = k - 1 -> nth_error (x :: l) (Z.to_nat k) = nth_error l (Z.to_nat j).
Proof. intros H ->. replace (Z.to_nat k) with (S (Z.to_nat (k - 1))) by lia. reflexivity. Qed.

Lemma run_chain es : forall y m, 1 <= m <= 12 -> months_valid es -> Forall (fun e => e_day e = 1) es -> chain y m es ->
  exists items row rest rows,
    @run V es (Some y) (Some m) = (items ++ OClose :: rest, None)%list /\ row_text items row /\ rows_text rest rows /\
    (row ++ List.concat rows = map e_dt es)%list /\
    forall e, In e es ->
      (e_year e = y /\ m < e_month e /\ nth_error row (Z.to_nat (e_month e - m - 1)) = Some (e_dt e)) \/
      (y < e_year e /\ exists r, nth_error rows (Z.to_nat (e_year e - y - 1)) = Some r /\ nth_error r (Z.to_nat (e_month e - 1)) = Some (e_dt e)).
Proof.
  induction es as [|e es IH]; intros y m Hm Hv Hd Hc.
  - exists [], [], [OEnd], []. split; [reflexivity|]. split; [constructor|]. split; [constructor|]. split; [reflexivity|]. intros e [].  
  - inversion Hv as [|? ? Hve Hves]; subst. inversion Hd as [|? ? Hde Hdes]; subst. cbn [chain] in Hc. destruct Hc as [Hi Hc].
    unfold month_index in Hi. destruct (IH (e_year e) (e_month e) Hve Hves Hdes Hc) as (items & row & rest & rows & ER & RT & RS & EC & HL).
    unfold run in *. cbn [run_on]. rewrite Hde. unfold assert_ at 1. rewrite Z.eqb_refl. destruct (Z.eqb_spec y (e_year e)) as [EY|NY].
    + assert (EM : e_month e = m + 1) by lia. unfold assert_. rewrite EM, Z.eqb_refl. rewrite <- EM, ER.
      exists (OItem (e_dt e) (e_month e) :: items), (e_dt e :: row), rest, rows. split; [reflexivity|]. split; [now constructor|]. split; [exact RS|].
      split; [cbn; now rewrite EC|]. intros e' [<-|He'].
      * left. split; [auto|]. split; [lia|]. replace (e_month e - m - 1) with 0 by lia. reflexivity.
      * destruct (HL e' He') as [(A & B & C)|(A & r & B & C)].
        -- left. split; [congruence|]. split; [lia|]. rewrite (nth_error_shift _ _ _ (e_month e' - e_month e - 1)) by lia. exact C.
        -- right. split; [lia|]. exists r. replace (e_year e' - y - 1) with (e_year e' - e_year e - 1) by lia. auto.
    + assert (EY : e_year e = y + 1) by lia. assert (EM : e_month e = 1) by lia. assert (m = 12) as -> by lia.
      unfold assert_. rewrite EY, Z.eqb_refl, EM. cbn [Z.add Z.eqb Pos.eqb]. rewrite EY, EM in ER. rewrite ER.
      exists [], [], (OOpen (y + 1) :: (OItem (e_dt e) 1 :: items) ++ OClose :: rest)%list, ((e_dt e :: row) :: rows).
      split; [reflexivity|]. split; [constructor|]. split; [constructor; [now constructor|exact RS]|].
      split; [cbn; now rewrite EC|]. intros e' [<-|He'].
      * right. split; [lia|]. exists (e_dt e :: row). rewrite EY, EM. replace (y + 1 - y - 1) with 0 by lia. split; reflexivity.
      * right. destruct (HL e' He') as [(A & B & C)|(A & r & B & C)].
        -- split; [lia|]. exists (e_dt e :: row). replace (e_year e' - y - 1) with 0 by lia. split; [reflexivity|].
           rewrite (nth_error_shift _ _ _ (e_month e' - e_month e - 1)) by lia. exact C.
        -- split; [lia|]. exists r. split; [|exact C]. rewrite (nth_error_shift _ _ _ (e_year e' - e_year e - 1)) by lia. exact B.
Qed.

Lemma py_index_nth {A} (l : list A) k a : 0 <= k -> nth_error l (Z.to_nat k) = Some a -> py_index l k = Ok a /\ k < Z.of_nat (List.length l).
Proof.
  intros Hk H. unfold py_index. assert (k <? 0 = false) as -> by (apply Z.ltb_ge; lia). rewrite (proj2 (Z.ltb_ge k 0)) by lia. rewrite H.
  split; [reflexivity|]. assert (Z.to_nat k < List.length l)%nat by (apply nth_error_Some; congruence). lia.
Qed.

Lemma lookup_cell by_ bm (rows : list (list V)) y m row q j : by_ <= y -> (y = by_ -> bm <= m /\ j = m - bm) -> (y <> by_ -> 1 <= m /\ j = m - 1) ->
  nth_error rows (Z.to_nat (y - by_)) = Some row -> nth_error row (Z.to_nat j) = Some q ->
  delta_t_lookup by_ bm rows y m = Ok q.
Proof.
  intros Hy H1 H2 HR HQ. destruct (py_index_nth rows (y - by_) row ltac:(lia) HR) as [ER LR].
  assert (Hj : 0 <= j) by (destruct (Z.eq_dec y by_) as [E|E]; [destruct (H1 E)|destruct (H2 E)]; lia).
  destruct (py_index_nth row j q Hj HQ) as [EQ LQ].
  unfold delta_t_lookup, zlen. rewrite (proj2 (Z.ltb_ge y by_)) by lia.
  destruct (Z.eqb_spec y by_) as [E|E].
  - destruct (H1 E) as [Hm ->]. cbv beta iota zeta. rewrite ?ER.
    assert (M : Z.max 0 (m - bm) + 1 = m - bm + 1) by lia. rewrite M.
    destruct (y =? by_ + Z.of_nat (List.length rows) - 1); cbn beta iota delta [bind]; [|rewrite ?ER; cbn beta iota delta [bind]].
    + rewrite ?ER. cbn beta iota delta [bind]. rewrite Z.min_l by lia. replace (m - bm + 1 - 1) with (m - bm) by lia. exact EQ.
    + replace (m - bm + 1 - 1) with (m - bm) by lia. exact EQ.
  - destruct (H2 E) as [Hm ->]. rewrite (proj2 (Z.leb_gt (by_ + Z.of_nat (List.length rows)) y)) by lia. cbv beta iota zeta. rewrite ?ER.
    destruct (y =? by_ + Z.of_nat (List.length rows) - 1); cbn beta iota delta [bind].
    + rewrite ?ER. cbn beta iota delta [bind]. rewrite Z.min_l by lia. exact EQ.
    + rewrite ?ER. exact EQ.
Qed.

Lemma script_complete (es : list (entry V)) : monthly es -> exists o by_ bm rows,
  script es = (o, None) /\ table_text o by_ bm rows /\ List.concat rows = map e_dt es /\
  forall e, In e es -> delta_t_lookup by_ bm rows (e_year e) (e_month e) = Ok (e_dt e).
Proof.
  intros (Hn & Hv & Hd & Hc). destruct es as [|e es]; [easy|]. rewrite chain_consecutive in Hc.
  inversion Hv as [|? ? Hve Hves]; subst. inversion Hd as [|? ? Hde Hdes]; subst.
  destruct (run_chain es _ _ Hve Hves Hdes Hc) as (items & row & rest & rows & ER & RT & RS & EC & HL).
  unfold script, run in *. cbn [run_on]. rewrite Hde, ER. cbn.
  eexists. exists (e_year e), (e_month e), ((e_dt e :: row) :: rows). split; [reflexivity|]. split; [|split].
  - eexists. split; [reflexivity|]. apply (rt_row _ (OItem (e_dt e) (e_month e) :: items)); [now constructor|exact RS].
  - cbn. now rewrite EC.
  - intros e' [<-|He'].
    + apply (lookup_cell _ _ _ _ _ (e_dt e :: row) _ 0); try lia; [|reflexivity]. replace (e_year e - e_year e) with 0 by lia. reflexivity.
    + rewrite Forall_forall in Hves. specialize (Hves e' He'). destruct (HL e' He') as [(A & B & C)|(A & r & B & C)].
      * apply (lookup_cell _ _ _ _ _ (e_dt e :: row) _ (e_month e' - e_month e)); try lia; [rewrite A; replace (e_year e - e_year e) with 0 by lia; reflexivity|].
        rewrite (nth_error_shift _ _ _ (e_month e' - e_month e - 1)) by lia. exact C.
      * apply (lookup_cell _ _ _ _ _ r _ (e_month e' - 1)); try lia; [|exact C].
        rewrite (nth_error_shift _ _ _ (e_year e' - e_year e - 1)) by lia. exact B.
Qed.

(* ---------------------------------------------------------------- a run that ends is a proper input *)
Lemma emit_snd l (r : @run_result V) : snd (emit l r) = snd r.
Proof. reflexivity. Qed.
Lemma assert_snd b (r : @run_result V) : snd (assert_ b r) = None -> b = true /\ snd r = None.
Proof. destruct b; cbn; auto. discriminate. Qed.

Lemma run_sound (es : list (entry V)) : forall y m, 1 <= m <= 12 -> months_valid es -> snd (run es (Some y) (Some m)) = None ->
  Forall (fun e => e_day e = 1) es /\ chain y m es.
Proof.
  induction es as [|e es IH]; intros y m Hm Hv Hs; [split; constructor|]. inversion Hv as [|? ? Hve Hves]; subst.
  unfold run in *. cbn [run_on] in Hs. apply assert_snd in Hs as [Hd Hs]. apply Z.eqb_eq in Hd. cbv zeta in Hs.
  destruct (Z.eqb_spec y (e_year e)) as [EY|NY].
  - apply assert_snd in Hs as [H1 Hs]. rewrite emit_snd in Hs. apply Z.eqb_eq in H1.
    destruct (IH _ _ Hve Hves Hs) as [A B]. split; [now constructor|]. cbn [chain]. split; [unfold month_index; lia|exact B].
  - rewrite emit_snd in Hs. apply assert_snd in Hs as [H1 Hs]. apply assert_snd in Hs as [H2 Hs]. rewrite emit_snd in Hs.
    apply assert_snd in Hs as [H3 Hs]. rewrite emit_snd in Hs. apply Z.eqb_eq in H1, H2, H3.
    destruct (IH _ _ Hve Hves Hs) as [A B]. split; [now constructor|]. cbn [chain]. split; [unfold month_index; lia|exact B].
Qed.

Lemma script_sound (es : list (entry V)) o : script es = (o, None) -> es <> [] -> months_valid es -> monthly es.
Proof.
  intros Hs Hn Hv. destruct es as [|e es]; [easy|]. inversion Hv as [|? ? Hve Hves]; subst. assert (H : snd (script (e :: es)) = None) by now rewrite Hs.
  unfold script, run in H. cbn [run_on] in H. apply assert_snd in H as [Hd H]. apply Z.eqb_eq in Hd. cbv zeta in H. rewrite emit_snd in H.
  apply assert_snd in H as [_ H]. rewrite emit_snd in H. destruct (run_sound es _ _ Hve Hves H) as [A B].
  split; [discriminate|]. split; [exact Hv|]. split; [now constructor|]. now apply chain_consecutive.
Qed.

(* the only failure is an assertion *)
Lemma script_fails (es : list (entry V)) e : snd (script es) = Some e -> e = AssertionError.
Proof.
  unfold script, run. generalize (@None Z) at 1 as y. generalize (@None Z) as m. induction es as [|x es IH]; intros m y.
  - destruct y; cbn; discriminate.
  - cbn [run_on]. cbv zeta. unfold assert_, emit.
    repeat match goal with |- context [if ?b then _ else _] => destruct b | |- context [match ?o with Some _ => _ | None => _ end] => is_var o; destruct o end;
    cbn; try congruence; try apply IH.
Qed.

Lemma script_rejects (es : list (entry V)) : es <> [] -> months_valid es -> ~ monthly es -> snd (script es) = Some AssertionError.
Proof.
  intros Hn Hv Hm. destruct (script es) as [o [e|]] eqn:E; cbn.
  - f_equal. apply (script_fails es). now rewrite E.
  - exfalso. apply Hm. now apply (script_sound es o).
Qed.
End V.

(* ---------------------------------------------------------------- the committed table *)
Fixpoint row_out (first : Z) (row : list Q) : list (out Q) :=
  match row with [] => [] | q :: row => OItem q first :: row_out (first + 1) row end.
Fixpoint rows_out (year first : Z) (rows : list (list Q)) : list (out Q) :=
  match rows with
  | [] => [OEnd]
  | r :: rows => OOpen year :: row_out first r ++ OClose :: rows_out (year + 1) 1 rows
  end%list.
Lemma row_out_text f r : row_text (row_out f r) r.
Proof. revert f. induction r; intros f; cbn; constructor; auto. Qed.
Lemma rows_out_text y f rows : rows_text (rows_out y f rows) rows.
Proof. revert y f. induction rows; intros y f; cbn; constructor; auto using row_out_text. Qed.

Fixpoint row_entries (year first : Z) (row : list Q) : list (entry Q) :=
  match row with [] => [] | q :: row => mkentry year first 1 q :: row_entries year (first + 1) row end.
Fixpoint table_entries (year first : Z) (rows : list (list Q)) : list (entry Q) :=
  match rows with [] => [] | r :: rows => row_entries year first r ++ table_entries (year + 1) 1 rows end%list.

Lemma committed_table : exists es o, monthly es /\ script es = (o, None) /\
  table_text o delta_t_base_year delta_t_base_month delta_t.
Proof.
  exists (table_entries delta_t_base_year delta_t_base_month delta_t),
    (OHeader delta_t_base_year delta_t_base_month :: rows_out delta_t_base_year delta_t_base_month delta_t).
  assert (ES : script (table_entries delta_t_base_year delta_t_base_month delta_t) =
    (OHeader delta_t_base_year delta_t_base_month :: rows_out delta_t_base_year delta_t_base_month delta_t, None)) by (vm_compute; reflexivity).
  split; [|split; [exact ES|]].
  - apply (script_sound _ _ ES); [vm_compute; discriminate|]. unfold months_valid. apply Forall_forall. intros e He.
    assert (F : forallb (fun e => (1 <=? e_month e) && (e_month e <=? 12)) (table_entries delta_t_base_year delta_t_base_month delta_t) = true) by (vm_compute; reflexivity).
    rewrite forallb_forall in F. specialize (F e He). lia.
  - eexists. split; [reflexivity|]. apply rows_out_text.
Qed.

(* month numbers are not checked against 12 *)
Lemma script_accepts_month_13 : snd (script [mkentry 2000 12 1 0%Q; mkentry 2000 13 1 0%Q]) = None /\
  ~ monthly [mkentry 2000 12 1 0%Q; mkentry 2000 13 1 0%Q].
Proof.
  split; [reflexivity|]. intros (_ & V & _). inversion V as [|? ? _ V']. inversion V' as [|? ? V'' _]. cbn in V''. lia.
Qed.

Lemma script_samples :
  monthly [mkentry 1973 12 1 44.4%Q; mkentry 1974 1 1 44.5%Q] /\
  script [mkentry 1973 12 1 44.4%Q; mkentry 1974 1 1 44.5%Q] =
    ([OHeader 1973 12; OOpen 1973; OItem 44.4%Q 12; OClose; OOpen 1974; OItem 44.5%Q 1; OClose; OEnd], None) /\
  script [mkentry 1973 12 1 44.4%Q; mkentry 1974 2 1 44.5%Q] = ([OHeader 1973 12; OOpen 1973; OItem 44.4%Q 12; OClose; OOpen 1974], Some AssertionError).
Proof.
  split; [|split; reflexivity]. split; [discriminate|]. split; [repeat constructor; cbn; lia|]. split; [repeat constructor|]. cbn. split; [reflexivity|exact I].
Qed.

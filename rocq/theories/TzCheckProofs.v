(* tzinfo_check.py: the decorator. *)
From Coq Require Import Lia.
From Verif Require Import Py Cal TzCheck GenProofs SpecDt.
Local Open Scope Z_scope.

Lemma str_index_spec k l : NoDup l ->
  match str_index k l with
  | Some i => nth_error l i = Some k /\ forall j, nth_error l j = Some k -> j = i
  | None => ~ In k l
  end.
Proof.
  induction l as [|k' l IH]; intros ND; cbn [str_index]. { intros []. }
  inversion ND; subst. specialize (IH H2). destruct (String.eqb_spec k k') as [->|Hk].
  - split; [reflexivity|]. intros [|j]; [reflexivity|]. cbn [nth_error]. intros E. apply nth_error_In in E. contradiction.
  - destruct (str_index k l) as [i|].
    + destruct IH as [IH1 IH2]. split; [exact IH1|]. intros [|j]; cbn [nth_error]; intros E; [congruence|]. f_equal. auto.
    + intros [E|E]; [congruence|contradiction].
Qed.

Lemma str_in_spec k l : NoDup l -> str_in k l = true <-> In k l.
Proof.
  intros ND. unfold str_in. pose proof (str_index_spec k l ND) as H. destruct (str_index k l) as [i|].
  - destruct H as [H _]. apply nth_error_In in H. tauto.
  - split; [discriminate|contradiction].
Qed.

Lemma arg_value_spec spec args kw name v : NoDup (as_args spec) ->
  binds spec args kw name v -> arg_value spec name args kw = Ok v.
Proof.
  intros ND B. unfold arg_value. pose proof (str_index_spec name (as_args spec) ND) as H.
  destruct (str_index name (as_args spec)) as [i|].
  - destruct H as [H1 H2]. destruct B as [j Hj Hv|Hl Hk].
    + assert (j = i) as -> by auto. now rewrite Hv.
    + specialize (Hl i H1). apply nth_error_None in Hl. now rewrite Hl, Hk.
  - destruct B as [j Hj Hv|Hl Hk]; [apply nth_error_In in Hj; contradiction|]. now rewrite Hk.
Qed.

Lemma check_value_ok name v : acceptable v -> check_value name v = Ok tt.
Proof. destruct v; unfold check_value, acceptable; simpl; try tauto. destruct (dt_tz d); tauto. Qed.
Lemma check_value_err name v : ~ acceptable v -> check_value name v = Err (rejection name v).
Proof. destruct v; unfold check_value, acceptable; simpl; try tauto. destruct (dt_tz d); [|reflexivity]. intros H. exfalso. apply H. discriminate. Qed.

Lemma check_args_pre spec args kw pre rest : wf_spec spec -> all_acceptable spec args kw pre ->
  check_args spec (pre ++ rest) args kw = check_args spec rest args kw.
Proof.
  intros W H. induction pre as [|n pre IH]; [reflexivity|]. cbn [app check_args].
  destruct (str_in n (as_args spec) || str_in n (as_kwonly spec)) eqn:E.
  - assert (P : is_parameter spec n).
    { apply orb_true_iff in E. unfold is_parameter. rewrite <- !str_in_spec by apply W. exact E. }
    destruct (H n (or_introl eq_refl) P) as (v & B & A).
    rewrite (arg_value_spec _ _ _ _ _ (proj1 W) B). cbn [bind]. rewrite check_value_ok by assumption. cbn [bind].
    apply IH. intros m Hm. apply H. right; exact Hm.
  - cbn [bind]. apply IH. intros m Hm. apply H. right; exact Hm.
Qed.

Lemma decorator_transparent names spec {A} (func : list pyval -> kwdict -> res A) args kw :
  wf_spec spec -> all_acceptable spec args kw names ->
  check_aware_dt names spec func args kw = func args kw.
Proof.
  intros W H. unfold check_aware_dt. rewrite <- (app_nil_r names). rewrite check_args_pre by assumption. reflexivity.
Qed.

Lemma decorator_sound pre name post spec {A} (func : list pyval -> kwdict -> res A) args kw v :
  wf_spec spec -> all_acceptable spec args kw pre -> is_parameter spec name ->
  binds spec args kw name v -> ~ acceptable v ->
  check_aware_dt (pre ++ name :: post) spec func args kw = Err (rejection name v).
Proof.
  intros W H P B NA. unfold check_aware_dt. rewrite check_args_pre by assumption. cbn [check_args].
  assert (E : str_in name (as_args spec) || str_in name (as_kwonly spec) = true).
  { apply orb_true_iff. rewrite !str_in_spec by apply W. exact P. }
  rewrite E, (arg_value_spec _ _ _ _ _ (proj1 W) B). cbn [bind]. rewrite check_value_err by assumption. reflexivity.
Qed.

(* the model's shorthand [aware] is the decorator *)
Lemma check_aware_dt_when spec {A} (func : list pyval -> kwdict -> res A) args kw d :
  wf_spec spec -> is_parameter spec "when" -> binds spec args kw "when" (VDatetime d) ->
  check_aware_dt ["when"%string] spec func args kw = (aware d ;; func args kw).
Proof.
  intros W P B. unfold aware. destruct (dt_tz d) as [tz|] eqn:E.
  - apply decorator_transparent; [assumption|]. intros n [<-|[]] _. exists (VDatetime d). split; [assumption|]. simpl. congruence.
  - apply (decorator_sound [] "when" [] spec func args kw (VDatetime d)); auto.
    intros n [].
Qed.

(* two further behaviours, not part of the documentation *)
Lemma decorator_missing_argument spec {A} (func : list pyval -> kwdict -> res A) name post :
  wf_spec spec -> is_parameter spec name ->
  check_aware_dt (name :: post) spec func [] [] = Err (KeyError name).
Proof.
  intros W P. unfold check_aware_dt. cbn [check_args].
  assert (E : str_in name (as_args spec) || str_in name (as_kwonly spec) = true).
  { apply orb_true_iff. rewrite !str_in_spec by apply W. exact P. }
  rewrite E. unfold arg_value. destruct (str_index name (as_args spec)) as [[|i]|]; reflexivity.
Qed.

Lemma decorator_correct names spec (A : Type) (func : list pyval -> kwdict -> res A) args kw :
  wf_spec spec ->
  (all_acceptable spec args kw names -> check_aware_dt names spec func args kw = func args kw) /\
  (forall pre name post v, names = (pre ++ name :: post)%list -> all_acceptable spec args kw pre ->
     is_parameter spec name -> binds spec args kw name v -> ~ acceptable v ->
     check_aware_dt names spec func args kw = Err (rejection name v)).
Proof.
  intros W. split; [now apply decorator_transparent|].
  intros pre name post v -> H P B NA. now apply decorator_sound.
Qed.

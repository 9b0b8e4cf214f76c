(* numeric.py: switching back ends. *)
From Verif Require Import Py Numeric SpecDt.
Local Open Scope string_scope.

(* the three namespaces that ever occur *)
Definition ns_math_pure := initial.
Definition ns_numpy := use_numpy initial.
Definition ns_math_after := use_math (use_numpy initial).

Lemma step_numpy ns : In ns [ns_math_pure; ns_numpy; ns_math_after] -> use_numpy ns = ns_numpy.
Proof. simpl. intros [<-|[<-|[<-|[]]]]; vm_compute; reflexivity. Qed.
Lemma step_math ns : In ns [ns_math_pure; ns_numpy; ns_math_after] ->
  use_math ns = (if match ns_get "where" ns with Some (m, _) => String.eqb m "numpy" | None => false end
                 then ns_math_after else ns_math_pure).
Proof. simpl. intros [<-|[<-|[<-|[]]]]; vm_compute; reflexivity. Qed.

Lemma history_states b h : 
  run_history b h = match last_switch b h with
                    | UseNumpy => ns_numpy
                    | UseMath => if b || existsb (fun s => match s with UseNumpy => true | UseMath => false end) h
                                 then ns_math_after else ns_math_pure
                    end.
Proof.
  unfold run_history, last_switch.
  induction h as [|s h IH] using rev_ind.
  - destruct b; vm_compute; reflexivity.
  - rewrite fold_left_app. cbn [fold_left]. rewrite IH, last_last, existsb_app.
    destruct s; cbn [apply_switch existsb].
    + destruct (last h _); [apply step_numpy|]; simpl; auto. destruct (_ || _); apply step_numpy; simpl; auto.
    + rewrite !orb_false_r.
      destruct (last h (if b then UseNumpy else UseMath)) eqn:E.
      * replace (b || existsb _ h) with true; [vm_compute; reflexivity|].
        symmetry. apply orb_true_iff. destruct h as [|s0 h0] using rev_ind; [destruct b; auto; discriminate|].
        rewrite last_last in E. subst. right. rewrite existsb_app. simpl. apply orb_true_r.
      * destruct (b || _); vm_compute; reflexivity.
Qed.

(* every name except `where` follows the last switch, whatever happened before *)
Lemma switch_names b h name : In name names -> name <> "where" ->
  ns_get name (run_history b h) = expected (last_switch b h) name.
Proof.
  intros Hin Hw. rewrite history_states.
  destruct (last_switch b h); [|destruct (b || _)];
    simpl in Hin; repeat destruct Hin as [<-|Hin]; try contradiction; try congruence; vm_compute; reflexivity.
Qed.

(* `where` follows it too, except that once numpy has been selected it stays numpy's *)
Lemma switch_where b h :
  ns_get "where" (run_history b h) =
    if b || existsb (fun s => match s with UseNumpy => true | UseMath => false end) h
    then Some ("numpy", "where") else Some ("pysolar", "where_math").
Proof.
  rewrite history_states. destruct (last_switch b h) eqn:E.
  - replace (b || existsb _ h) with true; [vm_compute; reflexivity|].
    symmetry. apply orb_true_iff. unfold last_switch in E. destruct h as [|s0 h0 _] using rev_ind; [destruct b; auto; discriminate|].
    rewrite last_last in E. subst. right. rewrite existsb_app. simpl. apply orb_true_r.
  - destruct (b || _); vm_compute; reflexivity.
Qed.

Lemma existsb_numpy h : existsb (fun s => match s with UseNumpy => true | UseMath => false end) h = true <-> In UseNumpy h.
Proof.
  rewrite existsb_exists. split.
  - intros ([|] & H & E); [assumption|discriminate].
  - intros H. exists UseNumpy. auto.
Qed.

Lemma switch_history_partial b h :
  (forall name, In name names -> name <> "where"%string ->
     ns_get name (run_history b h) = expected (last_switch b h) name) /\
  (ns_get "where" (run_history b h) = Some ("numpy", "where")%string <->
     b = true \/ In UseNumpy h) /\
  (ns_get "where" (run_history b h) = Some ("pysolar", "where_math")%string <->
     b = false /\ ~ In UseNumpy h).
Proof.
  split; [intros; now apply switch_names|]. rewrite switch_where, <- existsb_numpy.
  destruct b, (existsb _ h); simpl; intuition congruence.
Qed.

Lemma switch_history_refuted :
  ~ (forall b h name, In name names -> ns_get name (run_history b h) = expected (last_switch b h) name).
Proof.
  intros H. specialize (H true [UseMath] "where"%string ltac:(simpl; tauto)). vm_compute in H. discriminate.
Qed.

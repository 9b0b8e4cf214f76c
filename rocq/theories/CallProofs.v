(* Calls through the parameter lists (Call.v). *)
From Coq Require Import Lia Permutation.
From Verif Require Import Py Cal TzCheck Call Sigs SpecDt TzCheckProofs SpecCall.

Definition param_eqb (a b : string * bool) : bool := String.eqb (fst a) (fst b) && Bool.eqb (snd a) (snd b).
Fixpoint params_eqb (a b : params) : bool :=
  match a, b with
  | [], [] => true
  | x :: a, y :: b => param_eqb x y && params_eqb a b
  | _, _ => false
  end.
Lemma param_eqb_eq a b : param_eqb a b = true <-> a = b.
Proof.
  destruct a as [n d], b as [n' d']. unfold param_eqb. cbn. rewrite andb_true_iff, String.eqb_eq, Bool.eqb_true_iff.
  split; [intros [-> ->]|intros [= -> ->]]; auto.
Qed.
Lemma params_eqb_eq a b : params_eqb a b = true -> a = b.
Proof.
  revert b. induction a as [|x a IH]; intros [|y b]; cbn; try easy. rewrite andb_true_iff, param_eqb_eq. intros [-> H]. f_equal; auto.
Qed.

Lemma assoc_In {A} k (l : list (string * A)) a : assoc k l = Some a -> In (k, a) l.
Proof.
  induction l as [|[k' a'] l IH]; cbn; [easy|]. destruct (String.eqb_spec k k') as [->|]; [intros [= ->]; now left|right; auto].
Qed.

Definition differing : list string :=
  ["solar.get_apparent_sidereal_time"; "util.extraterrestrial_irrad"; "util.direct_underclear"; "util.global_irradiance_clear"; "util.clear_index"]%string.

Lemma stub_table : forallb (fun '(f, ps) => str_in f differing ||
   match impl_of f with Some (ps', _) => params_eqb ps ps' | None => false end) stub_sigs = true.
Proof. vm_compute. reflexivity. Qed.

Lemma str_in_In k l : str_in k l = true -> In k l.
Proof.
  unfold str_in. induction l as [|x l IH]; cbn; [easy|]. destruct (String.eqb_spec k x) as [->|]; [now left|].
  destruct (str_index k l); [intros _; right; auto|easy].
Qed.

Lemma stubs_correct f : ~ In f differing -> stub_correct f.
Proof.
  intros Hn ps Hs. apply assoc_In in Hs. pose proof stub_table as T. rewrite forallb_forall in T. specialize (T _ Hs). cbn beta iota in T.
  apply orb_true_iff in T as [T|T]; [apply str_in_In in T; contradiction|].
  destruct (impl_of f) as [[ps' dec]|]; [|easy]. apply params_eqb_eq in T as ->.
  exists ps', dec. split; [reflexivity|]. intros args kw. reflexivity.
Qed.

(* ---------------------------------------------------------------- keyword calls *)
Lemma bind_rest_err ps kw e : bind_rest ps kw = Err e -> e = TypeError.
Proof.
  induction ps as [|[n d] ps IH]; cbn; [easy|]. destruct (kw_get n kw) as [v|]; cbn.
  - destruct (bind_rest ps kw); cbn; [easy|]. intros [= ->]. auto.
  - destruct d; cbn; [|congruence]. destruct (bind_rest ps kw); cbn; [easy|]. intros [= ->]. auto.
Qed.
Definition supplied (kw : kwdict) (p : string * bool) : bool :=
  match kw_get (fst p) kw with Some _ => true | None => snd p end.
Definition value (kw : kwdict) (p : string * bool) : string * bound :=
  (fst p, match kw_get (fst p) kw with Some v => Passed v | None => Default end).
Lemma bind_rest_char ps kw : bind_rest ps kw = if forallb (supplied kw) ps then Ok (map (value kw) ps) else Err TypeError.
Proof.
  induction ps as [|[n d] ps IH]; cbn; [reflexivity|]. unfold supplied at 1, value at 1. cbn. rewrite IH.
  destruct (kw_get n kw); cbn; [destruct (forallb _ ps); reflexivity|].
  destruct d; cbn; [destruct (forallb _ ps); reflexivity|reflexivity].
Qed.
Lemma assoc_value n ps kw : assoc n (map (value kw) ps) =
  if str_in n (param_names ps) then Some (match kw_get n kw with Some v => Passed v | None => Default end) else None.
Proof.
  unfold str_in. induction ps as [|[m d] ps IH]; cbn; [reflexivity|]. destruct (String.eqb_spec n m) as [->|]; [reflexivity|].
  unfold param_names in IH. rewrite IH. destruct (str_index n (map fst ps)); reflexivity.
Qed.
Lemma In_str_in k l : In k l -> str_in k l = true.
Proof.
  unfold str_in. induction l as [|x l IH]; cbn; [easy|]. destruct (String.eqb_spec k x) as [->|N]; [reflexivity|].
  intros [E|H]; [congruence|]. specialize (IH H). destruct (str_index k l); [reflexivity|easy].
Qed.
Lemma str_in_perm k l l' : (forall x, In x l <-> In x l') -> str_in k l = str_in k l'.
Proof.
  intros P. destruct (str_in k l) eqn:E, (str_in k l') eqn:E'; try reflexivity.
  - apply str_in_In, P, In_str_in in E. congruence.
  - apply str_in_In, P, In_str_in in E'. congruence.
Qed.
Lemma forallb_same {A} (f : A -> bool) l l' : (forall x, In x l <-> In x l') -> forallb f l = forallb f l'.
Proof.
  intros P. destruct (forallb f l) eqn:E, (forallb f l') eqn:E'; try reflexivity.
  - rewrite forallb_forall in E. assert (forallb f l' = true); [|congruence]. apply forallb_forall. intros x H. apply E, P, H.
  - rewrite forallb_forall in E'. assert (forallb f l = true); [|congruence]. apply forallb_forall. intros x H. apply E', P, H.
Qed.
Lemma keywords_same ps ps' : (forall p, In p ps <-> In p ps') -> keywords_alike ps ps'.
Proof.
  intros P kw. unfold bind_call. cbn.
  assert (PN : forall x, In x (param_names ps) <-> In x (param_names ps')).
  { intros x. unfold param_names. rewrite !in_map_iff. split; intros (p & E & H); exists p; split; auto; now apply P. }
  replace (forallb (fun k => str_in k (param_names ps')) (map fst kw)) with (forallb (fun k => str_in k (param_names ps)) (map fst kw)).
  2:{ induction (map fst kw) as [|k l IH]; cbn; [reflexivity|]. rewrite IH, (str_in_perm k _ _ PN). reflexivity. }
  destruct (forallb (fun k => str_in k (param_names ps)) (map fst kw)); [|reflexivity].
  assert (B : forall ps, bind_args ps [] kw = bind_rest ps kw) by (intros []; reflexivity). rewrite !B, !bind_rest_char.
  rewrite (forallb_same (supplied kw) ps ps' P). destruct (forallb (supplied kw) ps'); [|reflexivity].
  intros n. rewrite !assoc_value, (str_in_perm n _ _ PN). reflexivity.
Qed.

Definition incl_b (a b : params) : bool := forallb (fun p => existsb (param_eqb p) b) a.
Lemma incl_b_spec a b : incl_b a b = true -> forall p, In p a -> In p b.
Proof.
  unfold incl_b. rewrite forallb_forall. intros H p Hp. apply H in Hp. apply existsb_exists in Hp as (q & Hq & E).
  apply param_eqb_eq in E as ->. exact Hq.
Qed.
Lemma stub_table_keywords : forallb (fun '(f, ps) => str_in f ["solar.get_apparent_sidereal_time"; "util.global_irradiance_clear"]%string ||
   match impl_of f with Some (ps', _) => incl_b ps ps' && incl_b ps' ps | None => false end) stub_sigs = true.
Proof. vm_compute. reflexivity. Qed.
Lemma stubs_keywords f ps : ~ In f ["solar.get_apparent_sidereal_time"; "util.global_irradiance_clear"]%string -> stub_of f = Some ps ->
  exists ps' dec, impl_of f = Some (ps', dec) /\ keywords_alike ps ps'.
Proof.
  intros Hn Hs. apply assoc_In in Hs. pose proof stub_table_keywords as T. rewrite forallb_forall in T. specialize (T _ Hs). cbn beta iota in T.
  apply orb_true_iff in T as [T|T]; [apply str_in_In in T; contradiction|].
  destruct (impl_of f) as [[ps' dec]|]; [|easy]. apply andb_true_iff in T as [T1 T2].
  exists ps', dec. split; [reflexivity|]. apply keywords_same. intros p. split; now apply incl_b_spec.
Qed.

(* ---------------------------------------------------------------- the stubs that are wrong *)
Lemma stub_irrad_wrong A (body : _ -> res A) d a b : call "util.extraterrestrial_irrad" body [VDatetime d; VOther a; VOther b] [] = Err ValueError.
Proof. reflexivity. Qed.
Lemma stub_index_wrong A (body : _ -> res A) d g a b : call "util.clear_index" body [VOther g; VDatetime d; VOther a; VOther b] [] = Err ValueError.
Proof. reflexivity. Qed.
Lemma stub_global_wrong A (body : _ -> res A) d x y a b :
  call "util.global_irradiance_clear" body [VOther x; VOther y; VOther a; VOther b; VDatetime d] [] = Err ValueError /\
  (dt_tz d <> None -> call "util.global_irradiance_clear" body []
     [("DIRC", VOther x); ("DIFFC", VOther y); ("latitude_deg", VOther a); ("longitude_deg", VOther b); ("when", VDatetime d)]%string = Err TypeError).
Proof.
  split; [reflexivity|]. intros H. unfold call. cbn. unfold check_aware_dt, check_args, arg_value, check_value. cbn.
  destruct (dt_tz d); [reflexivity|congruence].
Qed.
Lemma stub_direct_wrong ps d a b t p : stub_of "util.direct_underclear" = Some ps ->
  (exists r, bind_call ps [VOther a; VOther b; VDatetime d; VOther t; VOther p] [] = Ok r /\
     assoc "temperature" r = Some (Passed (VOther t)) /\ assoc "TY" r = Some Default) /\
  (exists ps' dec r, impl_of "util.direct_underclear" = Some (ps', dec) /\
     bind_call ps' [VOther a; VOther b; VDatetime d; VOther t; VOther p] [] = Ok r /\
     assoc "TY" r = Some (Passed (VOther t)) /\ assoc "AM" r = Some (Passed (VOther p)) /\ assoc "temperature" r = Some Default).
Proof.
  intros H. vm_compute in H. injection H as <-. split; [eexists; split; [reflexivity|split; reflexivity]|].
  do 3 eexists. split; [reflexivity|]. split; [reflexivity|]. repeat split.
Qed.

(* ---------------------------------------------------------------- every function taking `when` *)
Definition undecorated : list string := ["solar.get_azimuth_fast"; "radiation.get_radiation_direct"]%string.
Fixpoint nodup_b (l : list string) : bool := match l with [] => true | x :: l => negb (str_in x l) && nodup_b l end.
Lemma nodup_b_spec l : nodup_b l = true -> NoDup l.
Proof.
  induction l as [|x l IH]; cbn; [constructor|]. rewrite andb_true_iff, negb_true_iff. intros [H1 H2].
  constructor; [intros H; apply In_str_in in H; congruence|auto].
Qed.
Lemma when_table : forallb (fun '(f, ps, dec) => nodup_b (param_names ps) &&
   (negb (str_in "when" (param_names ps)) || str_in f undecorated || match dec with Some [s] => String.eqb s "when" | _ => false end)) impl_sigs = true.
Proof. vm_compute. reflexivity. Qed.

Lemma when_checked f ps dec : impl_of f = Some (ps, dec) -> In "when"%string (param_names ps) -> ~ In f undecorated ->
  forall A (body : _ -> res A) args kw v, binds {| as_args := param_names ps; as_kwonly := [] |} args kw "when" v ->
  (acceptable v -> call f body args kw = (b <- bind_call ps args kw ;; body b)) /\
  (~ acceptable v -> call f body args kw = Err (rejection "when" v)).
Proof.
  intros Hf Hw Hu A body args kw v Hb. unfold call. rewrite Hf. unfold impl_of in Hf. apply assoc_In in Hf.
  apply in_map_iff in Hf as ([[f' ps'] dec'] & [= -> -> ->] & Hi). pose proof when_table as T. rewrite forallb_forall in T.
  specialize (T _ Hi). cbn beta iota in T. apply andb_true_iff in T as [TN T]. apply nodup_b_spec in TN. pose proof Hw as Hw'. apply In_str_in in Hw. rewrite Hw in T. cbn in T.
  apply orb_true_iff in T as [T|T]; [apply (str_in_In f undecorated) in T; contradiction|].
  destruct dec as [[|s [|s' l]]|]; try easy. apply String.eqb_eq in T as ->.
  assert (W : wf_spec {| as_args := param_names ps; as_kwonly := [] |}) by (split; [exact TN|constructor]).
  split; intros Ha.
  - apply (decorator_transparent ["when"%string]); [exact W|]. intros n [<-|[]] _. now exists v.
  - apply (decorator_sound [] "when" []); try assumption; [intros n []|now left].
Qed.

Lemma azimuth_fast_calls : impl_of "solar.get_azimuth_fast" = Some ([("latitude_deg", false); ("longitude_deg", false); ("when", false)]%string, None) /\
  impl_of "radiation.get_radiation_direct" = Some ([("when", false); ("altitude_deg", false)]%string, None).
Proof. split; reflexivity. Qed.

Lemma stub_calls (A : Type) (body : list (string * bound) -> res A) d g x y a b :
  call "util.extraterrestrial_irrad" body [VDatetime d; VOther a; VOther b] [] = Err ValueError /\
  call "util.clear_index" body [VOther g; VDatetime d; VOther a; VOther b] [] = Err ValueError /\
  call "util.global_irradiance_clear" body [VOther x; VOther y; VOther a; VOther b; VDatetime d] [] = Err ValueError /\
  (dt_tz d <> None -> call "util.global_irradiance_clear" body []
     [("DIRC", VOther x); ("DIFFC", VOther y); ("latitude_deg", VOther a); ("longitude_deg", VOther b); ("when", VDatetime d)]%string = Err TypeError) /\
  call "solar.get_apparent_sidereal_time" body [] [("jd", VOther a); ("jme", VOther b); ("nutation_float", VOther x)]%string = Err TypeError.
Proof.
  split; [apply stub_irrad_wrong|]. split; [apply stub_index_wrong|]. split; [apply stub_global_wrong|].
  split; [apply (stub_global_wrong A body d x y a b)|reflexivity].
Qed.

(* ---- the binding rule *)
Lemma kw_get_none n kw : kw_get n kw = None <-> ~ In n (map fst kw).
Proof.
  induction kw as [|[k v] kw IH]; cbn; [tauto|]. destruct (String.eqb_spec n k) as [->|H]; [split; [discriminate|intros []; now left]|].
  rewrite IH. split; [intros A [E|E]; congruence|tauto].
Qed.
Lemma bind_args_char args : forall ps kw, bind_args ps args kw =
  if (List.length args <=? List.length ps)%nat && forallb (fun p => match kw_get (fst p) kw with None => true | _ => false end) (firstn (List.length args) ps) && forallb (supplied kw) (skipn (List.length args) ps)
  then Ok (combine (map fst (firstn (List.length args) ps)) (map Passed args) ++ map (value kw) (skipn (List.length args) ps)) else Err TypeError.
Proof.
  induction args as [|v args IH]; intros ps kw.
  - destruct ps as [|p ps]; [reflexivity|]. exact (bind_rest_char (p :: ps) kw).
  - destruct ps as [|[n d] ps]; [reflexivity|]. cbn [bind_args List.length Nat.leb firstn skipn forallb fst map combine app].
    destruct (kw_get n kw); [now rewrite andb_false_r|]. rewrite IH. destruct (_ && _ && _); reflexivity.
Qed.
Lemma skipn_in {A} k (l : list A) x : In x (skipn k l) -> In x l.
Proof. revert l. induction k; intros [|a l]; cbn; auto. Qed.
Lemma firstn_skipn_disjoint {A B} (f : A -> B) k (l : list A) b : NoDup (map f l) -> In b (map f (firstn k l)) -> In b (map f (skipn k l)) -> False.
Proof.
  intros H H1 H2. rewrite <- (firstn_skipn k l), map_app in H. revert H1 H2 H. generalize (map f (firstn k l)), (map f (skipn k l)). clear.
  intros l1 l2 H1 H2 H. induction l1 as [|a l1 IH]; [exact H1|]. cbn in H. inversion H; subst. destruct H1 as [->|H1]; [|auto]. apply H4. apply in_or_app. auto.
Qed.
Lemma fst_value kw l : map fst (map (value kw) l) = map fst l.
Proof. rewrite map_map. reflexivity. Qed.
Lemma combine_fst {A B} (a : list A) (b : list B) : List.length a = List.length b -> map fst (combine a b) = a.
Proof. revert b. induction a; intros [|y b] H; cbn in *; try discriminate; [reflexivity|]. f_equal. apply IHa. lia. Qed.
Lemma combine_snd {A B} (a : list A) (b : list B) : List.length a = List.length b -> map snd (combine a b) = b.
Proof. revert b. induction a; intros [|y b] H; cbn in *; try discriminate; [reflexivity|]. f_equal. apply IHa. lia. Qed.
Lemma combine_eta {A B} (l : list (A * B)) a b : map fst l = a -> map snd l = b -> l = combine a b.
Proof. intros <- <-. induction l as [|[x y] l IH]; cbn; congruence. Qed.
Lemma value_unique kw (l : params) (r : list (string * bound)) : map fst r = map fst l ->
  (forall n b, In (n, b) r -> match b with Passed v => kw_get n kw = Some v | Default => ~ In n (map fst kw) end) -> r = map (value kw) l.
Proof.
  revert l. induction r as [|[n b] r IH]; intros [|[m d] l] E H; cbn in *; try discriminate; [reflexivity|]. injection E as <- E.
  f_equal; [|apply IH; [exact E|intros n' b' Hb; exact (H n' b' (or_intror Hb))]]. unfold value. cbn. f_equal. specialize (H n b (or_introl eq_refl)). destruct b as [v|]; [now rewrite H|].
  apply kw_get_none in H. now rewrite H.
Qed.
Definition kw_free (kw : kwdict) (p : string * bool) : bool := match kw_get (fst p) kw with None => true | _ => false end.
Lemma bind_call_rule ps args kw : NoDup (map fst ps) ->
  (forall r, bind_call ps args kw = Ok r <-> call_binds ps args kw r) /\ (forall e, bind_call ps args kw = Err e -> e = TypeError).
Proof.
  intros ND. unfold bind_call. split.
  2:{ intros e. rewrite bind_args_char. destruct (forallb _ (map fst kw)); [|congruence]. destruct (_ && _ && _); congruence. }
  intros r. rewrite bind_args_char. change (fun p : string * bool => match kw_get (fst p) kw with Some _ => false | None => true end) with (kw_free kw).
  destruct (forallb (fun k => str_in k (param_names ps)) (map fst kw)) eqn:K.
  - destruct (Nat.leb_spec (List.length args) (List.length ps)) as [LE|LE]; cbn [andb].
    2:{ split; [discriminate|]. intros (H & _). lia. }
    assert (LF : List.length (map fst (firstn (List.length args) ps)) = List.length (map Passed args)) by (rewrite !map_length, firstn_length; lia).
    destruct (forallb (kw_free kw) (firstn (List.length args) ps)) eqn:F; cbn [andb].
    + destruct (forallb (supplied kw) (skipn (List.length args) ps)) eqn:S.
      * rewrite forallb_forall in K, F, S. split.
        -- intros [= <-]. split; [exact LE|]. split; [|split].
           ++ intros k Hk. specialize (K k Hk). apply str_in_In in K. unfold param_names in K. rewrite <- (firstn_skipn (List.length args) ps), map_app in K.
              apply in_app_or in K as [K|K]; [exfalso|exact K]. apply in_map_iff in K as (p & <- & Hp). specialize (F p Hp). unfold kw_free in F.
              destruct (kw_get (fst p) kw) eqn:G; [discriminate|]. now apply kw_get_none in G.
           ++ intros n Hn. specialize (S _ Hn). unfold supplied in S. cbn in S. destruct (in_dec string_dec n (map fst kw)) as [I|I]; [exact I|].
              apply kw_get_none in I. rewrite I in S. discriminate.
           ++ exists (combine (map fst (firstn (List.length args) ps)) (map Passed args)), (map (value kw) (skipn (List.length args) ps)).
              split; [reflexivity|]. split; [now apply combine_fst|]. split; [now apply combine_snd|]. split; [apply fst_value|].
              intros n b Hb. apply in_map_iff in Hb as (p & E & _). injection E as <- <-. destruct (kw_get (fst p) kw) eqn:G; [reflexivity|]. now apply kw_get_none.
        -- intros (_ & _ & _ & r1 & r2 & -> & E1 & E2 & E3 & E4). f_equal. f_equal; [symmetry; now apply combine_eta|symmetry; now apply value_unique].
      * split; [discriminate|]. intros (_ & _ & H & _). exfalso. rewrite <- not_true_iff_false in S. apply S. apply forallb_forall. intros [n d] Hp. unfold supplied. cbn.
        destruct d; [now destruct (kw_get n kw)|]. specialize (H n Hp). destruct (kw_get n kw) eqn:G; [reflexivity|]. now apply kw_get_none in G.
    + split; [discriminate|]. intros (_ & H & _). exfalso. rewrite <- not_true_iff_false in F. apply F. apply forallb_forall. intros p Hp. unfold kw_free.
      destruct (kw_get (fst p) kw) eqn:G; [exfalso|reflexivity]. apply (firstn_skipn_disjoint fst (List.length args) ps (fst p) ND).
      * now apply in_map.
      * apply H. destruct (in_dec string_dec (fst p) (map fst kw)) as [I|I]; [exact I|]. apply kw_get_none in I. congruence.
  - split; [discriminate|]. intros (_ & H & _). exfalso. rewrite <- not_true_iff_false in K. apply K. apply forallb_forall. intros k Hk.
    apply In_str_in. specialize (H k Hk). unfold param_names. apply in_map_iff in H as (p & <- & Hp). apply in_map. now apply skipn_in in Hp.
Qed.

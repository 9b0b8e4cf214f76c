(* Proofs about the log file of test/query_usno.py. *)
From Coq Require Import String Ascii ZArith List Lia Bool.
From Flocq Require Import IEEE754.BinarySingleNaN.
From Verif Require Import Py Num Cal CalProofs B64 Script ScriptText SpecPyText ScriptTextProofs ScriptTextMore UsnoLog SpecUsno.
Import ListNotations.
Local Open Scope string_scope.
Local Open Scope char_scope.
Local Open Scope list_scope.
Local Open Scope Z_scope.

Definition first {A} (p : parser A) (s : text) (a : A) (r : text) : Prop := exists l, p s = (a, r) :: l.
Lemma first_bind {A B} (p : parser A) (q : A -> parser B) s a r b r' : first p s a r -> first (q a) r b r' -> first (pbind p q) s b r'.
Proof. intros (l & E) (l' & E'). unfold first, pbind. rewrite E. cbn [flat_map fst snd]. rewrite E'. cbn. eauto. Qed.
Lemma first_l {A} (p q : parser A) s a r : first p s a r -> first (palt p q) s a r.
Proof. intros (l & E). unfold first, palt. rewrite E. cbn. eauto. Qed.
Lemma first_r {A} (p q : parser A) s a r : p s = [] -> first q s a r -> first (palt p q) s a r.
Proof. intros E F. unfold first, palt. now rewrite E. Qed.
Lemma first_ret {A} (a : A) s : first (pret a) s a s.
Proof. now exists []. Qed.

Lemma p1_digit lo hi v r : 0 <= v <= 9 -> p1 lo hi (digit_char v :: r) = if (lo <=? v) && (v <=? hi) then [(v, r)] else [].
Proof. intros H. destruct (digit_char_digit v H) as (E1 & E2). unfold p1. now rewrite E1, E2. Qed.
Lemma p2_pad a b lo hi n r : 0 <= n <= 99 -> p2 a b lo hi (pad2 n ++ r) =
  if (a <=? n / 10) && (n / 10 <=? b) && ((lo <=? n mod 10) && (n mod 10 <=? hi)) then [(n, r)] else [].
Proof.
  intros H. unfold p2, pbind, pad2. cbn [app]. rewrite p1_digit by (split; [apply Z.div_pos; lia|enough (n / 10 < 10) by lia; apply Z.div_lt_upper_bound; lia]).
  destruct ((a <=? n / 10) && (n / 10 <=? b)); [|reflexivity]. cbn [flat_map fst snd app]. rewrite p1_digit by (pose proof (Z.mod_pos_bound n 10 ltac:(lia)); lia).
  destruct ((lo <=? n mod 10) && (n mod 10 <=? hi)); [|reflexivity]. change ([(10 * (n / 10) + n mod 10, r)] = [(n, r)]). rewrite <- Z.div_mod by lia. reflexivity.
Qed.
Ltac two n := pose proof (Z.div_mod n 10 ltac:(lia)); pose proof (Z.mod_pos_bound n 10 ltac:(lia)).
Ltac fits := eexists; rewrite p2_pad by lia;
  match goal with |- (if ?c then _ else _) = _ => replace c with true by (symmetry; rewrite !andb_true_iff, !Z.leb_le; lia) end; reflexivity.
Ltac misfits := rewrite p2_pad by lia;
  match goal with |- (if ?c then _ else _) = _ => replace c with false by (symmetry; rewrite !andb_false_iff, !Z.leb_gt; lia) end; reflexivity.

Lemma first_mon n r : 1 <= n <= 12 -> first p_mon (pad2 n ++ r) n r.
Proof. intros H. two n. unfold p_mon. destruct (Z_le_gt_dec 10 n); [apply first_l; fits|apply first_r; [misfits|apply first_l; fits]]. Qed.
Lemma first_day n r : 1 <= n <= 31 -> first p_day (pad2 n ++ r) n r.
Proof.
  intros H. two n. unfold p_day. destruct (Z_le_gt_dec 30 n); [apply first_l; fits|apply first_r; [misfits|]].
  destruct (Z_le_gt_dec 10 n); [apply first_l; fits|apply first_r; [misfits|apply first_l; fits]].
Qed.
Lemma first_hour n r : 0 <= n <= 23 -> first p_hour (pad2 n ++ r) n r.
Proof. intros H. two n. unfold p_hour. destruct (Z_le_gt_dec 20 n); [apply first_l; fits|apply first_r; [misfits|apply first_l; fits]]. Qed.
Lemma first_min n r : 0 <= n <= 59 -> first p_min (pad2 n ++ r) n r.
Proof. intros H. two n. unfold p_min. apply first_l; fits. Qed.
Lemma first_sec n r : 0 <= n <= 59 -> first p_sec (pad2 n ++ r) n r.
Proof. intros H. two n. unfold p_sec. apply first_r; [misfits|apply first_l; fits]. Qed.
Lemma first_year n r : 0 <= n <= 9999 -> first p_year (pad4 n ++ r) n r.
Proof.
  intros H. unfold p_year, pad4. rewrite <- app_assoc. pose proof (Z.div_mod n 100 ltac:(lia)). pose proof (Z.mod_pos_bound n 100 ltac:(lia)).
  eapply first_bind; [|eapply first_bind; [|]].
  - instantiate (1 := pad2 (n mod 100) ++ r). instantiate (1 := n / 100). two (n / 100). fits.
  - instantiate (1 := r). instantiate (1 := n mod 100). two (n mod 100). fits.
  - cbn beta. replace (100 * (n / 100) + n mod 100) with n by lia. apply first_ret.
Qed.
Lemma first_char c r : first (pchar c) (c :: r) tt r.
Proof. unfold first, pchar. rewrite Ascii.eqb_refl. eauto. Qed.
Lemma first_space n r : 0 <= n <= 99 -> first pspaces (" " :: pad2 n ++ r) tt (pad2 n ++ r).
Proof.
  intros H. two n. unfold first. cbn [pspaces]. change (is_space " ") with true. cbn iota. unfold pad2 at 1. cbn [app pspaces].
  assert (D : 0 <= n / 10 <= 9) by lia. assert (is_space (digit_char (n / 10)) = false) as ->; [|cbn; eauto].
  unfold is_space. rewrite (digit_char_code _ D). apply orb_false_iff. rewrite !andb_false_iff, !Z.leb_gt. lia.
Qed.

(* the fields of a moment of years 1 to 9999 *)
Lemma fields_bounds u : in_range u = true -> let f := fields_of_us u in
  1 <= f_year f <= 9999 /\ 1 <= f_mon f <= 12 /\ 1 <= f_day f <= 31 /\ f_day f <= days_in_month (is_leap (f_year f)) (f_mon f) /\ 0 <= f_hour f <= 23 /\ 0 <= f_min f <= 59 /\ 0 <= f_sec f <= 59 /\ 0 <= f_us f <= 999999.
Proof.
  intros H f. pose proof (fields_year_range u H). destruct (us_of_fields_inv u) as (_ & V). fold f in V, H0.
  destruct V as ((V1 & V2) & V3 & V4 & V5 & V6). assert (days_in_month (is_leap (f_year f)) (f_mon f) <= 31).
  { unfold days_in_month. repeat match goal with |- context [match ?x with _ => _ end] => destruct x end; lia. }
  lia.
Qed.

(* str of the first nineteen characters of a moment *)
Definition day_text (f : fields) : text := pad4 (f_year f) ++ "-" :: pad2 (f_mon f) ++ "-" :: pad2 (f_day f).
Definition clock_text (f : fields) : text := pad2 (f_hour f) ++ ":" :: pad2 (f_min f) ++ ":" :: pad2 (f_sec f).
Lemma first_time u r : in_range u = true -> let f := fields_of_us u in
  first p_time (day_text f ++ " " :: clock_text f ++ r) (mkfields (f_year f) (f_mon f) (f_day f) (f_hour f) (f_min f) (f_sec f) 0) r.
Proof.
  intros H f. destruct (fields_bounds u H) as (B1 & B2 & B3 & _ & B4 & B5 & B6 & _). fold f in B1, B2, B3, B4, B5, B6.
  unfold p_time, day_text, clock_text. repeat (rewrite <- !app_assoc; cbn [app]).
  eapply first_bind; [apply first_year; lia|]. eapply first_bind; [apply first_char|]. eapply first_bind; [apply first_mon; lia|]. eapply first_bind; [apply first_char|].
  eapply first_bind; [apply first_day; lia|]. eapply first_bind; [apply first_space; lia|].
  eapply first_bind; [apply first_hour; lia|]. eapply first_bind; [apply first_char|]. eapply first_bind; [apply first_min; lia|]. eapply first_bind; [apply first_char|].
  eapply first_bind; [apply first_sec; lia|]. apply first_ret.
Qed.
Lemma us_mod u : f_us (fields_of_us u) = u mod 1000000.
Proof.
  destruct (us_of_fields_inv u) as (U & (_ & _ & _ & _ & V)). rewrite <- U at 2. unfold us_of_fields, us_per_day. set (f := fields_of_us u) in *.
  replace ((ymd2ord (f_year f) (f_mon f) (f_day f) - 1) * (86400 * 1000000) + ((f_hour f * 60 + f_min f) * 60 + f_sec f) * 1000000 + f_us f)
    with (f_us f + ((ymd2ord (f_year f) (f_mon f) (f_day f) - 1) * 86400 + ((f_hour f * 60 + f_min f) * 60 + f_sec f)) * 1000000) by lia.
  rewrite Z_mod_plus_full, Z.mod_small; lia.
Qed.
Lemma no_fraction f : f_us f = 0 -> us_of_fields (mkfields (f_year f) (f_mon f) (f_day f) (f_hour f) (f_min f) (f_sec f) 0) = us_of_fields f.
Proof. destruct f as [y m d h mi s us]. cbn [f_us f_year f_mon f_day f_hour f_min f_sec]. intros ->. reflexivity. Qed.
Lemma strptime_ok u : in_range u = true -> u mod 1000000 = 0 -> let f := fields_of_us u in strptime_datetime (day_text f ++ " " :: clock_text f) = Ok u.
Proof.
  intros H Hs f. destruct (first_time u [] H) as (l & E). fold f in E. rewrite app_nil_r in E. unfold strptime_datetime. rewrite E. cbn [f_year f_mon f_day f_sec].
  destruct (fields_bounds u H) as (B1 & B2 & B3 & B4 & _ & _ & B6 & B7). fold f in B1, B2, B3, B4, B6, B7.
  replace ((1 <=? f_year f) && (f_day f <=? days_in_month (is_leap (f_year f)) (f_mon f)) && (f_sec f <=? 59)) with true by (symmetry; rewrite !andb_true_iff, !Z.leb_le; lia).
  f_equal. rewrite no_fraction; [apply us_of_fields_inv|]. unfold f. now rewrite us_mod.
Qed.
Lemma strptime_rest u c r : in_range u = true -> let f := fields_of_us u in strptime_datetime (day_text f ++ " " :: clock_text f ++ c :: r) = Err ValueError.
Proof. intros H f. destruct (first_time u (c :: r) H) as (l & E). fold f in E. unfold strptime_datetime. now rewrite E. Qed.

(* ---------------------------------------------------------------- lines *)
Definition without (x : ascii) (w : text) : Prop := forallb (fun c => negb (Ascii.eqb c x)) w = true.
Lemma without_app x a b : without x a -> without x b -> without x (a ++ b).
Proof. unfold without. intros A B. now rewrite forallb_app, A, B. Qed.
Lemma without_cons x c a : Ascii.eqb c x = false -> without x a -> without x (c :: a).
Proof. unfold without. intros A B. cbn [forallb]. now rewrite A, B. Qed.
Lemma solid_without x w : is_space x = true -> solid w -> without x w.
Proof.
  unfold solid, without. intros X H. rewrite forallb_forall in *. intros c Hc. specialize (H c Hc). destruct (Ascii.eqb_spec c x) as [->|]; [|reflexivity]. now rewrite X in H.
Qed.
Lemma split_on_app x w s : without x w -> split_on x (w ++ x :: s) = w :: split_on x s.
Proof.
  intros H. induction w as [|c w IH]; [cbn; now rewrite Ascii.eqb_refl|]. cbn in H. apply andb_prop in H as [H1 H2]. apply negb_true_iff in H1.
  cbn [app split_on]. now rewrite H1, (IH H2).
Qed.
Lemma split_on_none x w : without x w -> split_on x w = [w].
Proof. intros H. induction w as [|c w IH]; [reflexivity|]. cbn in H. apply andb_prop in H as [H1 H2]. apply negb_true_iff in H1. cbn [split_on]. now rewrite H1, (IH H2). Qed.
Lemma readlines_app w s : without nl w -> readlines (w ++ nl :: s) = (w ++ [nl]) :: readlines s.
Proof.
  intros H. induction w as [|c w IH]; [reflexivity|]. cbn in H. apply andb_prop in H as [H1 H2]. apply negb_true_iff in H1.
  cbn [app readlines]. now rewrite H1, (IH H2).
Qed.

Lemma digit_char_solid v : 0 <= v <= 9 -> is_space (digit_char v) = false.
Proof. intros D. unfold is_space. rewrite (digit_char_code _ D). apply orb_false_iff. rewrite !andb_false_iff, !Z.leb_gt. lia. Qed.
Lemma pad2_solid n : 0 <= n <= 99 -> solid (pad2 n).
Proof. intros H. two n. unfold solid, pad2. cbn [forallb]. now rewrite !digit_char_solid by lia. Qed.
Lemma solid_app a b : solid a -> solid b -> solid (a ++ b).
Proof. unfold solid. intros A B. now rewrite forallb_app, A, B. Qed.
Lemma solid_cons c a : is_space c = false -> solid a -> solid (c :: a).
Proof. unfold solid. intros A B. cbn [forallb]. now rewrite A, B. Qed.
Lemma pad4_solid n : 0 <= n <= 9999 -> solid (pad4 n).
Proof. intros H. pose proof (Z.div_mod n 100 ltac:(lia)). pose proof (Z.mod_pos_bound n 100 ltac:(lia)). unfold pad4. apply solid_app; apply pad2_solid; lia. Qed.
Lemma pad6_solid n : 0 <= n <= 999999 -> solid (pad6 n).
Proof. intros H. pose proof (Z.div_mod n 10000 ltac:(lia)). pose proof (Z.mod_pos_bound n 10000 ltac:(lia)). unfold pad6. apply solid_app; [apply pad2_solid|apply pad4_solid]; lia. Qed.
Lemma day_solid u : in_range u = true -> solid (day_text (fields_of_us u)).
Proof.
  intros H. destruct (fields_bounds u H) as (B1 & B2 & B3 & _). unfold day_text.
  apply solid_app; [apply pad4_solid; lia|]. apply solid_cons; [reflexivity|]. apply solid_app; [apply pad2_solid; lia|]. apply solid_cons; [reflexivity|]. apply pad2_solid; lia.
Qed.
Lemma clock_solid u : in_range u = true -> solid (clock_text (fields_of_us u)).
Proof.
  intros H. destruct (fields_bounds u H) as (_ & _ & _ & _ & B4 & B5 & B6 & _). unfold clock_text.
  apply solid_app; [apply pad2_solid; lia|]. apply solid_cons; [reflexivity|]. apply solid_app; [apply pad2_solid; lia|]. apply solid_cons; [reflexivity|]. apply pad2_solid; lia.
Qed.
Lemma offset_solid o : Z.abs o < us_per_day -> solid (offset_text (Some o)).
Proof.
  unfold us_per_day. intros H. unfold offset_text. set (a := Z.abs o) in *. assert (A : 0 <= a) by (unfold a; lia). clearbody a.
  set (s := a / 1000000). assert (S : 0 <= s < 86400) by (split; [apply Z.div_pos; lia|apply Z.div_lt_upper_bound; lia]). clearbody s.
  pose proof (Z.mod_pos_bound a 1000000 ltac:(lia)). pose proof (Z.mod_pos_bound s 60 ltac:(lia)). pose proof (Z.mod_pos_bound (s / 60) 60 ltac:(lia)).
  assert (0 <= s / 3600 < 24) by (split; [apply Z.div_pos; lia|apply Z.div_lt_upper_bound; lia]).
  apply solid_cons; [now destruct (o <? 0)|]. apply solid_app; [apply pad2_solid; lia|]. apply solid_cons; [reflexivity|]. apply solid_app; [apply pad2_solid; lia|].
  destruct ((s mod 60 =? 0) && (a mod 1000000 =? 0)); [reflexivity|]. apply solid_cons; [reflexivity|]. apply solid_app; [apply pad2_solid; lia|].
  destruct (a mod 1000000 =? 0); [reflexivity|]. apply solid_cons; [reflexivity|]. apply pad6_solid; lia.
Qed.

(* what follows the seconds *)
Definition tail_text (u : Z) (off : option Z) : text := (if u mod 1000000 =? 0 then [] else "." :: pad6 (u mod 1000000)) ++ offset_text off.
Lemma str_text d off : utcoffset d = Ok off -> str_datetime d = Ok (day_text (timetuple d) ++ " " :: clock_text (timetuple d) ++ tail_text (dt_local d) off).
Proof.
  intros E. unfold str_datetime, tail_text. rewrite E. cbn [bind]. unfold timetuple. rewrite us_mod. reflexivity.
Qed.
Lemma utcoffset_small d o : utcoffset d = Ok (Some o) -> Z.abs o < us_per_day.
Proof.
  unfold utcoffset. destruct (dt_tz d) as [tz|]; [|discriminate]. destruct (tz_utcoffset tz _ _) as [x|]; [|discriminate].
  destruct (Z.ltb_spec (Z.abs x) us_per_day); intros E; [|discriminate]. congruence.
Qed.
Lemma tail_solid d off : utcoffset d = Ok off -> solid (tail_text (dt_local d) off).
Proof.
  intros E. unfold tail_text. apply solid_app.
  - destruct (_ =? 0); [reflexivity|]. apply solid_cons; [reflexivity|]. apply pad6_solid. pose proof (Z.mod_pos_bound (dt_local d) 1000000 ltac:(lia)). lia.
  - destruct off as [o|]; [|reflexivity]. apply offset_solid. now apply (utcoffset_small d).
Qed.

Lemma strip_solid w : solid w -> w <> [] -> strip w = w.
Proof. intros S NE. pose proof (strip_line [] w [] w [] eq_refl eq_refl S NE S NE) as E. clear E. unfold strip. rewrite <- (app_nil_r w) at 1. rewrite lstrip_solid, app_nil_r by assumption.
  rewrite <- (app_nil_r (rev w)), lstrip_solid, app_nil_r, rev_involutive; [reflexivity|unfold solid; now rewrite forallb_rev|].
  intros Q. apply NE. apply (f_equal (@rev ascii)) in Q. now rewrite rev_involutive in Q.
Qed.
Lemma strip_nl w : solid w -> w <> [] -> strip (w ++ [nl]) = w.
Proof.
  intros S NE. unfold strip. rewrite lstrip_solid by assumption. rewrite rev_app_distr. cbn [rev app lstrip]. change (is_space nl) with true. cbn iota.
  rewrite <- (app_nil_r (rev w)), lstrip_solid, app_nil_r, rev_involutive; [reflexivity|unfold solid; now rewrite forallb_rev|].
  intros Q. apply NE. apply (f_equal (@rev ascii)) in Q. now rewrite rev_involutive in Q.
Qed.

(* what the line of a datum splits into *)
Definition line_body (d : datum_text) (off : option Z) : text :=
  day_text (timetuple (w_when d)) ++ " " :: (clock_text (timetuple (w_when d)) ++ tail_text (dt_local (w_when d)) off) ++ " " :: w_lat d ++ " " :: w_lon d ++ " " :: w_elevation d ++ " " :: w_azimuth d ++ " " :: w_altitude d.
Lemma log_line_eq d off : utcoffset (w_when d) = Ok off -> log_line d = Ok (line_body d off ++ [nl]).
Proof. intros E. unfold log_line. rewrite (str_text _ _ E). cbn [bind]. f_equal. unfold line_body. repeat (rewrite <- !app_assoc; cbn [app]). reflexivity. Qed.
Lemma line_split d off : utcoffset (w_when d) = Ok off -> valid_dt (w_when d) -> worded d ->
  split_on " " (line_body d off ++ [nl]) = [day_text (timetuple (w_when d)); clock_text (timetuple (w_when d)) ++ tail_text (dt_local (w_when d)) off;
    w_lat d; w_lon d; w_elevation d; w_azimuth d; w_altitude d ++ [nl]] /\ without nl (line_body d off).
Proof.
  intros E V W. unfold worded in W. rewrite !Forall_cons_iff in W. destruct W as (W1 & W2 & W3 & W4 & W5 & _).
  apply word_solid in W1 as (W1 & _), W2 as (W2 & _), W3 as (W3 & _), W4 as (W4 & _), W5 as (W5 & _).
  assert (D := day_solid _ V). assert (C := clock_solid _ V). assert (T := tail_solid _ _ E). pose proof (solid_app _ _ C T) as CT.
  assert (sp : is_space " " = true) by reflexivity. assert (sn : is_space nl = true) by reflexivity. unfold timetuple, line_body. split.
  - repeat (rewrite <- !app_assoc; cbn [app]). rewrite split_on_app by now apply solid_without. rewrite app_assoc.
    rewrite split_on_app by now apply solid_without. do 2 f_equal.
    do 4 (rewrite split_on_app by (now apply solid_without); f_equal). apply split_on_none. apply without_app; [now apply solid_without|reflexivity].
  - repeat first [apply without_cons; [reflexivity|] | apply without_app; [now apply solid_without|]]. now apply solid_without.
Qed.

(* reading back *)
Lemma read_naive d xe xz xh : dt_tz (w_when d) = None -> valid_dt (w_when d) -> dt_local (w_when d) mod 1000000 = 0 -> worded d ->
  py_float (w_elevation d) = Ok xe -> py_float (w_azimuth d) = Ok xz -> py_float (w_altitude d) = Ok xh ->
  exists l, log_line d = Ok (l ++ [nl]) /\ without nl l /\
    read_line (l ++ [nl]) = Ok (mklogged {| dt_local := dt_local (w_when d); dt_fold := false; dt_tz := Some (fixed_tz 0) |} (w_lat d) (w_lon d) xe xz xh).
Proof.
  intros N V H W P3 P4 P5. assert (E : utcoffset (w_when d) = Ok None) by (unfold utcoffset; now rewrite N).
  destruct (line_split d None E V W) as (SP & NL). exists (line_body d None). split; [now apply log_line_eq|]. split; [exact NL|].
  unfold worded in W. rewrite !Forall_cons_iff in W. destruct W as (_ & _ & W3 & W4 & W5 & _). apply word_solid in W3 as (Q3 & R3 & _), W4 as (Q4 & R4 & _), W5 as (Q5 & R5 & _).
  unfold read_line. rewrite SP. cbn iota. unfold tail_text. rewrite H. cbn [Z.eqb app offset_text]. rewrite app_nil_r.
  unfold timetuple. rewrite strptime_ok by assumption. cbn [bind]. rewrite !strip_solid, strip_nl by assumption. rewrite P3, P4, P5. cbn [bind]. reflexivity.
Qed.
Lemma read_other d off : utcoffset (w_when d) = Ok off -> valid_dt (w_when d) -> worded d -> off <> None \/ dt_local (w_when d) mod 1000000 <> 0 ->
  exists l, log_line d = Ok (l ++ [nl]) /\ without nl l /\ read_line (l ++ [nl]) = Err ValueError.
Proof.
  intros E V W H. destruct (line_split d off E V W) as (SP & NL). exists (line_body d off). split; [now apply log_line_eq|]. split; [exact NL|].
  unfold read_line. rewrite SP. cbn iota. assert (exists c r, tail_text (dt_local (w_when d)) off = c :: r) as (c & r & ->).
  { unfold tail_text. destruct (Z.eqb_spec (dt_local (w_when d) mod 1000000) 0) as [Q|Q]; [|cbn [app]; eauto]. destruct off as [o|]; [|destruct H; congruence]. cbn [app offset_text]. eauto. }
  unfold timetuple. rewrite strptime_rest by exact V. reflexivity.
Qed.

Lemma read_cons l s : without nl l -> read_log ((l ++ [nl]) ++ s) = (x <- read_line (l ++ [nl]) ;; xs <- read_log s ;; Ok (x :: xs)).
Proof. intros H. unfold read_log. rewrite <- app_assoc. cbn [app]. rewrite readlines_app by exact H. reflexivity. Qed.

Lemma log_round_trip ds rs rest : Forall2 reads_as ds rs ->
  exists ls, Forall2 (fun d l => log_line d = Ok l) ds ls /\ read_log (List.concat ls ++ rest) = (xs <- read_log rest ;; Ok (rs ++ xs)).
Proof.
  induction 1 as [|d r ds rs H _ (ls & F & R)].
  - exists []. split; [constructor|]. cbn [List.concat app]. now destruct (read_log rest).
  - destruct H as (N & V & M & W & S1 & S2 & S3 & Q1 & Q2 & Q3). destruct (read_naive d _ _ _ N V M W S1 S2 S3) as (l & E & NL & RL).
    exists ((l ++ [nl]) :: ls). split; [now constructor|]. cbn [List.concat]. rewrite <- app_assoc, read_cons, RL, R by exact NL. cbn [bind].
    rewrite <- Q1, <- Q2, <- Q3. destruct r. cbn. now destruct (read_log rest).
Qed.
Lemma log_round_trip_all ds rs : Forall2 reads_as ds rs -> exists ls, Forall2 (fun d l => log_line d = Ok l) ds ls /\ read_log (List.concat ls) = Ok rs.
Proof. intros H. destruct (log_round_trip ds rs [] H) as (ls & F & R). exists ls. split; [exact F|]. rewrite app_nil_r in R. rewrite R. cbn. now rewrite app_nil_r. Qed.
Lemma log_unreadable ds rs d off rest : Forall2 reads_as ds rs -> utcoffset (w_when d) = Ok off -> valid_dt (w_when d) -> worded d -> off <> None \/ dt_local (w_when d) mod 1000000 <> 0 ->
  exists ls l, Forall2 (fun d l => log_line d = Ok l) ds ls /\ log_line d = Ok l /\ read_log (List.concat ls ++ l ++ rest) = Err ValueError.
Proof.
  intros F E V W H. destruct (read_other d off E V W H) as (l & L & NL & RL). destruct (log_round_trip ds rs ((l ++ [nl]) ++ rest) F) as (ls & F' & R).
  exists ls, (l ++ [nl]). split; [exact F'|]. split; [exact L|]. rewrite R, read_cons, RL by exact NL. reflexivity.
Qed.

(* a datum as GatherRandomEphemeris makes it *)
Definition sample_datum : datum_text := mkdatum {| dt_local := us_of_fields (mkfields 2013 5 17 12 34 56 0); dt_fold := false; dt_tz := None |}
  (txt "-71") (txt "42") (txt "0.0") (txt "181.25083333333333") (txt "1e-05").
Lemma value_of {A} (r : res A) : (match r with Ok _ => true | Err _ => false end) = true -> exists a, r = Ok a.
Proof. destruct r; [eauto|discriminate]. Qed.
Lemma sample_datum_reads : exists r, reads_as sample_datum r.
Proof.
  destruct (value_of (py_float (txt "0.0")) ltac:(vm_compute; reflexivity)) as (a & Ea).
  destruct (value_of (py_float (txt "181.25083333333333")) ltac:(vm_compute; reflexivity)) as (b & Eb).
  destruct (value_of (py_float (txt "1e-05")) ltac:(vm_compute; reflexivity)) as (c & Ec).
  exists (mklogged {| dt_local := us_of_fields (mkfields 2013 5 17 12 34 56 0); dt_fold := false; dt_tz := Some (fixed_tz 0) |} (txt "-71") (txt "42") a b c).
  unfold reads_as. cbn [w_when w_lat w_lon w_elevation w_azimuth w_altitude sample_datum dt_tz dt_local l_elevation l_azimuth l_altitude l_when l_lat l_lon].
  split; [reflexivity|]. split; [reflexivity|]. split; [reflexivity|]. split; [|auto 10].
  unfold worded. cbn [w_lat w_lon w_elevation w_azimuth w_altitude sample_datum].
  repeat (apply Forall_cons; [split; [discriminate|]; cbn [txt list_ascii_of_string]; repeat (apply Forall_cons; [vm_compute; intuition discriminate|]); apply Forall_nil|]). apply Forall_nil.
Qed.

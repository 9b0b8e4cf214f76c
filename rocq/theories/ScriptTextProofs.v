(* The text read and written by util/get_delta_t. *)
From Coq Require Import String Ascii ZArith List Reals Qreals Lra Lia Psatz.
From Flocq Require Import Core IEEE754.BinarySingleNaN Relative.
From Verif Require Import Py Num RInst B64 SpecB64 B64Lemmas Script SpecScript ScriptProofs SolarTime ScriptText SpecPyText.
Import ListNotations.
Local Open Scope string_scope.
Local Open Scope char_scope.
Local Open Scope list_scope.
Local Open Scope Z_scope.

(* ---------------------------------------------------------------- characters *)
Lemma code_range c : 0 <= code c < 256.
Proof. unfold code. pose proof (N_ascii_bounded c). lia. Qed.
Lemma code_inj a b : code a = code b -> a = b.
Proof. unfold code. intros H. rewrite <- (ascii_N_embedding a), <- (ascii_N_embedding b). f_equal. lia. Qed.
Lemma eqb_code a b : Ascii.eqb a b = (code a =? code b).
Proof.
  destruct (Ascii.eqb_spec a b) as [->|N]; [now rewrite Z.eqb_refl|]. symmetry. apply Z.eqb_neq. intros H. apply N. now apply code_inj.
Qed.
Lemma digit_char_code d : 0 <= d <= 9 -> code (digit_char d) = d + 48.
Proof. intros H. unfold code, digit_char. rewrite N_ascii_embedding; lia. Qed.
Lemma digit_char_digit d : 0 <= d <= 9 -> is_digit (digit_char d) = true /\ digit_value (digit_char d) = d.
Proof. intros H. unfold is_digit, digit_value. rewrite digit_char_code by lia. split; [|lia]. rewrite andb_true_iff, !Z.leb_le. lia. Qed.
Lemma digit_ok c d : digit c d -> is_digit c = true /\ digit_value c = d /\ is_space c = false.
Proof.
  intros [H E]. unfold is_digit, digit_value, is_space. rewrite E. repeat split.
  - rewrite andb_true_iff, !Z.leb_le. lia.
  - lia.
  - rewrite orb_false_iff, !andb_false_iff, !Z.leb_gt. lia.
Qed.

(* ---------------------------------------------------------------- digits *)
Definition dfold (a : Z) (s : text) : Z := fold_left (fun a c => 10 * a + digit_value c) s a.
Lemma digits_value_fold s : digits_value s = dfold 0 s. Proof. reflexivity. Qed.
Lemma dfold_app a s r : dfold a (s ++ r) = dfold (dfold a s) r.
Proof. apply fold_left_app. Qed.
Lemma natural_ok w z : natural w z -> w <> [] /\ forallb is_digit w = true /\ forallb (fun c => negb (is_space c)) w = true /\ digits_value w = z /\ 0 <= z.
Proof.
  induction 1 as [c d D|w z c d N IH D].
  - destruct (digit_ok c d D) as (A & B & C). cbn. rewrite A, C. repeat split; [discriminate|exact B|]. destruct D; lia.
  - destruct IH as (I1 & I2 & I3 & I4 & I5). destruct (digit_ok c d D) as (A & B & C). repeat split.
    + destruct w; discriminate.
    + rewrite forallb_app. cbn. now rewrite I2, A.
    + rewrite forallb_app. cbn. now rewrite I3, C.
    + rewrite digits_value_fold, dfold_app. rewrite digits_value_fold in I4. rewrite I4. cbn. lia.
    + destruct D; lia.
Qed.

Lemma digits_us_ok s : forall b a, forallb is_digit s = true -> s <> [] \/ b = true -> digits_us b a s = Some (dfold a s).
Proof.
  induction s as [|c s IH]; intros b a D H.
  - destruct H as [H| ->]; [easy|reflexivity].
  - cbn in D. apply andb_prop in D as [D1 D2]. cbn [digits_us]. rewrite D1. rewrite IH by (auto; now right). reflexivity.
Qed.
Lemma digit_not c : is_digit c = true -> forall x, ~ (48 <= code x <= 57) -> Ascii.eqb c x = false.
Proof. unfold is_digit. rewrite andb_true_iff, !Z.leb_le. intros H x N. rewrite eqb_code. apply Z.eqb_neq. intros E. rewrite <- E in N. lia. Qed.
Lemma with_sign_digits {A} (f : bool -> text -> A) s : forallb is_digit s = true -> with_sign f s = f false s.
Proof.
  destruct s as [|c s]; [reflexivity|]. cbn [forallb]. intros D. apply andb_prop in D as [D _]. cbn [with_sign].
  rewrite (digit_not c D "-"), (digit_not c D "+"); [reflexivity|cbn; lia|cbn; lia].
Qed.
Lemma py_int_ok w z : natural w z -> py_int w = Ok z.
Proof.
  intros N. destruct (natural_ok w z N) as (A & B & _ & C & _). unfold py_int. rewrite with_sign_digits by exact B. rewrite digits_us_ok by (auto; now left).
  cbn. rewrite digits_value_fold in C. now rewrite C.
Qed.

Lemma span_digits_app s r : forallb is_digit s = true -> (forall c r', r = c :: r' -> is_digit c = false) -> span_digits (s ++ r) = (s, r).
Proof.
  intros D H. induction s as [|c s IH].
  - cbn [app]. destruct r as [|c r]; [reflexivity|]. cbn. now rewrite (H c r eq_refl).
  - cbn in D. apply andb_prop in D as [D1 D2]. cbn [app span_digits]. rewrite D1, IH by exact D2. reflexivity.
Qed.
Lemma remove_us_id s : forall b, forallb (fun c => negb (Ascii.eqb c "_")) s = true -> remove_us b s = Some s.
Proof.
  induction s as [|c s IH]; intros b H; [reflexivity|]. cbn in H. apply andb_prop in H as [H1 H2]. cbn [remove_us]. apply negb_true_iff in H1. rewrite H1.
  rewrite IH by exact H2. reflexivity.
Qed.
Lemma no_us s : forallb is_digit s = true -> forallb (fun c => negb (Ascii.eqb c "_")) s = true.
Proof. intros H. rewrite forallb_forall in *. intros c Hc. rewrite (digit_not c (H c Hc) "_"); [reflexivity|cbn; lia]. Qed.

Lemma not_word w (s : string) c r : w = c :: r -> is_digit c = true \/ c = "." -> (forall d l, list_ascii_of_string s = d :: l -> is_digit d = false /\ d <> "."%char) -> s <> ""%string -> text_eqb (map lower w) (txt s) = false.
Proof.
  intros -> H K NE. unfold text_eqb. destruct (list_eq_dec ascii_dec _ _) as [E|E]; [|reflexivity]. exfalso.
  destruct s as [|d l]; [easy|]. cbn in E. injection E as E1 _. destruct (K d _ eq_refl) as [K1 K2].
  assert (L : lower c = c).
  { unfold lower. destruct H as [H| ->]; [|reflexivity]. unfold is_digit in H. rewrite andb_true_iff, !Z.leb_le in H.
    assert ((65 <=? code c) && (code c <=? 90) = false) as -> by (rewrite andb_false_iff, !Z.leb_gt; lia). reflexivity. }
  rewrite L in E1. subst d. destruct H; congruence.
Qed.
Lemma fixed_ok w x : fixed w x -> py_float_unsigned false w = Some x /\ py_float_unsigned true w = Some (Bopp x) /\
  forallb (fun c => is_digit c || Ascii.eqb c ".") w = true /\ w <> [].
Proof.
  intros F.
  assert (S : forall neg a b m, natural (a ++ b) m -> (List.length b <= 4)%nat ->
    py_float_unsigned neg (a ++ "." :: b) = Some (let x := flit (Qmake m (Z.to_pos (10 ^ zlength b))) in if neg then Bopp x else x)).
  { intros neg a b m N LB. destruct (natural_ok _ _ N) as (NE & D & _ & V & P). rewrite forallb_app in D. apply andb_prop in D as [D1 D2].
    unfold py_float_unsigned. cbv zeta.
    assert (HC : exists c r, (a ++ "." :: b) = c :: r /\ (is_digit c = true \/ c = ".")).
    { destruct a as [|c a]; [exists ".", b; auto|]. exists c, (a ++ "." :: b). split; [reflexivity|]. left. cbn in D1. now apply andb_prop in D1 as [? _]. }
    destruct HC as (c & r & HC & HD).
    rewrite (not_word _ "inf" c r HC HD), (not_word _ "infinity" c r HC HD), (not_word _ "nan" c r HC HD);
      try discriminate; try (intros d l [= <- <-]; split; [reflexivity|discriminate]).
    cbn [orb]. rewrite span_digits_app; [|exact D1|intros c' r' [= <- _]; reflexivity]. cbn [Ascii.eqb Bool.eqb].
    change (Ascii.eqb "." ".") with true. cbv iota.
    assert (SD : span_digits b = (b, [])) by (rewrite <- (app_nil_r b) at 1; apply span_digits_app; [exact D2|discriminate]). rewrite SD.
    assert (ZL : (zlength (a ++ b) =? 0) = false) by (apply Z.eqb_neq; unfold zlength; destruct (a ++ b); [easy|cbn; lia]). rewrite ZL.
    unfold decimal. rewrite V. f_equal. cbv zeta. destruct b as [|b0 b'].
    - cbn [zlength List.length]. change (0 - zlength []) with 0. cbn. rewrite Z.mul_1_r. reflexivity.
    - assert (0 < zlength (b0 :: b')) by (unfold zlength; cbn [List.length]; lia). rewrite (proj2 (Z.ltb_lt _ _)) by lia. replace (- (0 - zlength (b0 :: b'))) with (zlength (b0 :: b')) by lia. reflexivity. }
  assert (W : forall neg w m, natural w m -> py_float_unsigned neg w = Some (let x := flit (inject_Z m) in if neg then Bopp x else x)).
  { intros neg v m N. destruct (natural_ok _ _ N) as (NE & D & _ & V & P). destruct v as [|c r]; [easy|].
    assert (HD : is_digit c = true \/ c = ".") by (left; cbn in D; now apply andb_prop in D as [? _]).
    unfold py_float_unsigned. cbv zeta.
    rewrite (not_word _ "inf" c r eq_refl HD), (not_word _ "infinity" c r eq_refl HD), (not_word _ "nan" c r eq_refl HD);
      try discriminate; try (intros d l [= <- <-]; split; [reflexivity|discriminate]).
    cbn [orb]. assert (SD : span_digits (c :: r) = (c :: r, [])) by (rewrite <- (app_nil_r (c :: r)) at 1; apply span_digits_app; [exact D|discriminate]). rewrite SD.
    cbv iota beta. rewrite app_nil_r. assert (ZL : (zlength (c :: r) =? 0) = false) by (apply Z.eqb_neq; unfold zlength; cbn [List.length]; lia). rewrite ZL.
    unfold decimal. rewrite V. change (0 - zlength []) with 0. cbn. rewrite Z.mul_1_r. reflexivity. }
  destruct F as [w m N B|a b m N LB B].
  - split; [exact (W false w m N)|]. split; [exact (W true w m N)|]. destruct (natural_ok _ _ N) as (NE & D & _). split; [|exact NE].
    rewrite forallb_forall in *. intros c Hc. now rewrite (D c Hc).
  - split; [exact (S false a b m N LB)|]. split; [exact (S true a b m N LB)|]. destruct (natural_ok _ _ N) as (NE & D & _). split; [|destruct a; discriminate].
    rewrite forallb_app in D. apply andb_prop in D as [D1 D2]. rewrite forallb_app. cbn [forallb]. change (Ascii.eqb "." ".") with true. rewrite orb_true_r. cbn [andb].
    apply andb_true_iff. split; rewrite forallb_forall in *; intros c Hc; [now rewrite (D1 c Hc)|now rewrite (D2 c Hc)].
Qed.
Lemma dot_or_digit c : is_digit c || Ascii.eqb c "." = true -> negb (Ascii.eqb c "_") = true /\ is_space c = false /\ Ascii.eqb c "-" = false /\ Ascii.eqb c "+" = false.
Proof.
  rewrite orb_true_iff. intros [H|H].
  - unfold is_digit in H. rewrite andb_true_iff, !Z.leb_le in H. rewrite !eqb_code, negb_true_iff, !Z.eqb_neq. unfold is_space. rewrite orb_false_iff, !andb_false_iff, !Z.leb_gt. cbn. lia.
  - apply Ascii.eqb_eq in H. subst c. repeat split.
Qed.
Lemma signed_ok w x : signed w x -> py_float w = Ok x /\ forallb (fun c => negb (is_space c)) w = true /\ w <> [].
Proof.
  intros S. destruct S as [w x F|w x F]; destruct (fixed_ok w x F) as (F1 & F2 & FD & NE); unfold py_float.
  - rewrite remove_us_id.
    2:{ rewrite forallb_forall in *. intros c Hc. now apply dot_or_digit, FD. }
    split; [|split; [|exact NE]].
    + destruct w as [|c w]; [easy|]. cbn [with_sign]. cbn in FD. apply andb_prop in FD as [FD _]. destruct (dot_or_digit c FD) as (_ & _ & A & B). rewrite A, B, F1. reflexivity.
    + rewrite forallb_forall in *. intros c Hc. rewrite (proj1 (proj2 (dot_or_digit c (FD c Hc)))). reflexivity.
  - rewrite remove_us_id.
    2:{ cbn [forallb]. change (Ascii.eqb "-" "_") with false. cbn [negb andb]. rewrite forallb_forall in *. intros c Hc. now apply dot_or_digit, FD. }
    split; [|split; [|discriminate]].
    + cbn [with_sign]. change (Ascii.eqb "-" "-") with true. cbv iota. rewrite F2. reflexivity.
    + cbn [forallb]. change (is_space "-") with false. cbn [negb andb]. rewrite forallb_forall in *. intros c Hc. rewrite (proj1 (proj2 (dot_or_digit c (FD c Hc)))). reflexivity.
Qed.

(* ---------------------------------------------------------------- lines *)
Definition solid (w : text) : Prop := forallb (fun c => negb (is_space c)) w = true.
Lemma blank_ok s : blank s -> forallb is_space s = true /\ forallb (fun c => negb (Ascii.eqb c nl)) s = true.
Proof.
  intros H. induction H as [|c s H _ [I1 I2]]; [split; reflexivity|]. cbn [forallb]. rewrite I1, I2, !andb_true_r.
  assert (code c <> 10 /\ (9 <= code c <= 13 \/ 28 <= code c <= 32)) as [N R] by (cbn in H; lia). split.
  - unfold is_space. rewrite orb_true_iff, !andb_true_iff, !Z.leb_le. exact R.
  - rewrite negb_true_iff, eqb_code. apply Z.eqb_neq. exact N.
Qed.
Lemma lstrip_space s r : forallb is_space s = true -> lstrip (s ++ r) = lstrip r.
Proof. induction s as [|c s IH]; intros H; [reflexivity|]. cbn in H. apply andb_prop in H as [H1 H2]. cbn. rewrite H1. now apply IH. Qed.
Lemma lstrip_solid w r : solid w -> w <> [] -> lstrip (w ++ r) = w ++ r.
Proof. intros S NE. destruct w as [|c w]; [easy|]. cbn in *. apply andb_prop in S as [S _]. apply negb_true_iff in S. now rewrite S. Qed.
Lemma forallb_rev {A} f (l : list A) : forallb f (rev l) = forallb f l.
Proof. induction l; [reflexivity|]. cbn. rewrite forallb_app, IHl. cbn. rewrite andb_true_r. apply andb_comm. Qed.
Lemma strip_line s0 w mid w' s4 : forallb is_space s0 = true -> forallb is_space s4 = true -> solid w -> w <> [] -> solid w' -> w' <> [] ->
  strip (s0 ++ w ++ mid ++ w' ++ s4) = w ++ mid ++ w'.
Proof.
  intros H0 H4 W NW W' NW'. unfold strip. rewrite lstrip_space by exact H0. rewrite lstrip_solid by assumption.
  rewrite !rev_app_distr, <- !app_assoc. rewrite lstrip_space by (now rewrite forallb_rev). rewrite lstrip_solid.
  - rewrite !rev_app_distr, !rev_involutive, <- !app_assoc. reflexivity.
  - unfold solid. now rewrite forallb_rev.
  - intros E. apply NW'. apply (f_equal (@rev ascii)) in E. now rewrite rev_involutive in E.
Qed.
Lemma strip_blank s : forallb is_space s = true -> strip s = [].
Proof. intros H. unfold strip. rewrite <- (app_nil_r s), lstrip_space by exact H. reflexivity. Qed.
Lemma span_word_app w r : solid w -> (exists c r', r = c :: r' /\ is_space c = true) -> span_word (w ++ r) = (w, r).
Proof.
  intros S (c & r' & -> & H). induction w as [|d w IH]; [cbn; now rewrite H|]. cbn in S. apply andb_prop in S as [S1 S2]. apply negb_true_iff in S1.
  cbn [app span_word]. rewrite S1, IH by exact S2. reflexivity.
Qed.
Lemma re_split_step k w s r : solid w -> forallb is_space s = true -> s <> [] -> re_split (S k) (w ++ s ++ r) = w :: re_split k (lstrip r).
Proof.
  intros W S NS. destruct s as [|c s]; [easy|]. pose proof S as S'. cbn in S'. apply andb_prop in S' as [S1 _]. cbn [re_split].
  rewrite span_word_app; [|exact W|exists c, (s ++ r); now split]. rewrite lstrip_space by exact S. cbn [app]. reflexivity.
Qed.
Lemma data_line_ok l es : data_line l es -> parse_line l = Ok (match es with [] => None | e :: _ => Some e end).
Proof.
  intros D. destruct D as [s B|s0 s1 s2 s3 s4 wy wm wd wx y m d x B0 B1 B2 B3 B4 E1 E2 E3 Ny Nm Nd Sx].
  - unfold parse_line. rewrite strip_blank by apply (blank_ok s B). reflexivity.
  - destruct (natural_ok _ _ Ny) as (Y1 & _ & Y2 & _). destruct (natural_ok _ _ Nm) as (M1 & _ & M2 & _). destruct (natural_ok _ _ Nd) as (D1 & _ & D2 & _).
    destruct (signed_ok _ _ Sx) as (X1 & X2 & X3). unfold parse_line.
    replace (s0 ++ wy ++ s1 ++ wm ++ s2 ++ wd ++ s3 ++ wx ++ s4) with (s0 ++ wy ++ (s1 ++ wm ++ s2 ++ wd ++ s3) ++ wx ++ s4) by (now rewrite <- !app_assoc).
    rewrite strip_line by (try apply blank_ok; assumption). rewrite <- !app_assoc.
    assert (ZL : (zlength (wy ++ s1 ++ wm ++ s2 ++ wd ++ s3 ++ wx) =? 0) = false) by (apply Z.eqb_neq; unfold zlength; destruct wy; [easy|cbn [app List.length]; lia]). rewrite ZL.
    rewrite re_split_step by (try apply blank_ok; assumption). rewrite lstrip_solid by assumption.
    rewrite re_split_step by (try apply blank_ok; assumption). rewrite lstrip_solid by assumption.
    rewrite re_split_step by (try apply blank_ok; assumption). rewrite <- (app_nil_r wx), lstrip_solid, app_nil_r by assumption. cbn [re_split].
    rewrite (py_int_ok _ _ Ny), (py_int_ok _ _ Nm), (py_int_ok _ _ Nd), X1. reflexivity.
Qed.
Lemma split_nl_none l : forallb (fun c => negb (Ascii.eqb c nl)) l = true -> split_nl l = [l].
Proof. induction l as [|c l IH]; intros H; [reflexivity|]. cbn in H. apply andb_prop in H as [H1 H2]. apply negb_true_iff in H1. cbn [split_nl]. now rewrite H1, IH. Qed.
Lemma split_nl_app l s : forallb (fun c => negb (Ascii.eqb c nl)) l = true -> split_nl (l ++ nl :: s) = l :: split_nl s.
Proof. induction l as [|c l IH]; intros H; [reflexivity|]. cbn in H. apply andb_prop in H as [H1 H2]. apply negb_true_iff in H1. cbn [app split_nl]. now rewrite H1, IH. Qed.
Lemma solid_nl w : solid w -> forallb (fun c => negb (Ascii.eqb c nl)) w = true.
Proof. intros H. unfold solid in H. rewrite forallb_forall in *. intros c Hc. specialize (H c Hc). destruct (Ascii.eqb_spec c nl) as [->|]; [exact H|reflexivity]. Qed.
Lemma data_line_nl l es : data_line l es -> forallb (fun c => negb (Ascii.eqb c nl)) l = true.
Proof.
  intros D. destruct D as [s B|s0 s1 s2 s3 s4 wy wm wd wx y m d x B0 B1 B2 B3 B4 E1 E2 E3 Ny Nm Nd Sx]; [apply (blank_ok s B)|].
  rewrite !forallb_app. rewrite (proj2 (blank_ok _ B0)), (proj2 (blank_ok _ B1)), (proj2 (blank_ok _ B2)), (proj2 (blank_ok _ B3)), (proj2 (blank_ok _ B4)).
  rewrite !solid_nl; [reflexivity|apply (signed_ok _ _ Sx)|apply (natural_ok _ _ Nd)|apply (natural_ok _ _ Nm)|apply (natural_ok _ _ Ny)].
Qed.
Lemma data_line_short l es : data_line l es -> es = [] \/ exists e, es = [e].
Proof. intros []; eauto. Qed.
Lemma data_file_ok s es : data_file s es -> parse_data s = (es, None).
Proof.
  unfold parse_data. intros F. induction F as [l es D|l es s es' D F IH].
  - rewrite split_nl_none by (eapply data_line_nl; eassumption). cbn [parse_lines]. rewrite (data_line_ok _ _ D). destruct (data_line_short _ _ D) as [->|(e & ->)]; reflexivity.
  - rewrite split_nl_app by (eapply data_line_nl; eassumption). cbn [parse_lines]. rewrite (data_line_ok _ _ D), IH. destruct (data_line_short _ _ D) as [->|(e & ->)]; reflexivity.
Qed.

(* ---------------------------------------------------------------- numbers written *)
Lemma show_digits_ok fuel : forall n, 0 <= n < 2 ^ Z.of_nat fuel -> (0 < fuel)%nat ->
  let w := show_digits fuel n in
  forallb is_digit w = true /\ w <> [] /\ digits_value w = n /\ (forall c r, w = c :: r -> c = "0" -> r = []).
Proof.
  induction fuel as [|fuel IH]; intros n Hn HF; [lia|]. cbn [show_digits]. cbv zeta. destruct (Z.ltb_spec n 10) as [L|L].
  - destruct (digit_char_digit n ltac:(lia)) as [D1 D2]. cbn [forallb]. rewrite D1. split; [reflexivity|]. split; [discriminate|]. split; [cbn; lia|]. intros c r [= _ <-] _. reflexivity.
  - assert (F0 : (0 < fuel)%nat). { destruct fuel; [|lia]. change (2 ^ Z.of_nat 1) with 2 in Hn. lia. }
    assert (R : 0 <= n / 10 < 2 ^ Z.of_nat fuel).
    { split; [apply Z.div_pos; lia|]. apply Z.div_lt_upper_bound; [lia|]. rewrite Nat2Z.inj_succ, Z.pow_succ_r in Hn by lia. lia. }
    destruct (IH _ R F0) as (I1 & I2 & I3 & I4). pose proof (Z.mod_pos_bound n 10 ltac:(lia)) as M. destruct (digit_char_digit (n mod 10) ltac:(lia)) as [D1 D2].
    split; [rewrite forallb_app; cbn; now rewrite I1, D1|]. split; [destruct (show_digits fuel (n / 10)); discriminate|]. split.
    + rewrite digits_value_fold, dfold_app. rewrite digits_value_fold in I3. rewrite I3. change (10 * (n / 10) + digit_value (digit_char (n mod 10)) = n). rewrite D2. pose proof (Z.div_mod n 10 ltac:(lia)). lia.
    + intros c r E ->. destruct (show_digits fuel (n / 10)) as [|c' r'] eqn:S; [easy|]. cbn [app] in E. injection E as -> E.
      pose proof (I4 _ _ eq_refl eq_refl). subst r'. assert (n / 10 = 0) by (rewrite <- I3; reflexivity). assert (10 / 10 <= n / 10) by (apply Z.div_le_mono; lia). change (10 / 10) with 1 in *. lia.
Qed.
Lemma show_nat_ok n : 0 <= n -> let w := show_nat n in
  forallb is_digit w = true /\ w <> [] /\ digits_value w = n /\ (forall c r, w = c :: r -> c = "0" -> r = []).
Proof.
  intros H. apply show_digits_ok; [|lia]. split; [exact H|]. rewrite Nat2Z.inj_succ, Z2Nat.id by apply Z.log2_nonneg.
  destruct (Z.eq_dec n 0) as [->|N]; [reflexivity|]. apply Z.log2_spec. lia.
Qed.
Lemma word_digits w : forallb is_digit w = true -> forallb is_word_char w = true.
Proof. intros H. rewrite forallb_forall in *. intros c Hc. unfold is_word_char. now rewrite (H c Hc). Qed.
Lemma show_nat_word n : 0 <= n -> word_tok (show_nat n) = Some (TInt n) /\ forallb is_word_char (show_nat n) = true /\ show_nat n <> [].
Proof.
  intros H. destruct (show_nat_ok n H) as (D & NE & V & Z0). split; [|split; [now apply word_digits|exact NE]].
  unfold word_tok. destruct (show_nat n) as [|c r] eqn:E; [easy|]. pose proof D as D'. cbn in D'. apply andb_prop in D' as [D1 _]. rewrite D1.
  assert (SD : span_digits (c :: r) = (c :: r, [])) by (rewrite <- (app_nil_r (c :: r)) at 1; apply span_digits_app; [exact D|discriminate]). rewrite SD.
  destruct (Ascii.eqb_spec c "0") as [E0|E0]; [rewrite (Z0 c r eq_refl E0) in *; change (1 <? zlength [c]) with false|]; cbn [andb]; rewrite V; reflexivity.
Qed.
Lemma show_frac_word n : 0 <= n -> word_tok (show_frac n) = Some (TFloat (Qmake n 10000)) /\ forallb is_word_char (show_frac n) = true /\ show_frac n <> [].
Proof.
  intros H. assert (P : 0 <= n / 10000) by (apply Z.div_pos; lia). destruct (show_nat_ok _ P) as (D & NE & V & _). unfold show_frac.
  pose proof (Z.mod_pos_bound (n / 1000) 10 ltac:(lia)) as M1. pose proof (Z.mod_pos_bound (n / 100) 10 ltac:(lia)) as M2. pose proof (Z.mod_pos_bound (n / 10) 10 ltac:(lia)) as M3. pose proof (Z.mod_pos_bound n 10 ltac:(lia)) as M4.
  assert (K : forall k, 0 <= k < 10 -> is_digit (digit_char k) = true /\ digit_value (digit_char k) = k) by (intros; apply digit_char_digit; lia).
  destruct (K _ M1) as [A1 B1], (K _ M2) as [A2 B2], (K _ M3) as [A3 B3], (K _ M4) as [A4 B4].
  split; [|split].
  - unfold word_tok. destruct (show_nat (n / 10000)) as [|c r] eqn:E; [easy|]. cbn [app]. pose proof D as D'. cbn in D'. apply andb_prop in D' as [D1 _]. rewrite D1.
    change (c :: r ++ ?x) with ((c :: r) ++ x). rewrite span_digits_app; [|exact D|intros c' r' [= <- _]; reflexivity].
    change (Ascii.eqb "." ".") with true. unfold all_digits. cbn [forallb]. rewrite A1, A2, A3, A4. cbn [andb zlength List.length Z.of_nat]. cbn [Z.ltb Z.compare Pos.of_succ_nat Pos.compare].
    do 2 f_equal. f_equal. rewrite digits_value_fold, dfold_app. rewrite digits_value_fold in V. rewrite V. unfold dfold. cbn [fold_left]. rewrite B1, B2, B3, B4.
    assert (Q1 : n / 10 = 10 * (n / 100) + n / 10 mod 10) by (rewrite (Z.div_mod (n / 10) 10) at 1 by lia; rewrite Z.div_div by lia; reflexivity).
    assert (Q2 : n / 100 = 10 * (n / 1000) + n / 100 mod 10) by (rewrite (Z.div_mod (n / 100) 10) at 1 by lia; rewrite Z.div_div by lia; reflexivity).
    assert (Q3 : n / 1000 = 10 * (n / 10000) + n / 1000 mod 10) by (rewrite (Z.div_mod (n / 1000) 10) at 1 by lia; rewrite Z.div_div by lia; reflexivity).
    pose proof (Z.div_mod n 10 ltac:(lia)). lia.
  - rewrite forallb_app, (word_digits _ D). cbn [forallb]. unfold is_word_char. rewrite A1, A2, A3, A4. reflexivity.
  - destruct (show_nat (n / 10000)); discriminate.
Qed.

(* ---------------------------------------------------------------- reading the text written *)
Definition lbind (r : option (list tok * state)) (f : state -> option (list tok * state)) : option (list tok * state) :=
  match r with Some (k, s) => match f s with Some (k', s') => Some (k ++ k', s') | None => None end | None => None end.
Lemma lbind_eq r f k s k' s' : r = Some (k, s) -> f s = Some (k', s') -> lbind r f = Some (k ++ k', s').
Proof. intros -> E. cbn. now rewrite E. Qed.
Lemma lex_app a : forall s b, lex s (a ++ b) = lbind (lex s a) (fun s' => lex s' b).
Proof.
  induction a as [|c a IH]; intros s b; [cbn; destruct (lex s b) as [[k s']|]; reflexivity|].
  cbn [app lex]. destruct (step s c) as [[k s']|]; [|reflexivity]. rewrite IH. destruct (lex s' a) as [[k1 s1]|]; [|reflexivity]. cbn.
  destruct (lex s1 b) as [[k2 s2]|]; [|reflexivity]. now rewrite app_assoc.
Qed.
Lemma lex_cat a b s k s1 k' s2 : lex s a = Some (k, s1) -> lex s1 b = Some (k', s2) -> lex s (a ++ b) = Some (k ++ k', s2).
Proof. intros A B. rewrite lex_app. now apply (lbind_eq _ _ k s1). Qed.
Lemma word_char_fresh c s : is_word_char c = true -> fresh s c = Some ([], mkstate (MWord [c]) (s_depth s) true).
Proof.
  intros H. unfold fresh. rewrite H. rewrite !eqb_code. pose proof H as H'. unfold is_word_char, is_digit in H. rewrite !orb_true_iff, !andb_true_iff, !eqb_code, !Z.eqb_eq, !Z.leb_le in H.
  change (code nl) with 10. change (code "#") with 35. change (code "\") with 92. change (code " ") with 32. change (code "[") with 91. change (code "]") with 93. change (code ",") with 44. change (code "=") with 61. change (code "-") with 45.
  change (code "_") with 95 in H. change (code ".") with 46 in H.
  repeat match goal with |- context [?a =? ?b] => rewrite (proj2 (Z.eqb_neq a b)) by lia end. reflexivity.
Qed.
Lemma lex_in_word w : forall v d, forallb is_word_char w = true -> lex (mkstate (MWord v) d true) w = Some ([], mkstate (MWord (v ++ w)) d true).
Proof.
  induction w as [|c w IH]; intros v d H; [cbn; now rewrite app_nil_r|]. cbn in H. apply andb_prop in H as [H1 H2]. cbn [lex]. unfold step. cbn [s_mode]. rewrite H1.
  rewrite IH by exact H2. cbn [s_depth app]. now rewrite <- app_assoc.
Qed.
Lemma lex_word w d b : forallb is_word_char w = true -> w <> [] -> lex (mkstate MNone d b) w = Some ([], mkstate (MWord w) d true).
Proof.
  intros H NE. destruct w as [|c w]; [easy|]. cbn in H. apply andb_prop in H as [H1 H2]. cbn [lex]. unfold step. cbn [s_mode].
  rewrite word_char_fresh by exact H1. cbn [s_depth]. rewrite lex_in_word by exact H2. reflexivity.
Qed.
Lemma lex_comment w d b : forallb (fun c => negb (Ascii.eqb c nl)) w = true -> lex (mkstate MComment d b) w = Some ([], mkstate MComment d b).
Proof.
  induction w as [|c w IH]; intros H; [reflexivity|]. cbn in H. apply andb_prop in H as [H1 H2]. apply negb_true_iff in H1. cbn [lex]. unfold step. cbn [s_mode]. rewrite H1, IH by exact H2. reflexivity.
Qed.
(* a word followed by one of the characters met here *)
Lemma lex_word_then w c d k : word_tok w = Some k -> forallb is_word_char w = true -> w <> [] -> is_word_char c = false ->
  forall ks s', fresh (mkstate (MWord w) d true) c = Some (ks, s') -> lex (mkstate MNone d true) (w ++ [c]) = Some (k :: ks, s').
Proof.
  intros T W NE NC ks s' F. change (Some (k :: ks, s')) with (Some ([] ++ (k :: ks), s')). apply (lex_cat _ _ _ _ _ _ _ (lex_word w d true W NE)).
  cbn [lex]. unfold step. cbn [s_mode]. rewrite NC, T, F. now rewrite app_nil_r.
Qed.

Definition int_toks (z : Z) : list tok := if z <? 0 then [TMinus; TInt (- z)] else [TInt z].
Definition reread (x : f64) : f64 :=
  match x with
  | B754_finite s m e _ => let y := flit (Qmake (ten_thousandths m e) 10000) in if s then Bopp y else y
  | _ => x
  end.
Definition float_toks (x : f64) : list tok :=
  match x with
  | B754_zero s => if s then [TMinus; TFloat (Qmake 0 10000)] else [TFloat (Qmake 0 10000)]
  | B754_finite s m e _ => let k := TFloat (Qmake (ten_thousandths m e) 10000) in if s then [TMinus; k] else [k]
  | _ => []
  end.
Lemma int_toks_expr z : expr (int_toks z) (VInt z).
Proof. unfold int_toks. destruct (z <? 0); [|constructor]. rewrite <- (Z.opp_involutive z) at 2. constructor. Qed.
Lemma float_toks_expr x : is_finite x = true -> expr (float_toks x) (VFloat (reread x)).
Proof. destruct x as [[]|[]| |[] m e H]; try discriminate; intros _; cbn [float_toks reread]; try apply ex_float; apply ex_neg_float. Qed.
Lemma lex_minus d w : lex (mkstate MNone d true) ("-" :: w) = lbind (Some ([TMinus], mkstate MNone d true)) (fun s => lex s w).
Proof. reflexivity. Qed.
Lemma lex_int z c d ks s' : is_word_char c = false -> (forall w, fresh (mkstate (MWord w) d true) c = Some (ks, s')) ->
  lex (mkstate MNone d true) (show_int z ++ [c]) = Some (int_toks z ++ ks, s').
Proof.
  intros NC F. unfold show_int, int_toks. destruct (Z.ltb_spec z 0) as [L|L].
  - destruct (show_nat_word (- z) ltac:(lia)) as (A & B & C). cbn [app]. rewrite lex_minus. apply (lbind_eq _ _ [TMinus] (mkstate MNone d true) (TInt (- z) :: ks)); [reflexivity|].
    now apply lex_word_then.
  - destruct (show_nat_word z L) as (A & B & C). now apply lex_word_then.
Qed.
Lemma ten_thousandths_pos m e : 0 <= ten_thousandths m e.
Proof.
  unfold ten_thousandths. destruct (Z.leb_spec 0 e).
  - assert (0 <= 2 ^ e) by (apply Z.pow_nonneg; lia). nia.
  - unfold div_half_even. assert (0 < 2 ^ (- e)) by (apply Z.pow_pos_nonneg; lia). assert (0 <= Zpos m * 10000 / 2 ^ (- e)) by (apply Z.div_pos; lia).
    cbv zeta. destruct (_ ?= _); [destruct (Z.even _)| |]; lia.
Qed.
Lemma lex_float x c d ks s' : is_finite x = true -> is_word_char c = false -> (forall w, fresh (mkstate (MWord w) d true) c = Some (ks, s')) ->
  lex (mkstate MNone d true) (show_4f x ++ [c]) = Some (float_toks x ++ ks, s').
Proof.
  intros Fx NC F.
  assert (K : forall n, 0 <= n -> lex (mkstate MNone d true) (show_frac n ++ [c]) = Some (TFloat (Qmake n 10000) :: ks, s')).
  { intros n Hn. destruct (show_frac_word n Hn) as (A & B & C). now apply lex_word_then. }
  assert (K' : forall n, 0 <= n -> lex (mkstate MNone d true) ("-" :: show_frac n ++ [c]) = Some (TMinus :: TFloat (Qmake n 10000) :: ks, s')).
  { intros n Hn. rewrite lex_minus. apply (lbind_eq _ _ [TMinus] (mkstate MNone d true) (TFloat (Qmake n 10000) :: ks)); [reflexivity|]. now apply K. }
  destruct x as [[]|[]| |[] m e H]; try discriminate; cbn [show_4f float_toks app].
  - apply K'. lia.
  - apply K. lia.
  - apply K'. apply ten_thousandths_pos.
  - apply K. apply ten_thousandths_pos.
Qed.
Lemma show_int_nl z : forallb (fun c => negb (Ascii.eqb c nl)) (show_int z) = true.
Proof.
  assert (K : forall n, 0 <= n -> forallb (fun c => negb (Ascii.eqb c nl)) (show_nat n) = true).
  { intros n H. destruct (show_nat_ok n H) as (D & _). apply solid_nl. unfold solid. rewrite forallb_forall in *. intros c Hc. specialize (D c Hc). rewrite negb_true_iff.
    unfold is_digit in D. rewrite andb_true_iff, !Z.leb_le in D. unfold is_space. rewrite orb_false_iff, !andb_false_iff, !Z.leb_gt. lia. }
  unfold show_int. destruct (Z.ltb_spec z 0); [cbn [forallb]; change (Ascii.eqb "-" nl) with false; cbn [negb andb]|]; apply K; lia.
Qed.
Lemma lex_comment_line w d : forallb (fun c => negb (Ascii.eqb c nl)) w = true -> lex (mkstate MComment (S d) true) (w ++ [nl]) = Some ([], mkstate MNone (S d) true).
Proof. intros H. apply (lex_cat _ _ _ [] (mkstate MComment (S d) true) []); [now apply lex_comment|reflexivity]. Qed.

Lemma lex_header y m : lex start (render (OHeader y m)) =
  Some (TName (txt "delta_t_base_year") :: TEq :: int_toks y ++ TEnd :: TName (txt "delta_t_base_month") :: TEq :: int_toks m ++ TEnd :: [TName (txt "delta_t"); TEq; TOpen], mkstate MNone 1 true).
Proof.
  assert (ER : render (OHeader y m) = line [txt "# table generated by util/get_delta_t script"] ++ txt "delta_t_base_year = " ++ (show_int y ++ [nl]) ++
    txt "delta_t_base_month = " ++ (show_int m ++ [nl]) ++ line [txt "delta_t = \"] ++ line [txt "  ["]).
  { unfold render. unfold line at 2 3. cbn [List.concat]. rewrite !app_nil_r, <- !app_assoc. reflexivity. }
  rewrite ER.
  match goal with |- _ = Some (?l, _) => replace l with ([] ++ [TName (txt "delta_t_base_year"); TEq] ++ (int_toks y ++ [TEnd]) ++ [TName (txt "delta_t_base_month"); TEq] ++ (int_toks m ++ [TEnd]) ++ [TName (txt "delta_t"); TEq; TOpen]) end.
  2:{ cbn [app]. do 2 f_equal. rewrite <- !app_assoc. reflexivity. }
  eapply lex_cat; [vm_compute; reflexivity|]. eapply lex_cat; [vm_compute; reflexivity|].
  eapply lex_cat; [apply (lex_int y nl 0 [TEnd] (mkstate MNone 0 false)); reflexivity|]. eapply lex_cat; [vm_compute; reflexivity|].
  eapply lex_cat; [apply (lex_int m nl 0 [TEnd] (mkstate MNone 0 false)); reflexivity|]. vm_compute. reflexivity.
Qed.
Lemma lex_open y : lex (mkstate MNone 1 true) (render (OOpen y)) = Some ([TOpen], mkstate MNone 2 true).
Proof.
  unfold render, line. cbn [List.concat]. rewrite app_nil_r, <- app_assoc. change [TOpen] with ([TOpen] ++ []). eapply lex_cat; [vm_compute; reflexivity|].
  apply lex_comment_line. apply show_int_nl.
Qed.
Lemma lex_item x m : is_finite x = true -> lex (mkstate MNone 2 true) (render (OItem x m)) = Some (float_toks x ++ [TComma], mkstate MNone 2 true).
Proof.
  intros F. unfold render, line. cbn [List.concat]. rewrite app_nil_r, <- !app_assoc.
  change (float_toks x ++ [TComma]) with ([] ++ float_toks x ++ [TComma]). eapply lex_cat; [vm_compute; reflexivity|].
  replace (show_4f x ++ txt ", # " ++ show_int m ++ [nl]) with ((show_4f x ++ [","]) ++ txt " # " ++ show_int m ++ [nl]) by (rewrite <- app_assoc; reflexivity). rewrite <- (app_nil_r (float_toks x ++ [TComma])).
  eapply lex_cat; [apply (lex_float x "," 2 [TComma] (mkstate MNone 2 true)); [exact F|reflexivity|reflexivity]|].
  change (@nil tok) with ([] ++ @nil tok). eapply lex_cat; [vm_compute; reflexivity|]. apply lex_comment_line. apply show_int_nl.
Qed.
Lemma lex_close : lex (mkstate MNone 2 true) (render OClose) = Some ([TClose; TComma], mkstate MNone 1 true).
Proof. vm_compute. reflexivity. Qed.
Lemma lex_end : lex (mkstate MNone 1 true) (render OEnd) = Some ([TClose; TEnd], mkstate MNone 0 false).
Proof. vm_compute. reflexivity. Qed.

Definition finite_row (row : list f64) : Prop := Forall (fun x => is_finite x = true) row.
Definition texts (o : list (out f64)) : text := List.concat (map render o).
Lemma texts_app a b : texts (a ++ b) = texts a ++ texts b. Proof. unfold texts. now rewrite map_app, concat_app. Qed.
Lemma lex_row items row : row_text items row -> finite_row row ->
  exists ts, lex (mkstate MNone 2 true) (texts items) = Some (ts, mkstate MNone 2 true) /\ elements ts (map VFloat (map reread row)).
Proof.
  intros R. induction R as [|x m items row R IH]; intros F; [exists []; split; [reflexivity|constructor]|].
  inversion F as [|? ? F1 F2]; subst. destruct (IH F2) as (ts & L & E). exists ((float_toks x ++ [TComma]) ++ ts). split.
  - change (texts (OItem x m :: items)) with (render (OItem x m) ++ texts items). eapply lex_cat; [now apply lex_item|exact L].
  - rewrite <- app_assoc. cbn [app map]. apply el_cons; [now apply float_toks_expr|exact E].
Qed.
Lemma lex_rows rest rows : rows_text rest rows -> Forall finite_row rows ->
  exists ts, lex (mkstate MNone 1 true) (texts rest) = Some (ts ++ [TClose; TEnd], mkstate MNone 0 false) /\
    elements ts (map (fun row => VList (map VFloat row)) (map (map reread) rows)).
Proof.
  intros R. induction R as [|y items row rest rows RT R IH]; intros F; [exists []; split; [exact lex_end|constructor]|].
  inversion F as [|? ? F1 F2]; subst. destruct (IH F2) as (ts & L & E). destruct (lex_row items row RT F1) as (ti & LI & EI).
  exists ((TOpen :: ti ++ [TClose]) ++ TComma :: ts). split.
  - change (texts (OOpen y :: items ++ OClose :: rest)) with (render (OOpen y) ++ texts (items ++ OClose :: rest)). rewrite texts_app.
    change (texts (OClose :: rest)) with (render OClose ++ texts rest).
    replace (((TOpen :: ti ++ [TClose]) ++ TComma :: ts) ++ [TClose; TEnd]) with ([TOpen] ++ ti ++ [TClose; TComma] ++ ts ++ [TClose; TEnd]) by (cbn; now rewrite <- !app_assoc).
    eapply lex_cat; [apply lex_open|]. eapply lex_cat; [exact LI|]. eapply lex_cat; [exact lex_close|exact L].
  - cbn [map]. apply el_cons; [now constructor|exact E].
Qed.
Lemma table_module o y m rows : table_text o y m rows -> Forall finite_row rows -> module_binds (texts o) (table_env y m (map (map reread) rows)).
Proof.
  intros (rest & -> & R) F. destruct (lex_rows rest rows R F) as (ts & L & E).
  change (texts (OHeader y m :: rest)) with (render (OHeader y m) ++ texts rest). unfold module_binds, tokens.
  rewrite (lex_cat _ _ _ _ _ _ _ (lex_header y m) L). eexists. split; [reflexivity|].
  match goal with |- assignments ?l _ => replace l with (TName (txt "delta_t_base_year") :: TEq :: int_toks y ++ TEnd :: TName (txt "delta_t_base_month") :: TEq :: int_toks m ++
    TEnd :: TName (txt "delta_t") :: TEq :: (TOpen :: ts ++ [TClose]) ++ TEnd :: []) end.
  2:{ repeat (cbn [app]; rewrite <- ?app_assoc). reflexivity. }
  unfold table_env. apply as_one; [apply int_toks_expr|]. apply as_one; [apply int_toks_expr|]. apply as_one; [now constructor|constructor].
Qed.

(* ---------------------------------------------------------------- four decimals *)
Lemma half_even_near a b n : 0 < b -> Z.abs (2 * a - 2 * n * b) < b -> div_half_even a b = n.
Proof.
  intros B H. unfold div_half_even. pose proof (Z.div_mod a b ltac:(lia)) as D. pose proof (Z.mod_pos_bound a b B) as M. set (q := a / b) in *. set (r := a mod b) in *. cbv zeta.
  assert (C : n = q \/ n = q + 1) by nia. destruct C as [->|C].
  - assert (2 * r < b) by nia. rewrite (proj2 (Z.compare_lt_iff _ _)) by lia. reflexivity.
  - subst n. assert (b < 2 * r) by nia. rewrite (proj2 (Z.compare_gt_iff _ _)) by lia. reflexivity.
Qed.
Lemma ten_thousandths_near m e n : (Rabs (IZR (Zpos m) * bpow radix2 e * 10000 - IZR n) < / 2)%R -> ten_thousandths m e = n.
Proof.
  intros H. unfold ten_thousandths. destruct (Z.leb_spec 0 e) as [E|E].
  - replace (bpow radix2 e) with (IZR (2 ^ e)) in H by (apply (IZR_Zpower radix2); exact E).
    rewrite <- !mult_IZR, <- minus_IZR, <- abs_IZR in H. assert (K : (IZR (Z.abs (Zpos m * 2 ^ e * 10000 - n)) < 1)%R) by lra. apply lt_IZR in K. lia.
  - apply half_even_near; [apply Z.pow_pos_nonneg; lia|]. set (b := 2 ^ (- e)). assert (B : (0 < IZR b)%R) by (apply IZR_lt; apply Z.pow_pos_nonneg; lia).
    assert (EB : bpow radix2 e = (/ IZR b)%R). { unfold b. rewrite <- (Z.opp_involutive e) at 1. rewrite bpow_opp. f_equal. symmetry. apply (IZR_Zpower radix2). lia. }
    rewrite EB in H. apply lt_IZR. rewrite abs_IZR, minus_IZR, !mult_IZR. 
    replace (2 * (IZR (Zpos m) * 10000) - 2 * IZR n * IZR b)%R with ((IZR (Zpos m) * / IZR b * 10000 - IZR n) * (2 * IZR b))%R by (field; lra).
    rewrite Rabs_mult, (Rabs_pos_eq (2 * IZR b)) by lra. nra.
Qed.
Lemma flit_same q q' : Q2R q = Q2R q' -> (Rabs (Q2R q) <= bpow radix2 1000)%R -> rnd (Q2R q) <> 0%R -> flit q = flit q'.
Proof.
  intros E B NZ. destruct (val_lit q B) as [F1 V1]. rewrite E in B. destruct (val_lit q' B) as [F2 V2]. rewrite <- E in V2.
  apply B2R_inj; [| |congruence].
  - destruct (flit q); try discriminate; [cbn in V1; congruence|reflexivity].
  - destruct (flit q'); try discriminate; [cbn in V2; congruence|reflexivity].
Qed.
Lemma rnd_close w : (Rabs (rnd w - w) <= Rabs w * 1.2e-16 + 1e-20)%R.
Proof.
  assert (H : (Rabs (rnd w - w) <= Rabs w * bpow radix2 (-53) + bpow radix2 (-1074))%R).
  { destruct (error_N_FLT radix2 (-1074) 53 ltac:(lia) (fun x => negb (Z.even x)) w) as (eps & eta & He & Ht & _ & E).
    change (round radix2 (FLT_exp (-1074) 53) (Znearest _) w) with (rnd w) in E. rewrite E.
    replace (w * (1 + eps) + eta - w)%R with (w * eps + eta)%R by ring.
    eapply Rle_trans; [apply Rabs_triang|]. rewrite Rabs_mult.
    change (/ 2 * bpow radix2 (- (53) + 1))%R with (bpow radix2 (-1) * bpow radix2 (- (53) + 1))%R in He. rewrite <- bpow_plus in He.
    apply Rplus_le_compat; [|pose proof (bpow_gt_0 radix2 (-1074)); lra]. apply Rmult_le_compat_l; [apply Rabs_pos|exact He]. }
  assert (K : (bpow radix2 (-1074) <= bpow radix2 (-70))%R) by now apply bpow_le.
  change (bpow radix2 (-53)) with (/ 9007199254740992)%R in H. change (bpow radix2 (-70)) with (/ 1180591620717411303424)%R in K.
  pose proof (Rabs_pos w). lra.
Qed.
Lemma flit_digits p d k : 0 <= k <= 4 -> Zpos d = 10 ^ k -> Zpos p <= 10 ^ 11 * Zpos d ->
  let N := Zpos p * 10 ^ (4 - k) in exists m e H, flit (Qmake (Zpos p) d) = B754_finite false m e H /\ ten_thousandths m e = N /\ flit (Qmake N 10000) = flit (Qmake (Zpos p) d).
Proof.
  intros Hk Hd Hb. cbv zeta. set (x := flit _).
  set (q := Qmake (Zpos p) d) in *. set (N := Zpos p * 10 ^ (4 - k)).
  assert (ED : (IZR (Zpos d) * IZR (10 ^ (4 - k)) = 10000)%R).
  { rewrite Hd, <- mult_IZR, <- Z.pow_add_r by lia. replace (k + (4 - k)) with 4 by lia. reflexivity. }
  assert (PD : (0 < IZR (Zpos d))%R) by (apply IZR_lt; lia). assert (PP : (1 <= IZR (Zpos p))%R) by (apply IZR_le; lia).
  assert (PT : (0 < IZR (10 ^ (4 - k)))%R) by (apply IZR_lt, Z.pow_pos_nonneg; lia).
  assert (QE : Q2R q = (IZR N / 10000)%R). { unfold q, Q2R, N; cbn [Qnum Qden]. rewrite mult_IZR, <- ED. field. lra. }
  assert (QN : Q2R (Qmake N 10000) = Q2R q) by (rewrite QE; unfold Q2R; cbn [Qnum Qden]; reflexivity).
  assert (QB : (Q2R q <= 1e11)%R).
  { unfold q, Q2R; cbn [Qnum Qden]. apply IZR_le in Hb. rewrite mult_IZR in Hb. change (IZR (10 ^ 11)) with 1e11%R in Hb || replace (IZR (10 ^ 11)) with 1e11%R in Hb by (change (10 ^ 11) with 100000000000; lra).
    apply Rmult_le_reg_r with (IZR (Zpos d)); [exact PD|]. field_simplify; lra. }
  assert (N1 : 1 <= N) by (unfold N; assert (0 < 10 ^ (4 - k)) by (apply Z.pow_pos_nonneg; lia); nia).
  assert (QL : (1e-4 <= Q2R q)%R). { rewrite QE. apply IZR_le in N1. lra. }
  assert (BB : (Rabs (Q2R q) <= bpow radix2 1000)%R).
  { rewrite Rabs_pos_eq by lra. apply Rle_trans with (bpow radix2 40); [change (bpow radix2 40) with 1099511627776%R; lra|now apply bpow_le]. }
  destruct (val_lit q BB) as [F1 V1]. fold x in F1, V1. pose proof (rnd_close (Q2R q)) as RC. rewrite (Rabs_pos_eq (Q2R q)) in RC by lra.
  assert (RP : (0 < rnd (Q2R q))%R) by (apply Rabs_le_inv in RC; lra).
  assert (FN : flit (Qmake N 10000) = x). { symmetry. unfold x. apply flit_same; [now rewrite QN|exact BB|lra]. }
  destruct x as [s|s| |s m e He]; try discriminate; [change (0 = rnd (Q2R q))%R in V1; lra|]. assert (s = false) as ->.
  { destruct s; [|reflexivity]. exfalso. clear - V1 RP. unfold B2R, cond_Zopp in V1. rewrite <- V1 in RP. apply Rlt_not_le in RP. apply RP, F2R_le_0. cbn. lia. }
  exists m, e, He. split; [reflexivity|]. split; [|exact FN].
  apply ten_thousandths_near. unfold B2R, F2R in V1. cbn [cond_Zopp Fnum Fexp] in V1. rewrite V1. replace (rnd (Q2R q) * 10000 - IZR N)%R with ((rnd (Q2R q) - Q2R q) * 10000)%R by (rewrite QE at 2; field).
    rewrite Rabs_mult, (Rabs_pos_eq 10000) by lra. apply Rabs_le_inv in RC. apply Rle_lt_trans with ((1e11 * 1.2e-16 + 1e-20) * 10000)%R; [|lra]. apply Rmult_le_compat_r; [lra|]. apply Rabs_le. lra.
Qed.
Lemma reread_fixed n d : 0 <= n -> (exists k, 0 <= k <= 4 /\ Zpos d = 10 ^ k) -> n <= 10 ^ 11 * Zpos d -> let x := flit (Qmake n d) in is_finite x = true /\ reread x = x /\ reread (Bopp x) = Bopp x.
Proof.
  intros Hn (k & Hk & Hd) Hb. destruct n as [|p|p]; [cbn; auto| |lia]. destruct (flit_digits p d k Hk Hd Hb) as (m & e & H & E & TT & FN). cbv zeta. rewrite E in *.
  split; [reflexivity|]. cbn [reread Bopp]. cbv zeta. rewrite TT, FN. split; reflexivity.
Qed.
Lemma show_4f_fixed n : 0 <= n <= 10 ^ 15 -> show_4f (flit (Qmake n 10000)) = show_frac n.
Proof.
  intros Hn. destruct n as [|p|p]; [reflexivity| |lia]. destruct (flit_digits p 10000 4 ltac:(lia) eq_refl ltac:(lia)) as (m & e & H & E & TT & _). rewrite E. cbn [show_4f].
  rewrite TT. change (10 ^ (4 - 4)) with 1. now rewrite Z.mul_1_r.
Qed.

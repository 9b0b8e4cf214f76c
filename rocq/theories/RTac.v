(* Evaluation lemmas and tactics for the MathR instance on finite arguments. *)
From Coq Require Import Reals Qreals Lra Lia.
From Flocq Require Import Core.
From Verif Require Import Py Num RInst.
Local Open Scope R_scope.

Definition rad (x : R) : R := x * (PI / 180).
Definition deg (x : R) : R := x * (180 / PI).

Lemma Q2R_int n : Q2R (n # 1) = IZR n.
Proof. unfold Q2R. simpl. lra. Qed.
Lemma Q2R_inject n : Q2R (inject_Z n) = IZR n.
Proof. apply Q2R_int. Qed.
Lemma Q2R_1e8 : Q2R 1e8 = 100000000.
Proof. unfold Q2R. simpl. lra. Qed.

Lemma ofZ_R z : @ofZ MathR z = Fin (IZR z).
Proof. unfold ofZ. simpl. now rewrite Q2R_inject. Qed.
Lemma lit_R q : @lit MathR q = Fin (Q2R q).
Proof. reflexivity. Qed.
Lemma add_R a b : @add MathR (Fin a) (Fin b) = Fin (a + b).
Proof. reflexivity. Qed.
Lemma sub_R a b : @sub MathR (Fin a) (Fin b) = Fin (a - b).
Proof. reflexivity. Qed.
Lemma mul_R a b : @mul MathR (Fin a) (Fin b) = Fin (a * b).
Proof. reflexivity. Qed.
Lemma neg_R a : @neg MathR (Fin a) = Fin (- a).
Proof. reflexivity. Qed.
Lemma nsin_R a : @nsin MathR (Fin a) = Ok (Fin (sin a)).
Proof. reflexivity. Qed.
Lemma ncos_R a : @ncos MathR (Fin a) = Ok (Fin (cos a)).
Proof. reflexivity. Qed.
Lemma natan_R a : @natan MathR (Fin a) = Ok (Fin (atan a)).
Proof. reflexivity. Qed.
Lemma natan2_R a b : @natan2 MathR (Fin a) (Fin b) = Ok (Fin (Ratan2 a b)).
Proof. reflexivity. Qed.
Lemma npi_R : @npi MathR = Fin PI.
Proof. reflexivity. Qed.
Lemma ne_R : @ne MathR = Fin (exp 1).
Proof. reflexivity. Qed.
Lemma radians_R a : @radians MathR (Fin a) = Fin (rad a).
Proof. reflexivity. Qed.
Lemma degrees_R a : @degrees MathR (Fin a) = Fin (deg a).
Proof. reflexivity. Qed.
Lemma lt_R a b : @lt MathR (Fin a) (Fin b) = Rbool_lt a b.
Proof. reflexivity. Qed.
Lemma le_R a b : @le MathR (Fin a) (Fin b) = Rbool_le a b.
Proof. reflexivity. Qed.
Lemma of_bool_R (b : bool) : @of_bool MathR b = Fin (if b then 1 else 0).
Proof. reflexivity. Qed.
Lemma truth_R (b : bool) : @truth MathR b = Ok b.
Proof. reflexivity. Qed.
Lemma where_R (b : bool) x y : @where_ MathR b x y = if b then x else y.
Proof. reflexivity. Qed.
Lemma round_R a : @round_int MathR (Fin a) = Ok (ZnearestE a).
Proof. reflexivity. Qed.

Lemma Req_bool_true a b : a = b -> Req_bool a b = true.
Proof. intros. unfold Req_bool. destruct (Req_EM_T a b); tauto. Qed.
Lemma Req_bool_false a b : a <> b -> Req_bool a b = false.
Proof. intros. unfold Req_bool. destruct (Req_EM_T a b); tauto. Qed.
Lemma Rbool_lt_true a b : a < b -> Rbool_lt a b = true.
Proof. intros. unfold Rbool_lt. destruct (Rlt_dec a b); tauto. Qed.
Lemma Rbool_lt_false a b : b <= a -> Rbool_lt a b = false.
Proof. intros. unfold Rbool_lt. destruct (Rlt_dec a b); auto. lra. Qed.
Lemma Rbool_le_true a b : a <= b -> Rbool_le a b = true.
Proof. intros. unfold Rbool_le. destruct (Rle_dec a b); tauto. Qed.
Lemma Rbool_le_false a b : b < a -> Rbool_le a b = false.
Proof. intros. unfold Rbool_le. destruct (Rle_dec a b); auto. lra. Qed.

Lemma div_R a b : b <> 0 -> @div MathR (Fin a) (Fin b) = Ok (Fin (a / b)).
Proof. intros H. simpl. unfold xdiv_py, xis_zero. now rewrite Req_bool_false. Qed.
Lemma div_R0 a : @div MathR (Fin a) (Fin 0) = Err ZeroDivisionError.
Proof. simpl. unfold xdiv_py, xis_zero. now rewrite Req_bool_true. Qed.
Lemma fmod_R a b : b <> 0 -> @fmod MathR (Fin a) (Fin b) = Ok (Fin (Rfmod a b)).
Proof. intros H. simpl. unfold xfmod_py, xis_zero. now rewrite Req_bool_false. Qed.
Lemma asin_ok_true a : -1 <= a <= 1 -> asin_ok a = true.
Proof. intros. unfold asin_ok. now rewrite !Rbool_le_true by lra. Qed.
Lemma asin_ok_false a : a < -1 \/ 1 < a -> asin_ok a = false.
Proof. intros [H|H]; unfold asin_ok. now rewrite (Rbool_le_false (-1)). rewrite (Rbool_le_false a 1) by lra. now rewrite andb_false_r. Qed.
Lemma nasin_R a : -1 <= a <= 1 -> @nasin MathR (Fin a) = Ok (Fin (asin a)).
Proof. intros. simpl. now rewrite asin_ok_true. Qed.
Lemma nacos_R a : -1 <= a <= 1 -> @nacos MathR (Fin a) = Ok (Fin (acos a)).
Proof. intros. simpl. now rewrite asin_ok_true. Qed.
Lemma ntan_R a : cos a <> 0 -> @ntan MathR (Fin a) = Ok (Fin (tan a)).
Proof. intros. simpl. unfold Rtan_x. now rewrite Req_bool_false. Qed.
Lemma nexp_R a : exp a < float_overflow -> @nexp MathR (Fin a) = Ok (Fin (exp a)).
Proof. intros. simpl. now rewrite Rbool_lt_true. Qed.
Lemma powi_R a n : @powi MathR (Fin a) n = Ok (Fin (a ^ n)).
Proof.
  simpl. f_equal. induction n as [|n IH]; [reflexivity|]. destruct n.
  - simpl. f_equal. ring.
  - change (xpowi (Fin a) (S (S n))) with (xmul (Fin a) (xpowi (Fin a) (S n))). rewrite IH. reflexivity.
Qed.
Lemma powf_R a b : 0 < a -> @powf MathR (Fin a) (Fin b) = Ok (Fin (Rpower a b)).
Proof. intros. simpl. now rewrite Rbool_lt_true. Qed.

Lemma PI_ne0 : PI <> 0.
Proof. pose proof PI_RGT_0. lra. Qed.

Lemma rmap_Ok {A B} (f : A -> B) a : rmap f (Ok a) = Ok (f a).
Proof. reflexivity. Qed.

Global Hint Rewrite @bind_Ok @rmap_Ok ofZ_R lit_R add_R sub_R mul_R neg_R nsin_R ncos_R natan_R natan2_R npi_R ne_R
  radians_R degrees_R lt_R le_R of_bool_R truth_R where_R round_R powi_R Q2R_int Q2R_inject Q2R_1e8 : rx.
Ltac rx_side := first [ assumption | apply PI_ne0 | lra | unfold Q2R; simpl; lra | split; assumption ].
Ltac rx := repeat first
  [ progress (autorewrite with rx)
  | rewrite div_R by rx_side
  | rewrite fmod_R by rx_side
  | rewrite nasin_R by rx_side
  | rewrite nacos_R by rx_side
  | rewrite ntan_R by rx_side
  | rewrite powf_R by rx_side
  | rewrite nexp_R by rx_side ].

(** * Lemmas about decimal printing *)
From Coq Require Import Decimal DecimalFacts DecimalN DecimalString.
From Verif Require Import Base F_Base M_Util M_Json.

(** the digits of a [uint], most significant first *)
Fixpoint uint_digits (d : uint) : str :=
  match d with
  | Nil => []
  | D0 d => 48%N :: uint_digits d
  | D1 d => 49%N :: uint_digits d
  | D2 d => 50%N :: uint_digits d
  | D3 d => 51%N :: uint_digits d
  | D4 d => 52%N :: uint_digits d
  | D5 d => 53%N :: uint_digits d
  | D6 d => 54%N :: uint_digits d
  | D7 d => 55%N :: uint_digits d
  | D8 d => 56%N :: uint_digits d
  | D9 d => 57%N :: uint_digits d
  end.

Lemma lit_string_of_uint : forall d, lit (NilEmpty.string_of_uint d) = uint_digits d.
Proof. induction d; cbn; rewrite ?IHd; reflexivity. Qed.

Lemma to_uint_unorm : forall n, unorm (N.to_uint n) = N.to_uint n.
Proof. intros n. rewrite <- (Unsigned.to_of (N.to_uint n)). rewrite Unsigned.of_to. reflexivity. Qed.

Lemma to_uint_not_nil : forall n, N.to_uint n <> Nil.
Proof.
  intros n H. pose proof (to_uint_unorm n) as E. rewrite H in E. discriminate.
Qed.

Lemma dec_str_uint : forall n, dec_str n = uint_digits (N.to_uint n).
Proof.
  intros n. unfold dec_str. rewrite <- lit_string_of_uint.
  pose proof (to_uint_not_nil n) as H. destruct (N.to_uint n); [congruence|..]; reflexivity.
Qed.

Lemma uint_digits_digit : forall d, forallb is_digit (uint_digits d) = true.
Proof. induction d; cbn; auto. Qed.

Lemma dec_str_digits : forall n, forallb is_digit (dec_str n) = true.
Proof. intros n. rewrite dec_str_uint. apply uint_digits_digit. Qed.

Lemma dec_str_nonempty : forall n, dec_str n <> [].
Proof.
  intros n. rewrite dec_str_uint. pose proof (to_uint_not_nil n) as H.
  destruct (N.to_uint n); [congruence|..]; discriminate.
Qed.

Lemma dec_str_no_zero : forall n, dec_str n = [48%N] \/ exists c t, dec_str n = c :: t /\ c <> 48%N.
Proof.
  intros n. rewrite dec_str_uint. pose proof (to_uint_not_nil n) as H.
  pose proof (to_uint_unorm n) as E.
  destruct (N.to_uint n); [congruence| |right; do 2 eexists; split; [reflexivity|discriminate]..].
  left. unfold unorm in E. cbn [nzhead] in E.
  destruct (nzhead u) eqn:E2; try discriminate E.
  - injection E as <-. reflexivity.
  - exfalso. apply (nzhead_nonzero u u0 E2).
Qed.

(** value *)
Lemma of_uint_acc_val : forall d p,
  Z.pos (Pos.of_uint_acc d p)
  = fold_left (fun acc c => acc * 10 + (Z.of_N c - 48)) (uint_digits d) (Z.pos p).
Proof.
  induction d; intros p; cbn [Pos.of_uint_acc uint_digits fold_left]; [reflexivity|..];
    rewrite IHd; f_equal; rewrite ?Pos2Z.inj_add, ?Pos2Z.inj_mul; cbn [Z.of_N]; lia.
Qed.

Lemma of_uint_val : forall d, Z.of_N (N.of_uint d) = digits_val (uint_digits d).
Proof.
  unfold digits_val, N.of_uint.
  induction d; cbn [Pos.of_uint uint_digits fold_left]; [reflexivity|exact IHd|..];
    cbn [Z.of_N]; rewrite of_uint_acc_val; reflexivity.
Qed.

Lemma dec_str_val : forall n, digits_val (dec_str n) = Z.of_N n.
Proof. intros n. rewrite dec_str_uint, <- of_uint_val, Unsigned.of_to. reflexivity. Qed.

Lemma dec_str_inj : forall a b, dec_str a = dec_str b -> a = b.
Proof. intros a b H. apply N2Z.inj. rewrite <- !dec_str_val, H. reflexivity. Qed.

(** * Texts in src/util.rs: substrings, the unique segment, dots, slashes *)
From Verif Require Import Base F_Base M_Util M_Json S_Json S_Url F_Dec F_JsonText.

(** ** substrings *)
Lemma is_prefix_iff : forall p s, is_prefix p s = true <-> exists b, s = p ++ b.
Proof.
  induction p as [|x p IH]; intros s; cbn.
  - split; [eauto|reflexivity].
  - destruct s as [|y s]; [split; [discriminate|intros [b H]; discriminate]|].
    rewrite andb_true_iff, N.eqb_eq, IH. split.
    + intros [-> [b ->]]. eauto.
    + intros [b H]. inv H. eauto.
Qed.

Lemma contains_iff : forall s sub, contains s sub = true <-> substring sub s.
Proof.
  unfold substring. induction s as [|x s IH]; intros sub; cbn; rewrite orb_true_iff, is_prefix_iff.
  - split.
    + intros [[b H]|H]; [|discriminate]. exists [], b. exact H.
    + intros [a [b H]]. left. symmetry in H. apply app_eq_nil in H. destruct H as [-> H].
      exists b. symmetry. exact H.
  - rewrite IH. split.
    + intros [[b H]|[a [b H]]].
      * exists [], b. exact H.
      * exists (x :: a), b. rewrite H. reflexivity.
    + intros [[|y a] [b H]].
      * left. exists b. exact H.
      * right. inv H. eauto.
Qed.

(** ** decimal numerals *)
Lemma decimal_iff : forall t n, decimal t n <-> int_part t n.
Proof.
  intros t n. split.
  - intros H. assert (G : int_part t n /\ (t = [48%N] -> n = 0)); [|tauto].
    induction H as [d H|t n d H [IH1 IH2] Hn Hd].
    + split; [|intros E; assert ((48 + Z.to_N d)%N = 48%N) by congruence; lia]. split.
      * apply (digits_snoc [] 0); [constructor|]. split; [lia|reflexivity].
      * destruct (Z.eq_dec d 0) as [->|]; [left; reflexivity|right].
        exists (48 + Z.to_N d)%N, []. split; [reflexivity|]. lia.
    + destruct IH1 as [D Z]. split; [split|].
      * apply digits_snoc; [exact D|]. split; [lia|reflexivity].
      * destruct Z as [->|[c [t' [-> Hc]]]]; [specialize (IH2 eq_refl); lia|].
        right. exists c, (t' ++ [(48 + Z.to_N d)%N]). split; [reflexivity|exact Hc].
      * intros E. apply (f_equal (@List.length N)) in E. rewrite app_length in E. cbn in E.
        destruct t; [|cbn in E; lia]. destruct Z as [Z|[c [t' [Z _]]]]; discriminate.
  - intros [D Z]. assert (G : forall t n, digits t n ->
      (exists c t', t = c :: t' /\ c <> 48%N) -> decimal t n /\ 0 < n).
    { clear. intros t n D. induction D as [|t n c d D IH [Hd ->]]; intros [c0 [t' [E Hc]]]; [discriminate|].
      destruct t as [|c1 t].
      - cbn in E. injection E as <- <-. inv D; [|symmetry in H; apply app_cons_not_nil in H; contradiction].
        split; [apply dec_digit; exact Hd|]. unfold char in *. assert (d <> 0) by (intros ->; apply Hc; reflexivity). lia.
      - cbn in E. injection E as <- <-. destruct IH as [IH1 IH2]; [eauto|].
        split; [apply dec_more; assumption|lia]. }
    destruct Z as [->|Z]; [|apply G; assumption].
    apply digits_iff in D. destruct D as [_ D]. cbn in D. subst n. apply (dec_digit 0). lia.
Qed.

Lemma decimal_text : forall a b n, decimal a n -> decimal b n -> a = b.
Proof.
  intros a b n Ha. revert b. induction Ha as [d Hd|t n d Ha IH Hn Hd]; intros b Hb.
  - inversion Hb as [d' Hd' E1 E2|t' n' d' Hb' Hn' Hd' E1 E2]; subst; [reflexivity|]. exfalso. lia.
  - inversion Hb as [d' Hd' E1 E2|t' n' d' Hb' Hn' Hd' E1 E2]; subst; [exfalso; lia|].
    change (10 * n' + d' = 10 * n + d) in E2. assert (d' = d /\ n' = n) as [-> ->] by lia. rewrite (IH t' Hb'). reflexivity.
Qed.

Lemma decimal_value : forall a n m, decimal a n -> decimal a m -> n = m.
Proof.
  intros a n m Hn Hm. apply decimal_iff in Hn. apply decimal_iff in Hm. destruct Hn as [Hn _], Hm as [Hm _].
  apply digits_iff in Hn. apply digits_iff in Hm. destruct Hn as [_ <-], Hm as [_ <-]. reflexivity.
Qed.

Lemma dec_str_decimal : forall n, decimal (dec_str n) (Z.of_N n).
Proof.
  intros n. apply decimal_iff. split.
  - apply digits_iff. split; [apply dec_str_digits|apply dec_str_val].
  - apply dec_str_no_zero.
Qed.

Lemma Forall2_len : forall A B (R : A -> B -> Prop) l r, Forall2 R l r -> List.length l = List.length r.
Proof. intros A B R l r H. induction H; cbn; congruence. Qed.

(** ** build_unique_segment *)
Section Unique.
  Context (input : str).
  Definition ident (j : nat) : str := lit "p" ++ dec_str (N.of_nat j).
  Definition ends_at (j e : nat) : Prop :=
    exists a b, input = a ++ ident j ++ b /\ e = List.length (a ++ ident j).

  Lemma ends_at_inj : forall j j' e, ends_at j e -> ends_at j' e -> j = j'.
  Proof.
    intros j j' e [a [b [H1 H2]]] [a' [b' [H1' H2']]].
    assert (E : a ++ ident j = a' ++ ident j').
    { rewrite app_assoc in H1, H1'.
      assert (G : forall x y : str, firstn (List.length x) (x ++ y) = x).
      { intros x y. rewrite firstn_app, firstn_all, Nat.sub_diag. cbn. apply app_nil_r. }
      rewrite <- (G (a ++ ident j) b), <- (G (a' ++ ident j') b'), <- H1, <- H1', <- H2, <- H2'.
      reflexivity. }
    apply (f_equal (@rev N)) in E. unfold ident in E. rewrite !rev_app_distr, <- !app_assoc in E.
    change (rev (lit "p")) with [112%N] in E.
    assert (D : forall n, forallb is_digit (rev (dec_str n)) = true).
    { intros n. apply forallb_forall. intros x Hx. apply in_rev in Hx.
      pose proof (dec_str_digits n) as F. rewrite forallb_forall in F. apply F. exact Hx. }
    apply (f_equal take_digits) in E.
    rewrite !take_digits_app in E by (try apply D; reflexivity).
    injection E as E _. apply (f_equal (@rev N)) in E. rewrite !rev_involutive in E.
    apply dec_str_inj in E. lia.
  Qed.

  Lemma ends_at_bound : forall j e, ends_at j e -> (1 <= e <= List.length input)%nat.
  Proof.
    intros j e [a [b [H1 ->]]]. rewrite H1. unfold ident. rewrite !app_length. cbn. lia.
  Qed.

  Lemma contains_ends : forall j, contains input (ident j) = true -> exists e, ends_at j e.
  Proof.
    intros j H. apply contains_iff in H. destruct H as [a [b H]].
    exists (List.length (a ++ ident j)), a, b. auto.
  Qed.

  Lemma ends_list : forall js, NoDup js -> Forall (fun j => contains input (ident j) = true) js ->
    exists es, Forall2 ends_at js es /\ NoDup es.
  Proof.
    induction js as [|j js IH]; intros ND F.
    - exists []. split; constructor.
    - inv ND. inv F. destruct (IH H2 H4) as [es [F2 N2]].
      destruct (contains_ends j H3) as [e He]. exists (e :: es). split; [constructor; assumption|].
      constructor; [|exact N2]. intros Hin.
      assert (G : exists j', In j' js /\ ends_at j' e).
      { clear - F2 Hin. induction F2 as [|x y js es Hxy _ IH]; [contradiction|].
        destruct Hin as [->|Hin]; [exists x; cbn; auto|].
        destruct (IH Hin) as [j' [H1 H2]]. exists j'. cbn. auto. }
      destruct G as [j' [Hj' He']]. rewrite (ends_at_inj j j' e He He') in H1. contradiction.
  Qed.

  Lemma some_free : exists j, (j <= List.length input)%nat /\ contains input (ident j) = false.
  Proof.
    destruct (existsb (fun j => negb (contains input (ident j))) (seq 0 (S (List.length input)))) eqn:E.
    - apply existsb_exists in E. destruct E as [j [Hj Hc]]. apply in_seq in Hj.
      exists j. split; [lia|]. destruct (contains input (ident j)); [discriminate|reflexivity].
    - exfalso.
      assert (F : Forall (fun j => contains input (ident j) = true) (seq 0 (S (List.length input)))).
      { apply Forall_forall. intros j Hj. destruct (contains input (ident j)) eqn:Ec; [reflexivity|].
        rewrite <- not_true_iff_false in E. exfalso. apply E. apply existsb_exists. exists j.
        rewrite Ec. auto. }
      destruct (ends_list _ (seq_NoDup _ _) F) as [es [F2 ND]].
      assert (I : incl es (seq 1 (List.length input))).
      { intros e He. apply in_seq.
        assert (G : exists j, ends_at j e).
        { clear - F2 He. induction F2 as [|x y js es Hxy _ IH]; [contradiction|].
          destruct He as [->|He]; eauto. }
        destruct G as [j Hj]. apply ends_at_bound in Hj. lia. }
      pose proof (NoDup_incl_length ND I) as B. rewrite seq_length in B.
      apply Forall2_len in F2. rewrite seq_length in F2. lia.
  Qed.

  Lemma unique_loop : forall md fuel id,
    (exists j, (id <= j < id + fuel)%nat /\ contains input (ident j) = false) ->
    Z.of_nat (id + fuel) <= 2147483647 ->
    exists k, unique_segment_loop md fuel (lit "p") input (Z.of_nat id) = Ok (ident k)
      /\ contains input (ident k) = false /\ (id <= k < id + fuel)%nat
      /\ forall j, (id <= j < k)%nat -> contains input (ident j) = true.
  Proof.
    intros md. induction fuel as [|fuel IH]; intros id [j [Hj Hf]] B; [lia|].
    cbn [unique_segment_loop]. rewrite i32_add_ok by lia. cbn [bind].
    replace (Z.to_N (Z.of_nat id)) with (N.of_nat id) by lia.
    change (lit "p" ++ dec_str (N.of_nat id)) with (ident id).
    destruct (contains input (ident id)) eqn:E; cbn [negb].
    - replace (Z.of_nat id + 1) with (Z.of_nat (S id)) by lia.
      destruct (IH (S id)) as [k [H1 [H2 [H3 H4]]]].
      + exists j. split; [|exact Hf]. assert (id <> j) by (intros ->; congruence). lia.
      + lia.
      + exists k. split; [exact H1|]. split; [exact H2|]. split; [lia|].
        intros j' Hj'. destruct (Nat.eq_dec j' id) as [->|]; [exact E|]. apply H4. lia.
    - exists id. split; [reflexivity|]. split; [exact E|]. split; [lia|]. intros; lia.
  Qed.

  Lemma unique_segment : forall md, len input <= 2147483645 ->
    exists k, build_unique_segment md (lit "p") input = Ok (ident k)
      /\ contains input (ident k) = false
      /\ forall j, (j < k)%nat -> contains input (ident j) = true.
  Proof.
    intros md B. unfold build_unique_segment, len in *.
    destruct some_free as [j [Hj Hf]].
    destruct (unique_loop md (S (S (List.length input))) 0) as [k [H1 [H2 [_ H4]]]].
    - exists j. split; [lia|exact Hf].
    - lia.
    - exists k. split; [exact H1|]. split; [exact H2|]. intros j' Hj'. apply H4. lia.
  Qed.
End Unique.

(** ** number of ".." *)
Lemma count_cons2 : forall x y s,
  count_dotdot (x :: y :: s)
  = if N.eqb x c_dot && N.eqb y c_dot then S (count_dotdot s) else count_dotdot (y :: s).
Proof. reflexivity. Qed.

Lemma count_cons_bounds : forall n s, (List.length s <= n)%nat -> forall x,
  (count_dotdot s <= count_dotdot (x :: s) <= S (count_dotdot s))%nat.
Proof.
  induction n as [|n IH]; intros s H x; (destruct s as [|y s]; [cbn; lia|]); cbn [length] in H; [lia|].
  rewrite count_cons2. destruct (N.eqb x c_dot && N.eqb y c_dot) eqn:E; [|lia].
  assert (Hs : (List.length s <= n)%nat) by lia.
  specialize (IH s Hs y). lia.
Qed.

Lemma count_app : forall n a b, (List.length a <= n)%nat ->
  (count_dotdot a + count_dotdot b <= count_dotdot (a ++ b))%nat.
Proof.
  induction n as [|n IH]; intros a b H; destruct a as [|x a]; cbn [length] in H; try lia; [cbn; lia..|].
  destruct a as [|y a].
  - cbn [app]. pose proof (count_cons_bounds _ b (le_n _) x). cbn. cbn in *. lia.
  - cbn [app]. rewrite !count_cons2. cbn [length] in H.
    destruct (N.eqb x c_dot && N.eqb y c_dot).
    + specialize (IH a b). lia.
    + specialize (IH (y :: a) b). cbn [app length] in IH. lia.
Qed.

Lemma count_app' : forall a b, (count_dotdot a + count_dotdot b <= count_dotdot (a ++ b))%nat.
Proof. intros. eapply count_app. apply le_n. Qed.

Lemma count_dotted : forall parts, parts <> [] -> (List.length parts <= S (count_dotdot (dotted parts)))%nat.
Proof.
  induction parts as [|p parts IH]; intros H; [congruence|].
  destruct parts as [|p' parts]; [cbn; lia|].
  change (dotted (p :: p' :: parts)) with (p ++ lit ".." ++ dotted (p' :: parts)).
  specialize (IH ltac:(discriminate)). cbn [length] in *.
  pose proof (count_app' p (lit ".." ++ dotted (p' :: parts))).
  pose proof (count_app' (lit "..") (dotted (p' :: parts))).
  change (count_dotdot (lit "..")) with 1%nat in *. lia.
Qed.

Lemma dotted_cons_char : forall x p r, dotted ((x :: p) :: r) = x :: dotted (p :: r).
Proof. intros x p [|q r]; reflexivity. Qed.

Lemma count_parts : forall n s, (List.length s <= n)%nat ->
  exists parts, List.length parts = S (count_dotdot s) /\ dotted parts = s.
Proof.
  induction n as [|n IH]; intros s H.
  - destruct s; [|cbn in H; lia]. exists [[]]. split; reflexivity.
  - destruct s as [|x [|y s]]; [exists [[]]; split; reflexivity|exists [[x]]; split; reflexivity|].
    cbn [length] in H. rewrite count_cons2. destruct (N.eqb_spec x c_dot) as [->|Hx]; cbn [andb].
    + destruct (N.eqb_spec y c_dot) as [->|Hy]; cbn [andb].
      * destruct (IH s ltac:(lia)) as [parts [H1 H2]]. exists ([] :: parts).
        split; [cbn; lia|]. destruct parts as [|p parts]; [discriminate|].
        change (dotted ([] :: p :: parts)) with ([] ++ lit ".." ++ dotted (p :: parts)).
        rewrite H2. reflexivity.
      * destruct (IH (y :: s)) as [parts [H1 H2]]; [cbn; lia|].
        destruct parts as [|p parts]; [discriminate|]. exists ((c_dot :: p) :: parts).
        split; [exact H1|]. rewrite dotted_cons_char. f_equal. exact H2.
    + destruct (IH (y :: s)) as [parts [H1 H2]]; [cbn; lia|].
      destruct parts as [|p parts]; [discriminate|]. exists ((x :: p) :: parts).
      split; [exact H1|]. rewrite dotted_cons_char. f_equal. exact H2.
Qed.

Lemma count_max : forall s, max_dotdots s (count_dotdot s).
Proof.
  intros s. split.
  - apply (count_parts (List.length s)). lia.
  - intros parts Hn <-. apply count_dotted. exact Hn.
Qed.

Lemma max_dotdots_fun : forall s n m, max_dotdots s n -> max_dotdots s m -> n = m.
Proof.
  intros s n m [[p1 [L1 E1]] H1] [[p2 [L2 E2]] H2].
  assert (p1 <> []) by (intros ->; discriminate).
  assert (p2 <> []) by (intros ->; discriminate).
  specialize (H1 p2 H0 E2). specialize (H2 p1 H E1). lia.
Qed.

(** ** splitting at slashes *)
Definition no_slash (s : str) : Prop := ~ In c_slash s.

Lemma split_no_slash : forall s, no_slash s -> split_char c_slash s = [s].
Proof.
  induction s as [|c s IH]; intros H; [reflexivity|]. cbn [split_char].
  destruct (N.eqb_spec c c_slash) as [->|]; [exfalso; apply H; left; reflexivity|].
  rewrite IH by (intros Hi; apply H; right; exact Hi). reflexivity.
Qed.

Lemma split_slash : forall s t, no_slash s -> split_char c_slash (s ++ lit "/" ++ t) = s :: split_char c_slash t.
Proof.
  induction s as [|c s IH]; intros t H; [reflexivity|].
  change ((c :: s) ++ lit "/" ++ t) with (c :: (s ++ lit "/" ++ t)). cbn [split_char].
  destruct (N.eqb_spec c c_slash) as [->|]; [exfalso; apply H; left; reflexivity|].
  rewrite IH by (intros Hi; apply H; right; exact Hi). reflexivity.
Qed.

Lemma dirs_text_cons : forall d ds, dirs_text (d :: ds) = d ++ lit "/" ++ dirs_text ds.
Proof. intros. unfold dirs_text. cbn [map concat]. rewrite <- app_assoc. reflexivity. Qed.

Lemma dirs_text_app : forall a b, dirs_text (a ++ b) = dirs_text a ++ dirs_text b.
Proof. intros. unfold dirs_text. rewrite map_app, concat_app. reflexivity. Qed.

Lemma split_dirs : forall ds f, Forall no_slash ds -> no_slash f ->
  split_char c_slash (dirs_text ds ++ f) = ds ++ [f].
Proof.
  induction ds as [|d ds IH]; intros f Hd Hf.
  - apply split_no_slash. exact Hf.
  - inv Hd. rewrite dirs_text_cons, <- !app_assoc. rewrite split_slash by assumption.
    rewrite IH by assumption. reflexivity.
Qed.

Lemma split_abs : forall ds f, Forall no_slash ds -> no_slash f ->
  split_char c_slash (lit "/" ++ dirs_text ds ++ f) = [] :: ds ++ [f].
Proof.
  intros. change (lit "/" ++ dirs_text ds ++ f) with ([] ++ lit "/" ++ (dirs_text ds ++ f)).
  rewrite split_slash by (intros []). rewrite split_dirs by assumption. reflexivity.
Qed.

Lemma join_dirs : forall ds f, join_str (lit "/") (ds ++ [f]) = dirs_text ds ++ f.
Proof.
  induction ds as [|d ds IH]; intros f; [reflexivity|].
  rewrite dirs_text_cons, <- !app_assoc, <- IH. destruct ds; reflexivity.
Qed.

Lemma dirs_text_inj : forall ds f ds' f', Forall no_slash ds -> no_slash f -> Forall no_slash ds' -> no_slash f' ->
  dirs_text ds ++ f = dirs_text ds' ++ f' -> ds = ds' /\ f = f'.
Proof.
  intros ds f ds' f' H1 H2 H3 H4 E. apply (f_equal (split_char c_slash)) in E.
  rewrite !split_dirs in E by assumption. apply app_inj_tail in E. exact E.
Qed.

(** ** plain texts *)
Definition text_char (c : char) : bool := plain_char c || N.eqb c (ch "%").

Lemma hex_plain : forall c, hex_char c = true -> plain_char c = true.
Proof.
  intros c H. unfold hex_char, plain_char, name_char, char in *. rewrite !orb_true_iff, !andb_true_iff, !N.leb_le in *. lia.
Qed.

Lemma plain_chars : forall s c, plain s -> In c s -> text_char c = true.
Proof.
  intros s c H Hi. unfold text_char. induction H as [|x s Hx H IH|a b s Ha Hb Hn H IH]; [destruct Hi| |].
  - destruct Hi as [<-|Hi]; [rewrite Hx; reflexivity|auto].
  - destruct Hi as [<-|[<-|[<-|Hi]]]; [reflexivity| | |auto]; rewrite hex_plain by assumption; reflexivity.
Qed.

Lemma plain_no : forall s c, plain s -> text_char c = false -> ~ In c s.
Proof. intros s c H Hc Hi. rewrite (plain_chars s c H Hi) in Hc. discriminate. Qed.

Lemma plain_all : forall s, Forall (fun c => plain_char c = true) s -> plain s.
Proof. induction 1; [constructor|apply plain_cons; assumption]. Qed.

Lemma plain_no_slash : forall s, plain s -> no_slash s.
Proof. intros s H. apply plain_no; [exact H|reflexivity]. Qed.

Lemma plain_segs_no_slash : forall l, Forall plain_seg l -> Forall no_slash l.
Proof. intros l H. eapply Forall_impl; [|exact H]. intros s [_ Hs]. apply plain_no_slash. exact Hs. Qed.

Lemma plain_app : forall a b, plain a -> plain b -> plain (a ++ b).
Proof. intros a b Ha Hb. induction Ha; cbn [app]; [exact Hb|apply plain_cons; assumption|apply plain_escape; assumption]. Qed.

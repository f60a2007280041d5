(** * C63: classification of references *)
From Verif Require Import F_Base M_Util S_UrlKind.

Lemma scheme_letter_char : forall c, scheme_char c = true <-> scheme_letter c.
Proof.
  intros c. split.
  - intros H. destruct (N.lt_ge_cases c 128) as [Hc|Hc].
    + assert (Hin : existsb (N.eqb c) (lit "ABCDEFGHIJKLMNOPQRSTUVWXYZabcdefghijklmnopqrstuvwxyz0123456789+-.") = true).
      { transitivity (scheme_char c); [clear H | exact H].
        assert (Hall : forall n, (n < 128)%nat ->
          existsb (N.eqb (N.of_nat n)) (lit "ABCDEFGHIJKLMNOPQRSTUVWXYZabcdefghijklmnopqrstuvwxyz0123456789+-.")
          = scheme_char (N.of_nat n)).
        { assert (Hf : forallb (fun n => Bool.eqb
             (existsb (N.eqb (N.of_nat n)) (lit "ABCDEFGHIJKLMNOPQRSTUVWXYZabcdefghijklmnopqrstuvwxyz0123456789+-."))
             (scheme_char (N.of_nat n))) (seq 0 128) = true) by (vm_compute; reflexivity).
          intros n Hn. rewrite forallb_forall in Hf. specialize (Hf n). rewrite in_seq in Hf.
          apply Bool.eqb_prop, Hf. lia. }
        specialize (Hall (N.to_nat c)). rewrite N2Nat.id in Hall. apply Hall. lia. }
      apply existsb_exists in Hin. destruct Hin as [x [Hx E]]. apply N.eqb_eq in E. subst. exact Hx.
    + exfalso. unfold scheme_char in H. change (ch "+") with 43%N in H. change (ch "-") with 45%N in H.
      change (ch ".") with 46%N in H.
      repeat match type of H with
             | context [(?a <=? ?b)%N] => destruct (N.leb_spec a b); try lia; cbn [andb orb] in H
             | context [N.eqb ?a ?b] => destruct (N.eqb_spec a b); try lia; cbn [andb orb] in H
             end; discriminate.
  - unfold scheme_letter. intros H. cbn in H.
    repeat (destruct H as [<-|H]; [reflexivity|]). destruct H.
Qed.

Lemma scheme_tail_ok : forall s, scheme_tail s = true <->
  exists a rest, s = a ++ lit ":/" ++ rest /\ Forall scheme_letter a.
Proof.
  induction s as [|c s IH]; cbn [scheme_tail].
  - split; [discriminate|]. intros [a [rest [E _]]]. destruct a; discriminate.
  - destruct (scheme_char c) eqn:Ec.
    + rewrite IH. split.
      * intros [a [rest [-> Ha]]]. exists (c :: a), rest. split; [reflexivity|]. constructor; [|exact Ha].
        apply scheme_letter_char. exact Ec.
      * intros [a [rest [E Ha]]]. destruct a as [|x a]; cbn in E; inv E.
        -- vm_compute in Ec. discriminate.
        -- inv Ha. exists a, rest. auto.
    + split.
      * intros H. apply andb_true_iff in H. destruct H as [H1 H2]. apply N.eqb_eq in H1. subst c.
        destruct s as [|d s]; [discriminate|]. apply N.eqb_eq in H2. subst d. exists [], s. split; [reflexivity | constructor].
      * intros [a [rest [E Ha]]]. destruct a as [|x a]; cbn in E; inv E; [reflexivity|].
        inv Ha. apply scheme_letter_char in H1. congruence.
Qed.

Lemma absolute_scheme_ok : forall s, absolute_scheme_match s = true <-> has_scheme s.
Proof.
  intros [|c s]; cbn [absolute_scheme_match].
  - split; [discriminate|]. intros [a [rest [E [H _]]]]. destruct a; [contradiction | discriminate].
  - rewrite andb_true_iff, scheme_tail_ok, scheme_letter_char. split.
    + intros [Hc [a [rest [-> Ha]]]]. exists (c :: a), rest. repeat split; auto. discriminate.
    + intros [a [rest [E [Hn Ha]]]]. destruct a as [|x a]; [contradiction|]. cbn in E. inv E. inv Ha.
      split; [assumption|]. exists a, rest. auto.
Qed.

Lemma scheme_no_slash : forall s, ~ has_scheme (c_slash :: s).
Proof.
  intros s [a [rest [E [Hn Ha]]]]. destruct a as [|x a]; [contradiction|]. cbn in E. inv E. inv Ha.
  apply scheme_letter_char in H1. vm_compute in H1. discriminate.
Qed.

Lemma url_kind : forall s t, get_url_type s = Ok t <-> kind_of s t.
Proof.
  intros s t. destruct s as [|c [|d s]]; cbn [get_url_type].
  - split; [discriminate|]. destruct t; cbn.
    + intros [a [rest [E _]]]. destruct a; discriminate.
    + intros [x [rest [E _]]]. discriminate.
    + intros [H _]. vm_compute in H. exfalso. apply H. reflexivity.
    + intros [rest E]. discriminate.
  - split; [discriminate|]. destruct t; cbn.
    + intros [a [rest [E [Hn _]]]]. destruct a as [|x [|y a]]; [contradiction | discriminate | discriminate].
    + intros [x [rest [E _]]]. discriminate.
    + intros [H _]. vm_compute in H. exfalso. apply H. reflexivity.
    + intros [rest E]. discriminate.
  - destruct (N.eqb c c_slash) eqn:Ec.
    + apply N.eqb_eq in Ec. subst c. destruct (N.eqb d c_slash) eqn:Ed.
      * apply N.eqb_eq in Ed. subst d. split.
        -- intros H. inv H. exists s. reflexivity.
        -- destruct t; cbn [kind_of]; intros H; auto.
           ++ exfalso. exact (scheme_no_slash _ H).
           ++ destruct H as [x [rest [E Hx]]]. cbn in E. inv E. contradiction Hx. reflexivity.
           ++ destruct H as [_ [_ H]]. exfalso. apply (H (c_slash :: s)). reflexivity.
      * apply N.eqb_neq in Ed. split.
        -- intros H. inv H. exists d, s. split; [reflexivity | exact Ed].
        -- destruct t; cbn [kind_of]; intros H; auto.
           ++ exfalso. exact (scheme_no_slash _ H).
           ++ destruct H as [_ [_ H]]. exfalso. apply (H (d :: s)). reflexivity.
           ++ destruct H as [rest E]. cbn in E. inv E. contradiction Ed. reflexivity.
    + apply N.eqb_neq in Ec. destruct (absolute_scheme_match (c :: d :: s)) eqn:Ea.
      * apply absolute_scheme_ok in Ea. split.
        -- intros H. inv H. exact Ea.
        -- destruct t; cbn [kind_of]; intros H; auto.
           ++ destruct H as [x [rest [E _]]]. cbn in E. inv E. contradiction Ec. reflexivity.
           ++ destruct H as [_ [H _]]. contradiction.
           ++ destruct H as [rest E]. cbn in E. inv E. contradiction Ec. reflexivity.
      * assert (Hn : ~ has_scheme (c :: d :: s)) by (intros H; apply absolute_scheme_ok in H; congruence). split.
        -- intros H. inv H. split; [unfold len; cbn [length]; lia|]. split; [exact Hn|].
           intros rest E. cbn in E. inv E. contradiction Ec. reflexivity.
        -- destruct t; cbn [kind_of]; intros H; auto.
           ++ contradiction.
           ++ destruct H as [x [rest [E _]]]. cbn in E. inv E. contradiction Ec. reflexivity.
           ++ destruct H as [rest E]. cbn in E. inv E. contradiction Ec. reflexivity.
Qed.

Lemma url_kind_total : forall s, (2 <= len s -> exists t, kind_of s t)
  /\ (len s < 2 -> get_url_type s = Panic PUnwrapNone)
  /\ (forall t t', kind_of s t -> kind_of s t' -> t = t').
Proof.
  intros s. split; [|split].
  - intros H. destruct (get_url_type s) as [t|p] eqn:E; [exists t; apply url_kind; exact E|].
    exfalso. destruct s as [|c [|d s]]; [vm_compute in H; auto | vm_compute in H; auto|].
    cbn [get_url_type] in E. destruct (N.eqb c c_slash); discriminate.
  - intros H. destruct s as [|c [|d s]]; [reflexivity | reflexivity|]. unfold len in H. cbn [length] in H. lia.
  - intros t t' H H'. apply url_kind in H, H'. congruence.
Qed.

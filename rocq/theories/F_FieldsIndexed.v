(** * Lemmas about the fields of sections' maps that are read (C114) *)
From Verif Require Import F_Base M_ArraySet M_BinarySearch M_Mapping M_SourceMap M_Json M_MapLib M_Util M_Generator M_Consumer M_Indexed
  S_Consumer S_Indexed S_Quiet S_Fields F_Sections F_Quiet F_Fields.

Section FieldsIndexed.
  Context (md : mode) (L : MapLib) (U : UrlLib).
  Notation BC := (BasicConsumer L).
  Notation IC := (IndexedConsumer L).
  Notation Sec := (Section L).
  Notation Cell := (RefCell (list Sec)).
  Notation ov := (over L same_read).

  Definition sov (s s' : Sec) : Prop := sec_generated_offset s = sec_generated_offset s' /\ ov (sec_consumer s) (sec_consumer s').
  Definition cov (c c' : Cell) : Prop := rc_flag c = rc_flag c' /\ Forall2 sov (rc_val c) (rc_val c').
  Definition iov (c c' : IC) : Prop := cov (ic_sections c) (ic_sections c').
  Definition both {A B} (R : A -> B -> Prop) {X} (x : X * A) (x' : X * B) : Prop := fst x = fst x' /\ R (snd x) (snd x').

  Lemma rp : forall j j', same_read j j' -> same_places j j'. Proof. intros j j' H. exact (proj1 H). Qed.
  Lemma rt : forall j j', same_read j j' -> same_texts j j'. Proof. intros j j' H. exact (proj2 H). Qed.
  Lemma rr : forall j j', same_read j j' -> smj_source_root j = smj_source_root j'. Proof. intros j j' H. exact (texts_root _ _ (rt _ _ H)). Qed.

  Lemma f2_len : forall A B (R : A -> B -> Prop) l l', Forall2 R l l' -> List.length l = List.length l'.
  Proof. intros A B R l l' H. induction H; cbn; congruence. Qed.
  Lemma f2_get : forall A B (R : A -> B -> Prop) l l' i, Forall2 R l l' ->
    match vec_get l i, vec_get l' i with Some s, Some s' => R s s' | None, None => True | _, _ => False end.
  Proof.
    intros A B R l l' i H. unfold vec_get, len. rewrite (f2_len _ _ _ _ _ H).
    destruct (_ && _); [|exact I]. generalize (Z.to_nat i). induction H as [|a b l l' H1 H IH]; intros [|n]; cbn; auto. apply IH.
  Qed.
  Lemma f2_index : forall A B (R : A -> B -> Prop) l l' i, Forall2 R l l' -> alike R (vec_index l i) (vec_index l' i).
  Proof.
    intros A B R l l' i H. pose proof (f2_get _ _ R l l' i H) as K. unfold vec_index.
    destruct (vec_get l i); destruct (vec_get l' i); cbn; try contradiction; auto.
  Qed.
  Lemma f2_update : forall A B (R : A -> B -> Prop) l l' n a a', Forall2 R l l' -> R a a' -> Forall2 R (update l n a) (update l' n a').
  Proof. intros A B R l l' n a a' H Ha. revert n. induction H as [|x y l l' H1 H IH]; intros [|n]; cbn; constructor; auto. Qed.
  Lemma f2_mapM : forall A B A2 B2 (R : A -> B -> Prop) (R2 : A2 -> B2 -> Prop) f g l l', (forall a b, R a b -> alike R2 (f a) (g b)) ->
    Forall2 R l l' -> alike (Forall2 R2) (mapM f l) (mapM g l').
  Proof.
    intros A B A2 B2 R R2 f g l l' Hf H. induction H as [|x y l l' H1 H IH]; cbn [mapM]; [constructor|].
    eapply alike_bind; [apply Hf; exact H1|]. intros a a' Ha. eapply alike_bind; [exact IH|]. intros b b' Hb. constructor; assumption.
  Qed.
  Lemma same_mapM : forall A B (f g : A -> res B) l, (forall a, f a = g a) -> mapM f l = mapM g l.
  Proof. intros A B f g l H. induction l as [|a l IH]; cbn; [reflexivity|]. rewrite H, IH. reflexivity. Qed.

  Lemma offsets_eq : forall l l', Forall2 sov l l' -> map sec_generated_offset l = map sec_generated_offset l'.
  Proof. intros l l' H. induction H as [|a b l l' [E _] H IH]; [reflexivity|]. cbn. rewrite E, IH. reflexivity. Qed.

  Lemma borrow_cov : forall c c', cov c c' -> alike cov (rc_borrow c) (rc_borrow c').
  Proof. intros c c' [E F]. unfold rc_borrow. rewrite E. destruct (_ <? 0); [reflexivity|]. split; [cbn; congruence|exact F]. Qed.
  Lemma release_cov : forall c c', cov c c' -> cov (rc_release c) (rc_release c').
  Proof. intros c c' [E F]. split; [cbn; congruence|exact F]. Qed.
  Lemma borrow_mut_cov : forall c c', cov c c' -> alike cov (rc_borrow_mut c) (rc_borrow_mut c').
  Proof. intros c c' [E F]. unfold rc_borrow_mut. rewrite E. destruct (_ =? 0); [|reflexivity]. split; [reflexivity|exact F]. Qed.
  Lemma release_mut_cov : forall c c' l l', Forall2 sov l l' -> cov (rc_release_mut c l) (rc_release_mut c' l').
  Proof. intros c c' l l' F. split; [reflexivity|exact F]. Qed.

  (** ** get_sources *)
  Lemma sources_of_sov : forall l l' i, Forall2 sov l l' -> sources_of_section L l i = sources_of_section L l' i.
  Proof.
    intros l l' i H. unfold sources_of_section. pose proof (f2_index _ _ _ _ _ (Z.of_nat i) H) as K.
    destruct (vec_index l (Z.of_nat i)) as [s|p]; destruct (vec_index l' (Z.of_nat i)) as [s'|p']; cbn in K; try contradiction; cbn; [|congruence].
    destruct K as [_ K]. destruct K as [j j' cache abs url m sp K]. cbn. rewrite (proj1 (rp _ _ K)). reflexivity.
  Qed.
  Lemma inner_cov : forall js i c c' acc, cov c c' -> alike (both cov) (get_sources_inner L c i js acc) (get_sources_inner L c' i js acc).
  Proof.
    induction js as [|j js IH]; intros i c c' acc H; cbn [get_sources_inner]; [split; [reflexivity|exact H]|].
    eapply alike_bind; [apply borrow_cov; exact H|]. intros d d' K. rewrite (sources_of_sov _ _ i (proj2 K)).
    apply bind_both. intros l. apply bind_both. intros s. apply IH. apply release_cov. exact K.
  Qed.
  Lemma outer_cov : forall is c c' acc, cov c c' -> alike (both cov) (get_sources_outer L c is acc) (get_sources_outer L c' is acc).
  Proof.
    induction is as [|i is IH]; intros c c' acc H; cbn [get_sources_outer]; [split; [reflexivity|exact H]|].
    eapply alike_bind; [apply borrow_cov; exact H|]. intros d d' K. rewrite (sources_of_sov _ _ i (proj2 K)).
    apply bind_both. intros l. eapply alike_bind; [apply inner_cov; exact K|]. intros [a e] [a' e'] [E K2]. cbn [fst snd] in *. subst a'.
    apply IH. apply release_cov. exact K2.
  Qed.
  Lemma sources_iov : forall c c', iov c c' -> alike (both iov) (ic_get_sources L c) (ic_get_sources L c').
  Proof.
    intros c c' H. unfold ic_get_sources. eapply alike_bind; [apply borrow_cov; exact H|]. intros d d' K.
    rewrite (f2_len _ _ _ _ _ (proj2 K)). eapply alike_bind; [apply outer_cov; exact K|]. intros [a e] [a' e'] [E K2]. cbn [fst snd] in *. subst a'.
    split; [reflexivity|]. apply release_cov. exact K2.
  Qed.

  (** ** original_position_for *)
  Lemma original_iov : forall c c' g b, iov c c' ->
    alike (both iov) (ic_original_position_for md L c g b) (ic_original_position_for md L c' g b).
  Proof.
    intros c c' g b H. unfold ic_original_position_for. eapply alike_bind; [apply borrow_cov; exact H|]. intros d d' K.
    rewrite !search_offsets, (offsets_eq _ _ (proj2 K)). apply bind_both. intros i.
    eapply alike_bind; [apply borrow_mut_cov, release_cov; exact K|]. clear d d' K. intros d d' K.
    pose proof (f2_get _ _ _ _ _ (to_usize i) (proj2 K)) as G.
    destruct (vec_get (rc_val d) (to_usize i)) as [s|]; destruct (vec_get (rc_val d') (to_usize i)) as [s'|]; try contradiction.
    2: { split; [reflexivity|]. apply release_mut_cov. exact (proj2 K). }
    destruct G as [E G]. rewrite E. apply bind_both. intros l1. apply bind_both. intros l. apply bind_both. intros sh. apply bind_both. intros co.
    eapply alike_bind; [apply (original_over md L _ rp); exact G|]. intros [a e] [a' e'] [Ea K2]. cbn [fst snd] in *. subst a'.
    split; [reflexivity|]. apply release_mut_cov. apply f2_update; [exact (proj2 K)|]. split; [cbn; congruence|exact K2].
  Qed.

  (** ** contents *)
  Lemma allM_sov : forall l l', Forall2 sov l l' ->
    allM (fun it => bc_has_contents_of_all_sources L (sec_consumer it)) l = allM (fun it => bc_has_contents_of_all_sources L (sec_consumer it)) l'.
  Proof.
    intros l l' H. induction H as [|x y l l' [_ H1] H IH]; cbn [allM]; [reflexivity|]. rewrite IH.
    assert (E : bc_has_contents_of_all_sources L (sec_consumer x) = bc_has_contents_of_all_sources L (sec_consumer y)).
    { destruct H1 as [j j' cache abs url m sp H1]. destruct (rt _ _ H1) as [E1 [_ E2]].
      unfold bc_has_contents_of_all_sources. cbn. rewrite E1, E2. reflexivity. }
    rewrite E. reflexivity.
  Qed.
  Lemma has_iov : forall c c', iov c c' -> alike (both iov) (ic_has_contents_of_all_sources L c) (ic_has_contents_of_all_sources L c').
  Proof.
    intros c c' H. unfold ic_has_contents_of_all_sources. eapply alike_bind; [apply borrow_cov; exact H|]. intros d d' K.
    rewrite (allM_sov _ _ (proj2 K)). apply bind_both. intros b. split; [reflexivity|]. apply release_cov. exact K.
  Qed.
  Lemma content_loop_sov : forall l l' s p, Forall2 sov l l' ->
    alike (both (Forall2 sov)) (source_content_loop md L U l s p) (source_content_loop md L U l' s p).
  Proof.
    intros l l' s p H. induction H as [|x y l l' [E H1] H IH]; cbn [source_content_loop]; [split; [reflexivity|constructor]|].
    eapply alike_bind; [apply (content_over md L U _ rt); exact H1|]. intros [a e] [a' e'] [Ea K]. cbn [fst snd] in *. subst a'. rewrite E.
    destruct a as [a|].
    - split; [reflexivity|]. constructor; [split; [reflexivity|exact K]|exact H].
    - eapply alike_bind; [exact IH|]. intros [a f] [a' f'] [Ea K2]. cbn [fst snd] in *. subst a'. split; [reflexivity|].
      constructor; [split; [reflexivity|exact K]|exact K2].
  Qed.
  Lemma content_iov : forall c c' s p, iov c c' -> alike (both iov) (ic_source_content_for md L U c s p) (ic_source_content_for md L U c' s p).
  Proof.
    intros c c' s p H. unfold ic_source_content_for. eapply alike_bind; [apply borrow_mut_cov; exact H|]. intros d d' K.
    eapply alike_bind; [apply content_loop_sov; exact (proj2 K)|]. intros [a f] [a' f'] [Ea K2]. cbn [fst snd] in *. subst a'.
    assert (R : iov (ic_set_sections L c (rc_release_mut d f)) (ic_set_sections L c' (rc_release_mut d' f'))) by (apply release_mut_cov; exact K2).
    destruct a; [split; [reflexivity|exact R]|]. destruct (match p with Some b => b | None => true end); [reflexivity|split; [reflexivity|exact R]].
  Qed.

  (** ** the reverse queries *)
  Lemma find_loop_cov : forall is c c' s, cov c c' ->
    alike (both cov) (find_source_index_loop md L U c is s) (find_source_index_loop md L U c' is s).
  Proof.
    induction is as [|i is IH]; intros c c' s H; cbn [find_source_index_loop]; [split; [reflexivity|exact H]|].
    eapply alike_bind; [apply borrow_mut_cov; exact H|]. intros d d' K.
    eapply alike_bind; [apply f2_index; exact (proj2 K)|]. intros x x' [E G].
    eapply alike_bind; [apply (find_over md L U _ _ _ _ rr); exact G|]. intros [a e] [a' e'] [Ea K2]. cbn [fst snd] in *. subst a'.
    assert (R : cov (rc_release_mut d (update (rc_val d) i (mkSection (sec_generated_offset x) e)))
                    (rc_release_mut d' (update (rc_val d') i (mkSection (sec_generated_offset x') e')))).
    { apply release_mut_cov, f2_update; [exact (proj2 K)|]. split; [cbn; congruence|exact K2]. }
    destruct a; [split; [reflexivity|exact R]|]. apply IH. exact R.
  Qed.
  Lemma find_iov : forall c c' s, iov c c' -> alike (both iov) (ic_find_source_index md L U c s) (ic_find_source_index md L U c' s).
  Proof.
    intros c c' s H. unfold ic_find_source_index. eapply alike_bind; [apply borrow_cov; exact H|]. intros d d' K.
    rewrite (f2_len _ _ _ _ _ (proj2 K)). eapply alike_bind; [apply find_loop_cov; exact K|]. intros [a e] [a' e'] [E K2]. cbn [fst snd] in *. subst a'.
    split; [reflexivity|]. apply release_cov. exact K2.
  Qed.
  Lemma next_offset : forall l l' i, Forall2 sov l l' ->
    option_map sec_generated_offset (vec_get l i) = option_map sec_generated_offset (vec_get l' i).
  Proof.
    intros l l' i H. pose proof (f2_get _ _ _ _ _ i H) as G. destruct (vec_get l i); destruct (vec_get l' i); try contradiction; [|reflexivity].
    cbn. rewrite (proj1 G). reflexivity.
  Qed.
  Lemma generated_iov : forall c c' s line column b, iov c c' ->
    alike (both iov) (ic_generated_position_for md L U c s line column b) (ic_generated_position_for md L U c' s line column b).
  Proof.
    intros c c' s line column b H. unfold ic_generated_position_for.
    eapply alike_bind; [apply find_iov; exact H|]. intros [i d] [i' d'] [E K]. cbn [fst snd] in *. subst i'.
    destruct i as [i|]; [|split; [reflexivity|exact K]].
    eapply alike_bind; [apply borrow_mut_cov; exact K|]. intros e e' Ke.
    pose proof (f2_get _ _ _ _ _ (to_usize i) (proj2 Ke)) as G.
    destruct (vec_get (rc_val e) (to_usize i)) as [x|]; destruct (vec_get (rc_val e') (to_usize i)) as [x'|]; try contradiction.
    2: { split; [reflexivity|]. apply release_mut_cov. exact (proj2 Ke). }
    destruct G as [E G]. eapply alike_bind; [apply (generated_over md L U _ rp); exact G|].
    intros [a f] [a' f'] [Ea K2]. cbn [fst snd] in *. subst a'.
    assert (R : Forall2 sov (update (rc_val e) (Z.to_nat (to_usize i)) (mkSection (sec_generated_offset x) f))
                            (update (rc_val e') (Z.to_nat (to_usize i)) (mkSection (sec_generated_offset x') f'))).
    { apply f2_update; [exact (proj2 Ke)|]. split; [cbn; congruence|exact K2]. }
    destruct a as [gp|]; [|split; [reflexivity|apply release_mut_cov; exact R]].
    apply bind_both. intros ls. apply bind_both. intros cs. apply bind_both. intros [co la].
    eapply alike_bind; [apply borrow_cov; exact Ke|]. intros h h' Kh.
    pose proof (next_offset _ _ (to_usize i + 1) (proj2 Kh)) as N.
    destruct la as [la|].
    2: { split; [reflexivity|apply release_mut_cov; exact R]. }
    destruct (vec_get (rc_val h) (to_usize i + 1)) as [n|]; destruct (vec_get (rc_val h') (to_usize i + 1)) as [n'|]; cbn in N; try discriminate.
    2: { split; [reflexivity|apply release_mut_cov; exact R]. }
    injection N as N. rewrite N. apply bind_both. intros _. apply bind_both. intros li. split; [reflexivity|apply release_mut_cov; exact R].
  Qed.
  Lemma adjust_cov : forall c c' i m, cov c c' -> adjust_all_generated md L c i m = adjust_all_generated md L c' i m.
  Proof.
    intros c c' i m [E F]. unfold adjust_all_generated, rc_borrow. rewrite E.
    pose proof (next_offset _ _ (to_usize i + 1) F) as N.
    destruct (u32_sub md (rm_line m) 1); [|reflexivity]. cbn [bind]. destruct (u32_sub md (rm_column m) 1); [|reflexivity]. cbn [bind].
    match goal with |- bind ?r _ = _ => destruct r as [m2|]; [|reflexivity] end. cbn [bind].
    destruct (is_some (rm_last_column m2)); [|reflexivity]. destruct (rc_flag c' <? 0); [reflexivity|]. cbn [bind rc_val].
    destruct (vec_get (rc_val c) (to_usize i + 1)) as [n|]; destruct (vec_get (rc_val c') (to_usize i + 1)) as [n'|]; cbn in N; try discriminate;
      [|reflexivity]. injection N as N. rewrite N. reflexivity.
  Qed.
  Lemma all_iov : forall c c' s line column, iov c c' ->
    alike (both iov) (ic_all_generated_position_for md L U c s line column) (ic_all_generated_position_for md L U c' s line column).
  Proof.
    intros c c' s line column H. unfold ic_all_generated_position_for.
    eapply alike_bind; [apply find_iov; exact H|]. intros [i d] [i' d'] [E K]. cbn [fst snd] in *. subst i'.
    destruct i as [i|]; [|split; [reflexivity|exact K]].
    eapply alike_bind; [apply borrow_mut_cov; exact K|]. intros e e' Ke.
    pose proof (f2_get _ _ _ _ _ (to_usize i) (proj2 Ke)) as G.
    destruct (vec_get (rc_val e) (to_usize i)) as [x|]; destruct (vec_get (rc_val e') (to_usize i)) as [x'|]; try contradiction.
    2: { split; [reflexivity|]. apply release_mut_cov. exact (proj2 Ke). }
    destruct G as [E G]. eapply alike_bind; [apply (all_over md L U _ rp); exact G|].
    intros [a f] [a' f'] [Ea K2]. cbn [fst snd] in *. subst a'.
    rewrite (same_mapM _ _ _ _ a (fun m => adjust_cov e e' i m Ke)). apply bind_both. intros l. split; [reflexivity|].
    apply release_mut_cov, f2_update; [exact (proj2 Ke)|]. split; [cbn; congruence|exact K2].
  Qed.

  (** ** compute_column_spans and each_mapping *)
  Lemma spans_iov : forall c c', iov c c' -> alike iov (ic_computed_column_spans L c) (ic_computed_column_spans L c').
  Proof.
    intros c c' H. unfold ic_computed_column_spans. eapply alike_bind; [apply borrow_mut_cov; exact H|]. intros d d' K.
    eapply alike_bind; [eapply f2_mapM; [|exact (proj2 K)]|].
    - intros x x' [E G]. eapply alike_bind; [apply (spans_over L _ rp); exact G|]. intros e e' Ke. cbn. instantiate (1 := sov). split; [exact E|exact Ke].
    - intros l l' F. apply release_mut_cov. exact F.
  Qed.
  Lemma adjust_each_sov : forall l l' i ls cs m, Forall2 sov l l' -> adjust_each md L l i ls cs m = adjust_each md L l' i ls cs m.
  Proof.
    intros l l' i ls cs m F. unfold adjust_each. pose proof (next_offset _ _ (Z.of_nat i + 1) F) as N.
    match goal with |- bind ?r _ = _ => destruct r as [m2|]; [|reflexivity] end. cbn [bind].
    destruct (vec_get l (Z.of_nat i + 1)) as [n|]; destruct (vec_get l' (Z.of_nat i + 1)) as [n'|]; cbn in N; try discriminate;
      [|reflexivity]. injection N as N. rewrite N. reflexivity.
  Qed.
  Lemma each_loop_cov : forall secs secs' c c' i o, Forall2 sov secs secs' -> cov c c' ->
    alike (both (Forall2 sov)) (each_mapping_loop md L c i secs o) (each_mapping_loop md L c' i secs' o).
  Proof.
    intros secs secs' c c' i o H. revert c c' i.
    induction H as [|x y l l' [E H1] H IH]; intros c c' i Hc; cbn [each_mapping_loop]; [split; [reflexivity|constructor]|].
    rewrite E. apply bind_both. intros ls. apply bind_both. intros cs. eapply alike_bind; [apply borrow_cov; exact Hc|]. intros d d' K.
    eapply alike_bind; [apply (each_over L _ rp); exact H1|]. intros [a f] [a' f'] [Ea K2]. cbn [fst snd] in *. subst a'.
    rewrite (same_mapM _ _ _ _ a (fun m => adjust_each_sov _ _ i ls cs m (proj2 K))). apply bind_both. intros ms.
    eapply alike_bind; [apply IH, release_cov; exact K|]. intros [a2 g] [a2' g'] [Ea K3]. cbn [fst snd] in *. subst a2'.
    split; [reflexivity|]. constructor; [split; [cbn; congruence|exact K2]|exact K3].
  Qed.
  Lemma each_iov : forall c c' o, iov c c' -> alike (both iov) (ic_each_mapping md L c o) (ic_each_mapping md L c' o).
  Proof.
    intros c c' o H. unfold ic_each_mapping. eapply alike_bind; [apply borrow_mut_cov; exact H|]. intros d d' K.
    eapply alike_bind; [apply each_loop_cov; [exact (proj2 K)|exact K]|]. intros [a f] [a' f'] [Ea K2]. cbn [fst snd] in *. subst a'.
    split; [reflexivity|]. apply release_mut_cov. exact K2.
  Qed.

  (** ** histories, opening *)
  Lemma both_answer : forall A (r r' : res (A * IC)), alike (both iov) r r' -> answer r = answer r'.
  Proof. intros A [[a c]|p] [[a' c']|p'] H; cbn in *; try contradiction; [destruct H as [E _]; cbn in E; congruence | congruence]. Qed.
  Lemma both_state : forall A (r r' : res (A * IC)), alike (both iov) r r' -> alike iov (istate L r) (istate L r').
  Proof. intros A [[a c]|p] [[a' c']|p'] H; cbn in *; try contradiction; [destruct H as [_ E]; exact E | exact H]. Qed.

  Lemma iasked_iov : forall qs c c', iov c c' -> alike iov (iasked md L U c qs) (iasked md L U c' qs).
  Proof.
    induction qs as [|q qs IH]; intros c c' H; cbn [iasked]; [exact H|].
    eapply alike_bind; [|intros d d' K; apply IH; exact K].
    destruct q; cbn [iask]; try apply both_state;
      [apply sources_iov | apply original_iov | apply has_iov | apply content_iov | apply generated_iov | apply all_iov
      | apply spans_iov | apply each_iov]; exact H.
  Qed.
  Lemma iov_answers : forall c c', iov c c' -> same_ianswers md L U c c'.
  Proof.
    intros c c' H. split; intros.
    - apply both_answer, sources_iov; exact H.
    - apply both_answer, original_iov; exact H.
    - apply both_answer, has_iov; exact H.
    - apply both_answer, content_iov; exact H.
    - apply both_answer, generated_iov; exact H.
    - apply both_answer, all_iov; exact H.
    - pose proof (spans_iov _ _ H) as K. destruct (ic_computed_column_spans L c) as [d|p]; destruct (ic_computed_column_spans L c') as [d'|p'];
        cbn in K; try contradiction; split; intros [e E]; try discriminate; eexists; reflexivity.
    - apply both_answer, each_iov; exact H.
  Qed.

  Lemma job_sov : forall url last s s', same_section s s' ->
    alike (fun r r' => sov (fst r) (fst r') /\ snd r = snd r') (section_job md L U url last s) (section_job md L U url last s').
  Proof.
    intros url last s s' [E [Eu H]]. unfold section_job. rewrite E, Eu.
    destruct (is_some (js_url s')); [reflexivity|]. destruct (_ || _); [reflexivity|].
    apply bind_both. intros l. apply bind_both. intros co. unfold bc_from_source_map_json.
    pose proof (rp _ _ H) as [E1 [E2 _]]. rewrite (abs_same md U _ _ url E1 E2).
    destruct (compute_absolute_sources md U (js_map s') url); [|reflexivity]. cbn.
    split; [|reflexivity]. split; [reflexivity|]. constructor. exact H.
  Qed.
  Definition tov (r r' : nat * Sec) : Prop := fst r = fst r' /\ sov (snd r) (snd r').
  Lemma run_jobs_sov : forall order url secs secs' last, Forall2 same_section secs secs' ->
    alike (Forall2 tov) (run_jobs md L U url secs order last) (run_jobs md L U url secs' order last).
  Proof.
    induction order as [|i order IH]; intros url secs secs' last H; cbn [run_jobs]; [constructor|].
    eapply alike_bind; [apply f2_index; exact H|]. intros s s' Hs. eapply alike_bind; [apply job_sov; exact Hs|].
    intros [x o] [x' o'] [Hx Ho]. cbn [fst snd] in *. subst o'. eapply alike_bind; [apply IH; exact H|]. intros l l' Hl.
    constructor; [split; [reflexivity|exact Hx]|exact Hl].
  Qed.
  Lemma job_result_sov : forall i l l', Forall2 tov l l' -> alike sov (job_result L i l) (job_result L i l').
  Proof.
    intros i l l' H. induction H as [|[n x] [n' x'] l l' [E Hx] H IH]; cbn [job_result]; [reflexivity|]. cbn [fst snd] in *. subst n'.
    destruct (Nat.eqb i n); [exact Hx|exact IH].
  Qed.
  Lemma sections_json : forall j j' secs secs' order url qs, smj_version j = smj_version j' ->
    smj_sections j = Some secs -> smj_sections j' = Some secs' -> Forall2 same_section secs secs' ->
    alike (same_ianswers md L U) (let* c := ic_from_source_map_json md L U order j url in iasked md L U c qs)
                                 (let* c := ic_from_source_map_json md L U order j' url in iasked md L U c qs).
  Proof.
    intros j j' secs secs' order url qs Ev Es Es' H. eapply alike_impl; [exact iov_answers|].
    eapply alike_bind; [|intros c c' K; apply iasked_iov; exact K]. unfold ic_from_source_map_json. rewrite Ev, Es, Es'.
    destruct (negb _); [reflexivity|]. cbn [unwrap bind]. eapply alike_bind; [apply run_jobs_sov; exact H|]. intros r r' Hr.
    rewrite (f2_len _ _ _ _ _ H). unfold collect_jobs.
    eapply alike_bind; [eapply (f2_mapM _ _ _ _ eq sov)|].
    - intros a b <-. apply job_result_sov. exact Hr.
    - clear. induction (seq 0 (List.length secs')); constructor; auto.
    - intros l l' F. split; [reflexivity|exact F].
  Qed.
  Lemma sections_new : forall t t' j j' secs secs' order url qs, smj_from_str t = Some j -> smj_from_str t' = Some j' ->
    smj_version j = smj_version j' -> smj_sections j = Some secs -> smj_sections j' = Some secs' -> Forall2 same_section secs secs' ->
    alike (same_ianswers md L U) (let* c := ic_new md L U order t url in iasked md L U c qs)
                                 (let* c := ic_new md L U order t' url in iasked md L U c qs).
  Proof.
    intros t t' j j' secs secs' order url qs Et Et' Ev Es Es' H. unfold ic_new. rewrite Et, Et'. cbn [unwrap_ok bind].
    eapply sections_json; eassumption.
  Qed.
End FieldsIndexed.

(** * Lemmas about the fields of a map that are read (C114) *)
From Verif Require Import F_Base M_ArraySet M_BinarySearch M_Mapping M_SourceMap M_Json M_MapLib M_Util M_Generator M_Consumer M_Indexed
  S_Consumer S_Indexed S_Quiet S_Fields.

Lemma alike_bind : forall A B A2 B2 (R : A -> B -> Prop) (R2 : A2 -> B2 -> Prop) r r' f f', alike R r r' ->
  (forall a a', R a a' -> alike R2 (f a) (f' a')) -> alike R2 (bind r f) (bind r' f').
Proof.
  intros A B A2 B2 R R2 r r' f f' H K. destruct r; destruct r'; cbn in *; try contradiction; [apply K; exact H | exact H].
Qed.
Lemma alike_eq : forall A (r : res A), alike eq r r.
Proof. intros A [a|p]; reflexivity. Qed.
Lemma bind_both : forall A A2 B2 (R2 : A2 -> B2 -> Prop) (r : res A) f f',
  (forall a, alike R2 (f a) (f' a)) -> alike R2 (bind r f) (bind r f').
Proof. intros A A2 B2 R2 [a|p] f f' H; cbn; [apply H | reflexivity]. Qed.

Section Fields.
  Context (md : mode) (L : MapLib) (U : UrlLib).

  (** Consumers that differ in the map only *)
  Inductive over (S : SourceMapJson -> SourceMapJson -> Prop) : BasicConsumer L -> BasicConsumer L -> Prop :=
  | over_map : forall j j' cache abs url m sp, S j j' ->
      over S (mkBC j cache abs url m sp) (mkBC j' cache abs url m sp).

  Definition told {A} S (x x' : A * BasicConsumer L) : Prop := fst x = fst x' /\ over S (snd x) (snd x').

  Lemma told_answer : forall A S (r r' : res (A * BasicConsumer L)), alike (told S) r r' -> answer r = answer r'.
  Proof. intros A S [[a c]|p] [[a' c']|p'] H; cbn in *; try contradiction; [destruct H as [E _]; cbn in E; congruence | congruence]. Qed.
  Lemma told_state : forall A S (r r' : res (A * BasicConsumer L)), alike (told S) r r' -> alike (over S) (state L r) (state L r').
  Proof. intros A S [[a c]|p] [[a' c']|p'] H; cbn in *; try contradiction; [destruct H as [_ E]; exact E | exact H]. Qed.

  Lemma find_over : forall (S : SourceMapJson -> SourceMapJson -> Prop) c c' s, (forall j j', S j j' -> smj_source_root j = smj_source_root j') -> over S c c' ->
    alike (told S) (bc_find_source_index md L U c s) (bc_find_source_index md L U c' s).
  Proof.
    intros S c c' s HS [j j' cache abs url m sp H]. unfold bc_find_source_index, bc_cache_insert.
    cbn [bc_source_lookup_cache bc_absolute_sources bc_source_map_url bc_source_map bc_mappings bc_computed_column_spans].
    rewrite (HS _ _ H). destruct (hm_get s cache); [split; [reflexivity|constructor; exact H]|].
    apply bind_both. intros u. destruct (as_has abs u).
    { apply bind_both. intros i. split; [reflexivity|constructor; exact H]. }
    apply bind_both. intros u'. destruct (as_has abs u').
    { apply bind_both. intros i. split; [reflexivity|constructor; exact H]. }
    split; [reflexivity|constructor; exact H].
  Qed.

  Lemma places_root : forall j j', same_places j j' -> smj_source_root j = smj_source_root j'.
  Proof. intros j j' [_ [E _]]. exact E. Qed.
  Lemma texts_root : forall j j', same_texts j j' -> smj_source_root j = smj_source_root j'.
  Proof. intros j j' [_ [E _]]. exact E. Qed.

  Section Places.
  Context (S : SourceMapJson -> SourceMapJson -> Prop) (HS : forall j j', S j j' -> same_places j j').
  Lemma ensure_over : forall c c', over S c c' ->
    alike (told S) (bc_ensure_mappings L c) (bc_ensure_mappings L c').
  Proof.
    intros c c' [j j' cache abs url m sp H]. unfold bc_ensure_mappings, bc_parse_mappings, bc_set_mappings.
    cbn [bc_source_lookup_cache bc_absolute_sources bc_source_map_url bc_source_map bc_mappings bc_computed_column_spans].
    pose proof (HS _ _ H) as [_ [_ [_ E]]]. rewrite E. destruct m as [m|].
    - cbn. split; [reflexivity|constructor; exact H].
    - destruct (smj_mappings j') as [t|]; cbn; [|reflexivity]. destruct (lm_parse L t); cbn; [|reflexivity].
      split; [reflexivity|constructor; exact H].
  Qed.

  Lemma set_over : forall c c' m, over S c c' -> over S (bc_set_mappings L c m) (bc_set_mappings L c' m).
  Proof. intros c c' m [j j' cache abs url m0 sp H]. constructor. exact H. Qed.

  Lemma name_over : forall c c' i, over S c c' -> bc_name_at L c i = bc_name_at L c' i.
  Proof. intros c c' i [j j' cache abs url m sp H]. destruct (HS _ _ H) as [_ [_ [E _]]]. unfold bc_name_at. cbn. rewrite E. reflexivity. Qed.

  Lemma original_over : forall c c' g b, over S c c' ->
    alike (told S) (bc_original_position_for md L c g b) (bc_original_position_for md L c' g b).
  Proof.
    intros c c' g b H. unfold bc_original_position_for. destruct (p_line g <? 1); [reflexivity|].
    destruct (p_column g <? 0); [reflexivity|].
    eapply alike_bind; [apply ensure_over; exact H|]. intros [m d] [m' d'] [E K]. cbn [fst snd] in *. subst m'.
    apply bind_both. intros l. destruct (lm_original_for _ _ _ _ _) as [mp|]; [|split; [reflexivity|exact K]].
    destruct (_ =? _); [|split; [reflexivity|exact K]].
    assert (E : option_map_res (bc_original_answer md L d mp) (rm_original mp) = option_map_res (bc_original_answer md L d' mp) (rm_original mp)).
    { destruct (rm_original mp) as [o|]; [|reflexivity]. cbn [option_map_res]. f_equal. unfold bc_original_answer.
      assert (Eo : option_map_res (bc_name_at L d) (ol_name o) = option_map_res (bc_name_at L d') (ol_name o)).
      { destruct (ol_name o); [|reflexivity]. cbn. rewrite (name_over _ _ _ K). reflexivity. }
      rewrite Eo. destruct K. reflexivity. }
    rewrite E. apply bind_both. intros a. split; [reflexivity|exact K].
  Qed.

  Lemma generated_over : forall c c' s line column b, over S c c' ->
    alike (told S) (bc_generated_position_for md L U c s line column b) (bc_generated_position_for md L U c' s line column b).
  Proof.
    intros c c' s line column b H. unfold bc_generated_position_for.
    eapply alike_bind; [apply find_over; [intros j j' HH; exact (places_root _ _ (HS _ _ HH)) | exact H]|]. intros [i d] [i' d'] [E K]. cbn [fst snd] in *. subst i'.
    destruct i as [i|]; [|split; [reflexivity|exact K]].
    destruct (line <? 1); [reflexivity|]. destruct (column <? 0); [reflexivity|].
    eapply alike_bind; [apply ensure_over; exact K|]. clear d d' K H. intros [m d] [m' d'] [E K]. cbn [fst snd] in *. subst m'.
    apply bind_both. intros ol. destruct (lm_generated_for _ _ _ _ _ _) as [found m2].
    assert (K2 := set_over _ _ (Some m2) K).
    destruct found as [mp|]; [|split; [reflexivity|exact K2]].
    apply bind_both. intros o. destruct (_ =? _); [|split; [reflexivity|exact K2]].
    assert (E : bc_generated_answer md L (bc_set_mappings L d (Some m2)) mp o = bc_generated_answer md L (bc_set_mappings L d' (Some m2)) mp o).
    { unfold bc_generated_answer. rewrite (name_over _ _ _ K2). destruct K. reflexivity. }
    rewrite E. apply bind_both. intros a. split; [reflexivity|exact K2].
  Qed.

  Lemma all_over : forall c c' s line column, over S c c' ->
    alike (told S) (bc_all_generated_position_for md L U c s line column) (bc_all_generated_position_for md L U c' s line column).
  Proof.
    intros c c' s line column H. unfold bc_all_generated_position_for.
    eapply alike_bind; [apply find_over; [intros j j' HH; exact (places_root _ _ (HS _ _ HH)) | exact H]|]. intros [i d] [i' d'] [E K]. cbn [fst snd] in *. subst i'.
    destruct i as [i|]; [|split; [reflexivity|exact K]]. destruct (i <? 0); [split; [reflexivity|exact K]|].
    destruct (line <? 1); [reflexivity|]. destruct (_ <? 0); [reflexivity|].
    eapply alike_bind; [apply ensure_over; exact K|]. clear d d' K H. intros [m d] [m' d'] [E K]. cbn [fst snd] in *. subst m'.
    destruct (lm_all_generated _ _ _ _ _) as [l m2]. split; [reflexivity|]. apply set_over. exact K.
  Qed.

  Lemma spans_over : forall c c', over S c c' ->
    alike (over S) (bc_compute_column_spans L c) (bc_compute_column_spans L c').
  Proof.
    intros c c' H. unfold bc_compute_column_spans.
    assert (E : bc_computed_column_spans c = bc_computed_column_spans c') by (destruct H; reflexivity). rewrite E.
    destruct (bc_computed_column_spans c'); [exact H|].
    eapply alike_bind; [apply ensure_over; exact H|]. intros [m d] [m' d'] [E2 K]. cbn [fst snd] in *. subst m'.
    destruct K as [j j' cache abs url m0 sp K]. cbn. constructor. exact K.
  Qed.

  Lemma each_over : forall c c' o, over S c c' ->
    alike (told S) (bc_each_mapping L c o) (bc_each_mapping L c' o).
  Proof.
    intros c c' o H. unfold bc_each_mapping.
    assert (E : match bc_mappings c with Some m => Ok (Some m) | None => bc_parse_mappings L c end
              = match bc_mappings c' with Some m => Ok (Some m) | None => bc_parse_mappings L c' end).
    { destruct H as [j j' cache abs url m sp H]. destruct (HS _ _ H) as [_ [_ [_ E]]]. unfold bc_parse_mappings. cbn. rewrite E. reflexivity. }
    rewrite E. apply bind_both. intros [m|]; [|split; [reflexivity|exact H]].
    destruct o; [split; [reflexivity|apply set_over; exact H]|].
    destruct (lm_by_original L m) as [l m2]. split; [reflexivity|apply set_over; exact H].
  Qed.

  Lemma ask_over : forall c c' q, asks_text q = false -> over S c c' ->
    alike (over S) (ask md L U c q) (ask md L U c' q).
  Proof.
    intros c c' q Hq H. destruct q; cbn [ask]; try discriminate.
    - apply told_state, original_over; exact H.
    - apply told_state, generated_over; exact H.
    - apply told_state, all_over; exact H.
    - apply spans_over; exact H.
    - apply told_state, each_over; exact H.
  Qed.

  Lemma asked_over : forall qs c c', Forall (fun q => asks_text q = false) qs -> over S c c' ->
    alike (over S) (asked md L U c qs) (asked md L U c' qs).
  Proof.
    induction qs as [|q qs IH]; intros c c' Hq H; cbn [asked]; [exact H|]. inv Hq.
    eapply alike_bind; [apply ask_over; eassumption|]. intros d d' K. apply IH; assumption.
  Qed.

  End Places.

  Lemma over_answers : forall c c', over same_places c c' -> same_place_answers md L U c c'.
  Proof.
    pose proof (fun j j' (H : same_places j j') => H) as I. intros c c' H. split.
    - destruct H; reflexivity.
    - intros. eapply told_answer, (original_over _ I); exact H.
    - intros. eapply told_answer, (generated_over _ I); exact H.
    - intros. eapply told_answer, (all_over _ I); exact H.
    - pose proof (spans_over _ I _ _ H) as K. destruct (bc_compute_column_spans L c); destruct (bc_compute_column_spans L c'); cbn in *; auto.
    - intros. eapply told_answer, (each_over _ I); exact H.
  Qed.

  (** ** opening *)
  Lemma abs_same : forall j j' url, smj_sources j = smj_sources j' -> smj_source_root j = smj_source_root j' ->
    compute_absolute_sources md U j url = compute_absolute_sources md U j' url.
  Proof. intros j j' url E1 E2. unfold compute_absolute_sources. rewrite E1, E2. reflexivity. Qed.

  Lemma alike_impl : forall A B (R S : A -> B -> Prop) r r', (forall a b, R a b -> S a b) -> alike R r r' -> alike S r r'.
  Proof. intros A B R S [a|] [b|] H; cbn; auto. Qed.

  Lemma places_json : forall j j' url qs, same_places j j' -> Forall (fun q => asks_text q = false) qs ->
    alike (same_place_answers md L U) (let* c := bc_from_source_map_json md L U j url in asked md L U c qs)
                                      (let* c := bc_from_source_map_json md L U j' url in asked md L U c qs).
  Proof.
    intros j j' url qs H Hq. eapply alike_impl; [exact over_answers|]. unfold bc_from_source_map_json.
    pose proof H as [E1 [E2 _]]. rewrite (abs_same j j' url E1 E2).
    destruct (compute_absolute_sources md U j' url); cbn [bind]; [|reflexivity].
    apply asked_over; [trivial | exact Hq|]. constructor. exact H.
  Qed.

  Lemma places_new : forall t t' j j' url qs, smj_from_str t = Some j -> smj_from_str t' = Some j' ->
    same_places j j' -> Forall (fun q => asks_text q = false) qs ->
    alike (same_place_answers md L U) (let* c := bc_new md L U t url in asked md L U c qs)
                                      (let* c := bc_new md L U t' url in asked md L U c qs).
  Proof.
    intros t t' j j' url qs Et Et' H Hq. eapply alike_impl; [exact over_answers|]. unfold bc_new. rewrite Et, Et'. cbn [unwrap_ok bind].
    pose proof H as [E1 [E2 _]]. rewrite (abs_same j j' url E1 E2).
    destruct (compute_absolute_sources md U j' url); cbn [bind]; [|reflexivity].
    apply asked_over; [trivial | exact Hq|]. constructor. exact H.
  Qed.

  (** ** texts *)
  Section Texts.
  Context (S : SourceMapJson -> SourceMapJson -> Prop) (HT : forall j j', S j j' -> same_texts j j').
  Lemma content_over : forall c c' s p, over S c c' ->
    alike (told S) (bc_source_content_for md L U c s p) (bc_source_content_for md L U c' s p).
  Proof.
    intros c c' s p H. unfold bc_source_content_for.
    assert (E : smj_sources_content (bc_source_map c) = smj_sources_content (bc_source_map c')).
    { destruct H as [j j' cache abs url m sp H]. destruct (HT _ _ H) as [_ [_ E]]. exact E. }
    rewrite E. destruct (smj_sources_content (bc_source_map c')) as [l|]; [|split; [reflexivity|exact H]].
    eapply alike_bind; [apply find_over; [intros j j' HH; exact (texts_root _ _ (HT _ _ HH)) | exact H]|]. intros [i d] [i' d'] [E2 K]. cbn [fst snd] in *. subst i'.
    destruct i as [i|].
    - apply bind_both. intros x. split; [reflexivity|exact K].
    - destruct (match p with Some b => b | None => true end); [reflexivity | split; [reflexivity|exact K]].
  Qed.

  Lemma asked_texts : forall qs c c', Forall (fun q => asks_text q = true) qs -> over S c c' ->
    alike (over S) (asked md L U c qs) (asked md L U c' qs).
  Proof.
    induction qs as [|q qs IH]; intros c c' Hq H; cbn [asked]; [exact H|]. inv Hq.
    destruct q; try discriminate. cbn [ask].
    eapply alike_bind; [apply told_state, content_over; exact H|]. intros d d' K. apply IH; assumption.
  Qed.

  End Texts.

  Lemma over_texts : forall c c', over same_texts c c' -> same_text_answers md L U c c'.
  Proof.
    intros c c' H. split.
    - destruct H; reflexivity.
    - destruct H as [j j' cache abs url m sp [E1 [_ E2]]]. unfold bc_has_contents_of_all_sources. cbn. rewrite E1, E2. reflexivity.
    - intros. eapply told_answer, (content_over _ (fun j j' H => H)); exact H.
  Qed.

  Lemma texts_json : forall j j' url qs, same_texts j j' -> Forall (fun q => asks_text q = true) qs ->
    alike (same_text_answers md L U) (let* c := bc_from_source_map_json md L U j url in asked md L U c qs)
                                     (let* c := bc_from_source_map_json md L U j' url in asked md L U c qs).
  Proof.
    intros j j' url qs H Hq. eapply alike_impl; [exact over_texts|]. unfold bc_from_source_map_json.
    pose proof H as [E1 [E2 _]]. rewrite (abs_same j j' url E1 E2).
    destruct (compute_absolute_sources md U j' url); cbn [bind]; [|reflexivity].
    apply asked_texts; [trivial | exact Hq|]. constructor. exact H.
  Qed.

  Lemma texts_new : forall t t' j j' url qs, smj_from_str t = Some j -> smj_from_str t' = Some j' ->
    same_texts j j' -> Forall (fun q => asks_text q = true) qs ->
    alike (same_text_answers md L U) (let* c := bc_new md L U t url in asked md L U c qs)
                                     (let* c := bc_new md L U t' url in asked md L U c qs).
  Proof.
    intros t t' j j' url qs Et Et' H Hq. eapply alike_impl; [exact over_texts|]. unfold bc_new. rewrite Et, Et'. cbn [unwrap_ok bind].
    pose proof H as [E1 [E2 _]]. rewrite (abs_same j j' url E1 E2).
    destruct (compute_absolute_sources md U j' url); cbn [bind]; [|reflexivity].
    apply asked_texts; [trivial | exact Hq|]. constructor. exact H.
  Qed.

  (** ** indexed maps *)
  Inductive iover : IndexedConsumer L -> IndexedConsumer L -> Prop :=
  | iover_map : forall j j' cell, iover (mkIC j cell) (mkIC j' cell).
  Definition itold {A} (x x' : A * IndexedConsumer L) : Prop := fst x = fst x' /\ iover (snd x) (snd x').

  Lemma itold_answer : forall A (r r' : res (A * IndexedConsumer L)), alike itold r r' -> answer r = answer r'.
  Proof. intros A [[a c]|p] [[a' c']|p'] H; cbn in *; try contradiction; [destruct H as [E _]; cbn in E; congruence | congruence]. Qed.
  Lemma itold_state : forall A (r r' : res (A * IndexedConsumer L)), alike itold r r' -> alike iover (istate L r) (istate L r').
  Proof. intros A [[a c]|p] [[a' c']|p'] H; cbn in *; try contradiction; [destruct H as [_ E]; exact E | exact H]. Qed.

  Ltac walk := repeat match goal with
    | |- alike _ (bind ?r _) (bind ?r _) => apply bind_both; intros
    | |- alike _ (match ?x with _ => _ end) _ => destruct x
    | |- alike _ (let '_ := ?x in _) _ => destruct x
    | |- alike itold (Ok _) (Ok _) => split; [reflexivity | constructor]
    | |- alike iover (Ok _) (Ok _) => constructor
    | |- alike _ (Panic _) (Panic _) => reflexivity
    end.

  Lemma iget_over : forall c c', iover c c' -> alike itold (ic_get_sources L c) (ic_get_sources L c').
  Proof. intros c c' [j j' cell]. unfold ic_get_sources, ic_set_sections. cbn [ic_sections ic_source_map]. walk. Qed.
  Lemma ioriginal_over : forall c c' g b, iover c c' ->
    alike itold (ic_original_position_for md L c g b) (ic_original_position_for md L c' g b).
  Proof. intros c c' g b [j j' cell]. unfold ic_original_position_for, ic_set_sections. cbn [ic_sections ic_source_map]. walk. Qed.
  Lemma ihas_over : forall c c', iover c c' -> alike itold (ic_has_contents_of_all_sources L c) (ic_has_contents_of_all_sources L c').
  Proof. intros c c' [j j' cell]. unfold ic_has_contents_of_all_sources, ic_set_sections. cbn [ic_sections ic_source_map]. walk. Qed.
  Lemma icontent_over : forall c c' s p, iover c c' ->
    alike itold (ic_source_content_for md L U c s p) (ic_source_content_for md L U c' s p).
  Proof. intros c c' s p [j j' cell]. unfold ic_source_content_for, ic_set_sections. cbn [ic_sections ic_source_map]. walk. Qed.
  Lemma ifind_over : forall c c' s, iover c c' -> alike itold (ic_find_source_index md L U c s) (ic_find_source_index md L U c' s).
  Proof. intros c c' s [j j' cell]. unfold ic_find_source_index, ic_set_sections. cbn [ic_sections ic_source_map]. walk. Qed.
  Lemma igenerated_over : forall c c' s line column b, iover c c' ->
    alike itold (ic_generated_position_for md L U c s line column b) (ic_generated_position_for md L U c' s line column b).
  Proof.
    intros c c' s line column b H. unfold ic_generated_position_for.
    eapply alike_bind; [apply ifind_over; exact H|]. intros [i d] [i' d'] [E K]. cbn [fst snd] in *. subst i'.
    destruct K as [j j' cell]. unfold ic_set_sections. cbn [ic_sections ic_source_map]. walk.
  Qed.
  Lemma iall_over : forall c c' s line column, iover c c' ->
    alike itold (ic_all_generated_position_for md L U c s line column) (ic_all_generated_position_for md L U c' s line column).
  Proof.
    intros c c' s line column H. unfold ic_all_generated_position_for.
    eapply alike_bind; [apply ifind_over; exact H|]. intros [i d] [i' d'] [E K]. cbn [fst snd] in *. subst i'.
    destruct K as [j j' cell]. unfold ic_set_sections. cbn [ic_sections ic_source_map]. walk.
  Qed.
  Lemma ispans_over : forall c c', iover c c' -> alike iover (ic_computed_column_spans L c) (ic_computed_column_spans L c').
  Proof. intros c c' [j j' cell]. unfold ic_computed_column_spans, ic_set_sections. cbn [ic_sections ic_source_map]. walk. Qed.
  Lemma ieach_over : forall c c' o, iover c c' -> alike itold (ic_each_mapping md L c o) (ic_each_mapping md L c' o).
  Proof. intros c c' o [j j' cell]. unfold ic_each_mapping, ic_set_sections. cbn [ic_sections ic_source_map]. walk. Qed.

  Lemma iasked_over : forall qs c c', iover c c' -> alike iover (iasked md L U c qs) (iasked md L U c' qs).
  Proof.
    induction qs as [|q qs IH]; intros c c' H; cbn [iasked]; [exact H|].
    eapply alike_bind; [|intros d d' K; apply IH; exact K].
    destruct q; cbn [iask]; try apply itold_state;
      [apply iget_over | apply ioriginal_over | apply ihas_over | apply icontent_over | apply igenerated_over | apply iall_over
      | apply ispans_over | apply ieach_over]; exact H.
  Qed.

  Lemma iover_answers : forall c c', iover c c' -> same_ianswers md L U c c'.
  Proof.
    intros c c' H. split; intros.
    - eapply itold_answer, iget_over; exact H.
    - eapply itold_answer, ioriginal_over; exact H.
    - eapply itold_answer, ihas_over; exact H.
    - eapply itold_answer, icontent_over; exact H.
    - eapply itold_answer, igenerated_over; exact H.
    - eapply itold_answer, iall_over; exact H.
    - pose proof (ispans_over _ _ H) as K. destruct (ic_computed_column_spans L c) as [d|p]; destruct (ic_computed_column_spans L c') as [d'|p'];
        cbn in K; try contradiction; split; intros [e E]; try discriminate; eexists; reflexivity.
    - eapply itold_answer, ieach_over; exact H.
  Qed.

  Lemma indexed_json : forall j j' order url qs, smj_version j = smj_version j' -> smj_sections j = smj_sections j' ->
    alike (same_ianswers md L U) (let* c := ic_from_source_map_json md L U order j url in iasked md L U c qs)
                                 (let* c := ic_from_source_map_json md L U order j' url in iasked md L U c qs).
  Proof.
    intros j j' order url qs Ev Es. eapply alike_impl; [exact iover_answers|]. unfold ic_from_source_map_json. rewrite Ev, Es.
    destruct (negb _); [reflexivity|]. destruct (smj_sections j') as [l|]; [|reflexivity]. cbn [unwrap bind].
    destruct (run_jobs md L U url l order (mkPos (-1) 0)) as [r|]; [|reflexivity]. cbn [bind].
    destruct (collect_jobs L (List.length l) r) as [secs|]; [|reflexivity]. cbn [bind].
    apply iasked_over. constructor.
  Qed.

  Lemma indexed_new : forall t t' j j' order url qs, smj_from_str t = Some j -> smj_from_str t' = Some j' ->
    smj_version j = smj_version j' -> smj_sections j = smj_sections j' ->
    alike (same_ianswers md L U) (let* c := ic_new md L U order t url in iasked md L U c qs)
                                 (let* c := ic_new md L U order t' url in iasked md L U c qs).
  Proof.
    intros t t' j j' order url qs Et Et' Ev Es. unfold ic_new. rewrite Et, Et'. cbn [unwrap_ok bind].
    apply indexed_json; assumption.
  Qed.

  (** ** create_consumer *)
  Lemma created_places : forall t t' j j' order url qs, smj_from_str t = Some j -> smj_from_str t' = Some j' ->
    smj_sections j = None -> smj_sections j' = None -> same_places j j' -> Forall (fun q => asks_text q = false) qs ->
    alike (same_place_answers md L U)
      (let* o := create_consumer md L U order t url in let* c := unwrap o in let* c := as_basic_consumer L c in asked md L U c qs)
      (let* o := create_consumer md L U order t' url in let* c := unwrap o in let* c := as_basic_consumer L c in asked md L U c qs).
  Proof.
    intros t t' j j' order url qs Et Et' En En' H Hq. unfold create_consumer. rewrite Et, Et', En, En'. cbn [is_some].
    pose proof (places_json j j' url qs H Hq) as K.
    destruct (bc_from_source_map_json md L U j url); destruct (bc_from_source_map_json md L U j' url); cbn in *; exact K.
  Qed.
End Fields.

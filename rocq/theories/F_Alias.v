(** * Names that find the same source *)
From Verif Require Import F_Base M_ArraySet M_Mapping M_Util M_SourceMap M_Generator M_Json M_MapLib
  M_Consumer M_Indexed S_List S_MapLib S_Consumer S_Indexed S_Alias F_ArraySet F_Consumer
  S_Url S_Refs S_MapUrl S_Opens S_OpensAt S_EndToEnd S_DataMap S_Lookup F_IndexedProps F_EndToEnd F_Lookup.

Section Alias.
  Context (md : mode) (L : MapLib) (U : UrlLib).
  Notation BC := (BasicConsumer L).

  Lemma find_fresh : forall c0 c src, fresh L c0 -> follows md L U c0 c ->
    answer (bc_find_source_index md L U c src) = answer (bc_find_source_index md L U c0 src).
  Proof.
    intros c0 c src Hf Ho. unfold bc_find_source_index at 1.
    destruct (hm_get src (bc_source_lookup_cache c)) as [i|] eqn:Ec.
    - destruct (fo_cache _ _ _ _ _ Ho _ _ Ec) as [c' ->]. reflexivity.
    - unfold bc_find_source_index. rewrite (fr_cache _ _ Hf). cbn [hm_get].
      rewrite (fo_map _ _ _ _ _ Ho), (fo_sources _ _ _ _ _ Ho), (fo_url _ _ _ _ _ Ho).
      destruct (compute_source_url md U None src _) as [u|p]; cbn [bind]; [|reflexivity].
      destruct (as_has _ u).
      + destruct (unwrap _); reflexivity.
      + destruct (compute_source_url md U _ src _) as [u'|p]; cbn [bind]; [|reflexivity].
        destruct (as_has _ u'); [|reflexivity]. destruct (unwrap _); reflexivity.
  Qed.

  (** equal but for the cache *)
  Record alike (c c' : BC) : Prop := {
    al_map : bc_source_map c = bc_source_map c';
    al_sources : bc_absolute_sources c = bc_absolute_sources c';
    al_mappings : bc_mappings c = bc_mappings c';
    al_spans : bc_computed_column_spans c = bc_computed_column_spans c' }.

  Inductive agree {A} : res (A * BC) -> res (A * BC) -> Prop :=
  | agree_panic : forall p, agree (Panic p) (Panic p)
  | agree_ok : forall a c c', alike c c' -> agree (Ok (a, c)) (Ok (a, c')).

  Lemma agree_answer : forall A (r r' : res (A * BC)), agree r r' -> answer r = answer r'.
  Proof. intros A r r' H. destruct H; reflexivity. Qed.

  Lemma agree_bind : forall A B (r r' : res (A * BC)) (f f' : A * BC -> res (B * BC)), agree r r' ->
    (forall a c c', alike c c' -> agree (f (a, c)) (f' (a, c'))) -> agree (bind r f) (bind r' f').
  Proof. intros A B r r' f f' H Hf. destruct H; cbn [bind]; [constructor | auto]. Qed.

  Lemma alike_set : forall c c' m, alike c c' -> alike (bc_set_mappings L c m) (bc_set_mappings L c' m).
  Proof. intros c c' m [A B C D]. constructor; cbn; assumption || reflexivity. Qed.

  Lemma agree_ensure : forall c c', alike c c' -> agree (bc_ensure_mappings L c) (bc_ensure_mappings L c').
  Proof.
    intros c c' H. unfold bc_ensure_mappings, bc_parse_mappings. rewrite (al_mappings _ _ H), (al_map _ _ H).
    destruct (bc_mappings c') as [m|] eqn:E; cbn [bind].
    - rewrite (al_mappings _ _ H), E. cbn. constructor. exact H.
    - destruct (unwrap (smj_mappings (bc_source_map c'))) as [s|p]; cbn [bind]; [|constructor].
      cbn. destruct (lm_parse L s) as [t|]; cbn; constructor. apply alike_set. exact H.
  Qed.

  Lemma agree_each : forall c c' o, alike c c' -> agree (bc_each_mapping L c o) (bc_each_mapping L c' o).
  Proof.
    intros c c' o H. unfold bc_each_mapping, bc_parse_mappings. rewrite (al_mappings _ _ H), (al_map _ _ H).
    destruct (match bc_mappings c' with Some m => _ | None => _ end) as [[m|]|p]; cbn [bind]; [| |constructor].
    - destruct o; [|destruct (lm_by_original L m)]; constructor; apply alike_set; exact H.
    - constructor. exact H.
  Qed.

  Lemma agree_original : forall c c' g b, alike c c' ->
    agree (bc_original_position_for md L c g b) (bc_original_position_for md L c' g b).
  Proof.
    intros c c' g b H. unfold bc_original_position_for.
    destruct (_ <? 1); [constructor|]. destruct (_ <? 0); [constructor|].
    apply agree_bind; [apply agree_ensure; exact H|]. clear c c' H. intros t c c' H.
    destruct (i32_sub md _ 1) as [l|p]; cbn [bind]; [|constructor].
    destruct (lm_original_for L t _ _ _) as [m|]; [|constructor; exact H].
    destruct (_ =? _); [|constructor; exact H].
    assert (E : option_map_res (bc_original_answer md L c m) (rm_original m)
                = option_map_res (bc_original_answer md L c' m) (rm_original m)).
    { destruct (rm_original m) as [o|]; [|reflexivity]. cbn [option_map_res].
      unfold bc_original_answer, bc_name_at. rewrite (al_map _ _ H), (al_sources _ _ H). reflexivity. }
    rewrite E. destruct (option_map_res (bc_original_answer md L c' m) (rm_original m)); cbn [bind]; constructor. exact H.
  Qed.

  Context (c0 : BC) (Hf : fresh L c0).

  Lemma agree_find : forall c c' s t, follows md L U c0 c -> follows md L U c0 c' -> alike c c' ->
    same_find md L U c0 s t -> agree (bc_find_source_index md L U c s) (bc_find_source_index md L U c' t).
  Proof.
    intros c c' s t Hc Hc' H Hs. unfold same_find in Hs.
    rewrite <- (find_fresh c0 c s Hf Hc), <- (find_fresh c0 c' t Hf Hc') in Hs.
    destruct (bc_find_source_index md L U c s) as [[r d]|p] eqn:E1;
    destruct (bc_find_source_index md L U c' t) as [[r' d']|p'] eqn:E2; cbn in Hs; inv Hs; [|constructor].
    destruct (find_follows md L U _ _ _ _ _ Hf Hc E1) as [F1 [M1 S1]].
    destruct (find_follows md L U _ _ _ _ _ Hf Hc' E2) as [F2 [M2 S2]].
    constructor. destruct H as [A B C D]. constructor; [| |congruence|congruence].
    - rewrite (fo_map _ _ _ _ _ F1), (fo_map _ _ _ _ _ F2). reflexivity.
    - rewrite (fo_sources _ _ _ _ _ F1), (fo_sources _ _ _ _ _ F2). reflexivity.
  Qed.

  Lemma agree_generated : forall c c' s t line column b, follows md L U c0 c -> follows md L U c0 c' -> alike c c' ->
    same_find md L U c0 s t ->
    agree (bc_generated_position_for md L U c s line column b) (bc_generated_position_for md L U c' t line column b).
  Proof.
    intros c c' s t line column b Hc Hc' H Hs. unfold bc_generated_position_for.
    apply agree_bind; [apply agree_find; assumption|]. clear c c' Hc Hc' H. intros [i|] c c' H; [|constructor; exact H].
    destruct (_ <? 1); [constructor|]. destruct (_ <? 0); [constructor|].
    apply agree_bind; [apply agree_ensure; exact H|]. clear c c' H. intros m c c' H.
    destruct (i32_sub md line 1) as [l|p]; cbn [bind]; [|constructor].
    destruct (lm_generated_for L m _ _ _ _) as [[r|] m']; [|constructor; apply alike_set; exact H].
    destruct (unwrap (rm_original r)) as [o|p]; cbn [bind]; [|constructor].
    apply (alike_set _ _ (Some m')) in H. destruct (_ =? _); [|constructor; exact H].
    assert (E : bc_generated_answer md L (bc_set_mappings L c (Some m')) r o
                = bc_generated_answer md L (bc_set_mappings L c' (Some m')) r o).
    { unfold bc_generated_answer, bc_name_at. rewrite (al_map _ _ H), (al_sources _ _ H), (al_spans _ _ H). reflexivity. }
    rewrite E. destruct (bc_generated_answer md L (bc_set_mappings L c' (Some m')) r o); cbn [bind]; constructor. exact H.
  Qed.

  Lemma agree_all : forall c c' s t line column, follows md L U c0 c -> follows md L U c0 c' -> alike c c' ->
    same_find md L U c0 s t ->
    agree (bc_all_generated_position_for md L U c s line column) (bc_all_generated_position_for md L U c' t line column).
  Proof.
    intros c c' s t line column Hc Hc' H Hs. unfold bc_all_generated_position_for.
    apply agree_bind; [apply agree_find; assumption|]. clear c c' Hc Hc' H. intros [i|] c c' H; [|constructor; exact H].
    destruct (i <? 0); [constructor; exact H|].
    destruct (_ <? 1); [constructor|]. destruct (_ <? 0); [constructor|].
    apply agree_bind; [apply agree_ensure; exact H|]. clear c c' H. intros m c c' H.
    destruct (lm_all_generated L m _ _ _) as [r m']. constructor. apply alike_set. exact H.
  Qed.

  Lemma agree_content : forall c c' s t p, follows md L U c0 c -> follows md L U c0 c' -> alike c c' ->
    same_find md L U c0 s t ->
    agree (bc_source_content_for md L U c s p) (bc_source_content_for md L U c' t p).
  Proof.
    intros c c' s t p Hc Hc' H Hs. unfold bc_source_content_for. rewrite (al_map _ _ H).
    destruct (smj_sources_content _) as [texts|]; [|constructor; exact H].
    apply agree_bind; [apply agree_find; assumption|]. clear c c' Hc Hc' H. intros [i|] c c' H.
    - destruct (vec_index texts _); cbn [bind]; constructor; exact H.
    - destruct (match p with Some _ => _ | None => _ end); constructor. exact H.
  Qed.

  Lemma agree_state : forall A (r r' : res (A * BC)), agree r r' ->
    (exists p, state L r = Panic p /\ state L r' = Panic p)
    \/ (exists c c', state L r = Ok c /\ state L r' = Ok c' /\ alike c c').
  Proof. intros A r r' H. destruct H; cbn; eauto 10. Qed.

  Lemma ask_alike : forall c c' q q', follows md L U c0 c -> follows md L U c0 c' -> alike c c' ->
    renamed md L U c0 q q' ->
    (exists p, ask md L U c q = Panic p /\ ask md L U c' q' = Panic p)
    \/ (exists d d', ask md L U c q = Ok d /\ ask md L U c' q' = Ok d' /\ alike d d').
  Proof.
    intros c c' q q' Hc Hc' H Hr. destruct Hr as [q|s t line column b Hs|s t line column Hs|s t p Hs].
    - destruct q as [g b|s line column b|s line column| |s p|o]; cbn [ask].
      + apply agree_state, agree_original. exact H.
      + apply agree_state, agree_generated; try assumption. reflexivity.
      + apply agree_state, agree_all; try assumption. reflexivity.
      + unfold bc_compute_column_spans. rewrite (al_spans _ _ H).
        destruct (bc_computed_column_spans c'); [right; eauto|].
        pose proof (agree_ensure _ _ H) as X.
        inversion X as [p E1 E2|m d d' Hd E1 E2]; cbn [bind]; [left; eauto|right].
        eexists. eexists. split; [reflexivity|]. split; [reflexivity|].
        destruct Hd as [A B C D]. constructor; cbn; assumption || reflexivity.
      + apply agree_state, agree_content; try assumption. reflexivity.
      + apply agree_state, agree_each. exact H.
    - apply agree_state, agree_generated; assumption.
    - apply agree_state, agree_all; assumption.
    - apply agree_state, agree_content; assumption.
  Qed.

  Lemma alike_answers : forall c c', follows md L U c0 c -> follows md L U c0 c' -> alike c c' ->
    same_answers md L U c0 c c'.
  Proof.
    intros c c' Hc Hc' H. constructor.
    - unfold bc_get_sources. rewrite (al_sources _ _ H). reflexivity.
    - unfold bc_has_contents_of_all_sources. rewrite (al_map _ _ H). reflexivity.
    - intros g b. apply agree_answer, agree_original. exact H.
    - intros o. apply agree_answer, agree_each. exact H.
    - intros. apply agree_answer, agree_generated; assumption.
    - intros. apply agree_answer, agree_all; assumption.
    - intros. apply agree_answer, agree_content; assumption.
  Qed.

  Lemma asked_alike : forall qs qs' c c', follows md L U c0 c -> follows md L U c0 c' -> alike c c' ->
    Forall2 (renamed md L U c0) qs qs' -> same_end md L U c0 (asked md L U c qs) (asked md L U c' qs').
  Proof.
    intros qs qs' c c' Hc Hc' H Hr. revert c c' Hc Hc' H. induction Hr as [|q q' qs qs' Hq Hr IH]; intros c c' Hc Hc' H; cbn [asked].
    - constructor. apply alike_answers; assumption.
    - destruct (ask_alike c c' q q' Hc Hc' H Hq) as [[p [-> ->]]|[d [d' [E1 [E2 Hd]]]]]; [constructor|].
      rewrite E1, E2. cbn [bind]. apply IH; [| |exact Hd].
      + exact (proj1 (ask_follows md L U c0 c q d Hf Hc E1)).
      + exact (proj1 (ask_follows md L U c0 c' q' d' Hf Hc' E2)).
  Qed.
End Alias.

Lemma renamed_history : forall md L U c0 qs qs', opened md L U c0 -> Forall2 (renamed md L U c0) qs qs' ->
  same_end md L U c0 (asked md L U c0 qs) (asked md L U c0 qs').
Proof.
  intros md L U c0 qs qs' Ho Hr. pose proof (opened_fresh md L U c0 Ho) as Hf.
  pose proof (follows_refl md L U c0 Hf) as Hc.
  apply asked_alike; [exact Hf|exact Hc|exact Hc| |exact Hr]. constructor; reflexivity.
Qed.

(** *** In sections *)
Lemma renamed_sections : forall md L U c0 qs c s t p, iopened md L U c0 -> iasked md L U c0 qs = Ok c ->
  Forall (fun x => len (bc_get_sources L (sec_consumer x)) < 2 ^ 31) (sections_of L c0) ->
  same_find_in_sections md L U c0 s t ->
  answer (ic_source_content_for md L U c s p) = answer (ic_source_content_for md L U c t p).
Proof.
  intros md L U c0 qs c s t p Ho Ha Hl Hs.
  rewrite (indexed_content md L U c0 qs c s p Ho Ha Hl), (indexed_content md L U c0 qs c t p Ho Ha Hl).
  assert (E : map (fun x => answer (bc_source_content_for md L U (sec_consumer x) s p)) (sections_of L c0)
            = map (fun x => answer (bc_source_content_for md L U (sec_consumer x) t p)) (sections_of L c0)).
  { apply map_ext_in. intros x Hx. pose proof (proj1 (Forall_forall _ _) Hs x Hx) as Hst. cbn beta in Hst.
    unfold bc_source_content_for. destruct (smj_sources_content _) as [texts|]; [|reflexivity].
    unfold same_find in Hst.
    destruct (bc_find_source_index md L U (sec_consumer x) s) as [[r d]|e];
    destruct (bc_find_source_index md L U (sec_consumer x) t) as [[r' d']|e']; cbn [answer] in Hst; inv Hst; cbn [bind]; [|reflexivity].
    destruct r' as [i|].
    - destruct (vec_index texts _); reflexivity.
    - destruct (match p with Some _ => _ | None => _ end); reflexivity. }
  rewrite E. reflexivity.
Qed.

(** *** Names written differently *)
Lemma found_same : forall e root l q q' r, same_place e root q q' -> found e root l q r -> found e root l q' r.
Proof.
  intros e root l q q' r [A1 [L1 [A2 L2]]] H. destruct H.
  - apply found_refused. tauto.
  - apply found_outside; [tauto|congruence].
  - apply found_root_refused; [tauto|congruence|tauto].
  - apply found_in_root; [tauto|congruence|tauto|congruence].
  - apply found_nothing; [tauto|congruence|tauto|congruence].
Qed.

Lemma same_place_found : forall md L U j url c0 lookup root e q q', UrlContract U ->
  opened_map md L U j url c0 lookup -> smj_source_root j = option_map ref_text root ->
  len (bc_get_sources L c0) < 2^31 -> url_at lookup e -> root_ref root ->
  source_ref q -> short_enough e None q -> short_enough e root q ->
  source_ref q' -> short_enough e None q' -> short_enough e root q' ->
  same_place e root q q' -> same_find md L U c0 (ref_text q) (ref_text q').
Proof.
  intros md L U j url c0 lookup root e q q' HU Ho Er Hl He Hroot H1 H2 H3 H4 H5 H6 Hs.
  destruct (finds_exactly md L U HU j url c0 lookup [] c0 root e q Ho eq_refl Er Hl He Hroot H1 H2 H3) as [_ X].
  destruct (finds_exactly md L U HU j url c0 lookup [] c0 root e q' Ho eq_refl Er Hl He Hroot H4 H5 H6) as [_ Y].
  unfold same_find. symmetry. apply Y. apply (found_same _ _ _ q); [exact Hs|]. apply X. reflexivity.
Qed.

(** * Two maps with the same mappings *)
From Verif Require Import F_Base M_ArraySet M_Mapping M_Util M_SourceMap M_Generator M_Json M_MapLib
  M_Consumer M_Indexed S_List S_MapLib S_Consumer S_Redo S_Twin F_ArraySet F_Consumer F_Alias.

Lemma vec_get_map : forall A B (f : A -> B) l i, vec_get (map f l) i = option_map f (vec_get l i).
Proof. intros. unfold vec_get, len. rewrite map_length. destruct (_ && _); [apply nth_error_map | reflexivity]. Qed.

Section Twin.
  Context (md : mode) (L : MapLib) (U : UrlLib) (f n : str -> str).
  Notation BC := (BasicConsumer L).

  Record paired (b c : BC) : Prop := {
    pa_tw : twins L f n b c;
    pa_listed : option_map len (smj_sources (bc_source_map c)) = option_map len (smj_sources (bc_source_map b));
    pa_mappings : bc_mappings c = bc_mappings b;
    pa_spans : bc_computed_column_spans c = bc_computed_column_spans b }.

  (** [h] relates the answers *)
  Inductive match_ {A} (h : A -> A) : res (A * BC) -> res (A * BC) -> Prop :=
  | match_panic : forall p, match_ h (Panic p) (Panic p)
  | match_ok : forall a b c, paired b c -> match_ h (Ok (a, b)) (Ok (h a, c)).

  Definition lift {A} (h : A -> A) (r : res A) : res A := match r with Ok a => Ok (h a) | Panic p => Panic p end.

  Lemma match_answer : forall A (h : A -> A) r r', match_ h r r' -> answer r' = lift h (answer r).
  Proof. intros A h r r' H. destruct H; reflexivity. Qed.

  Lemma match_bind : forall A B (h : B -> B) (r r' : res (A * BC)) (g g' : A * BC -> res (B * BC)), match_ (fun a => a) r r' ->
    (forall a b c, paired b c -> match_ h (g (a, b)) (g' (a, c))) -> match_ h (bind r g) (bind r' g').
  Proof. intros A B h r r' g g' H Hf. destruct H; cbn [bind]; [constructor | auto]. Qed.

  Lemma match_id : forall A a (b c : BC), paired b c -> match_ (fun x : A => x) (Ok (a, b)) (Ok (a, c)).
  Proof. intros A a b c H. apply (match_ok (fun x => x)). exact H. Qed.

  Lemma paired_set : forall b c m, paired b c -> paired (bc_set_mappings L b m) (bc_set_mappings L c m).
  Proof. intros b c m [[T S N C] Li M P]. constructor; [constructor|..]; cbn; assumption || reflexivity. Qed.

  Lemma match_ensure : forall b c, paired b c -> match_ (fun t => t) (bc_ensure_mappings L b) (bc_ensure_mappings L c).
  Proof.
    intros b c H. unfold bc_ensure_mappings, bc_parse_mappings. rewrite (pa_mappings _ _ H), (tw_text _ _ _ _ _ (pa_tw _ _ H)).
    destruct (bc_mappings b) as [m|] eqn:E; cbn [bind].
    - rewrite (pa_mappings _ _ H), E. cbn. apply match_id. exact H.
    - destruct (unwrap (smj_mappings (bc_source_map b))) as [s|p]; cbn [bind]; [|constructor].
      cbn. destruct (lm_parse L s) as [t|]; cbn; [|constructor]. apply match_id. apply paired_set. exact H.
  Qed.

  Lemma match_each : forall b c o, paired b c -> match_ (fun t => t) (bc_each_mapping L b o) (bc_each_mapping L c o).
  Proof.
    intros b c o H. unfold bc_each_mapping, bc_parse_mappings. rewrite (pa_mappings _ _ H), (tw_text _ _ _ _ _ (pa_tw _ _ H)).
    destruct (match bc_mappings b with Some m => _ | None => _ end) as [[m|]|p]; cbn [bind]; [| |constructor].
    - destruct o; [|destruct (lm_by_original L m)]; apply match_id; apply paired_set; exact H.
    - apply match_id. exact H.
  Qed.

  Lemma name_at : forall b c i, paired b c -> bc_name_at L c i = lift n (bc_name_at L b i).
  Proof.
    intros b c i H. unfold bc_name_at. rewrite (tw_names _ _ _ _ _ (pa_tw _ _ H)).
    destruct (smj_names (bc_source_map b)) as [names|]; cbn [option_map unwrap bind]; [|reflexivity].
    unfold vec_index. rewrite vec_get_map. destruct (vec_get names _); reflexivity.
  Qed.

  Lemma source_at : forall b c i, paired b c -> as_at (bc_absolute_sources c) i = option_map f (as_at (bc_absolute_sources b) i).
  Proof.
    intros b c i H. pose proof (tw_sources _ _ _ _ _ (pa_tw _ _ H)) as S. unfold bc_get_sources, as_to_vec in S.
    unfold as_at. rewrite S. unfold len. rewrite map_length. destruct (_ && _); [apply vec_get_map | reflexivity].
  Qed.

  Lemma match_original : forall b c g bias, paired b c ->
    match_ (option_map (called f n)) (bc_original_position_for md L b g bias) (bc_original_position_for md L c g bias).
  Proof.
    intros b c g bias H. unfold bc_original_position_for.
    destruct (_ <? 1); [constructor|]. destruct (_ <? 0); [constructor|].
    apply match_bind; [apply match_ensure; exact H|]. clear b c H. intros t b c H.
    destruct (i32_sub md _ 1) as [l|p]; cbn [bind]; [|constructor].
    destruct (lm_original_for L t _ _ _) as [m|]; [|apply (match_ok (option_map (called f n)) None); exact H].
    destruct (_ =? _); [|apply (match_ok (option_map (called f n)) None); exact H].
    assert (E : option_map_res (bc_original_answer md L c m) (rm_original m)
                = lift (option_map (called f n)) (option_map_res (bc_original_answer md L b m) (rm_original m))).
    { destruct (rm_original m) as [o|]; [|reflexivity]. cbn [option_map_res]. unfold bc_original_answer.
      rewrite (source_at _ _ _ H).
      assert (En : option_map_res (bc_name_at L c) (ol_name o) = lift (option_map n) (option_map_res (bc_name_at L b) (ol_name o))).
      { destruct (ol_name o) as [i|]; [|reflexivity]. cbn [option_map_res]. rewrite (name_at _ _ _ H).
        destruct (bc_name_at L b i); reflexivity. }
      rewrite En. destruct (option_map_res (bc_name_at L b) (ol_name o)) as [name|p]; cbn [lift bind]; [|reflexivity].
      destruct (u32_add md (ol_line o) 1); cbn [bind lift]; [|reflexivity].
      destruct (u32_add md (rm_line m) 1); cbn [bind lift]; reflexivity. }
    rewrite E. destruct (option_map_res (bc_original_answer md L b m) (rm_original m)); cbn [bind lift]; constructor. exact H.
  Qed.

  Context (b0 c0 : BC) (Hb : fresh L b0) (Hc : fresh L c0) (H0 : paired b0 c0).

  Lemma match_find : forall b c s t, follows md L U b0 b -> follows md L U c0 c -> paired b c ->
    find_alike md L U b0 c0 s t -> match_ (fun i => i) (bc_find_source_index md L U b s) (bc_find_source_index md L U c t).
  Proof.
    intros b c s t Fb Fc H Hs. unfold find_alike in Hs.
    rewrite <- (find_fresh md L U b0 b s Hb Fb), <- (find_fresh md L U c0 c t Hc Fc) in Hs.
    destruct (bc_find_source_index md L U b s) as [[r d]|p] eqn:E1;
    destruct (bc_find_source_index md L U c t) as [[r' d']|p'] eqn:E2; cbn in Hs; inv Hs; [|constructor].
    destruct (find_follows md L U _ _ _ _ _ Hb Fb E1) as [F1 [M1 S1]].
    destruct (find_follows md L U _ _ _ _ _ Hc Fc E2) as [F2 [M2 S2]].
    apply match_id. destruct H as [_ _ M P]. destruct H0 as [[T S N C] Li _ _].
    pose proof (fo_sources _ _ _ _ _ F1) as A1. pose proof (fo_sources _ _ _ _ _ F2) as A2.
    pose proof (fo_map _ _ _ _ _ F1) as B1. pose proof (fo_map _ _ _ _ _ F2) as B2.
    unfold bc_get_sources in S.
    constructor; [constructor|..]; unfold bc_get_sources; rewrite ?A1, ?A2, ?B1, ?B2; try assumption; congruence.
  Qed.

  Lemma match_generated : forall b c s t line column bias, follows md L U b0 b -> follows md L U c0 c -> paired b c ->
    find_alike md L U b0 c0 s t ->
    match_ (option_map (called f n)) (bc_generated_position_for md L U b s line column bias)
      (bc_generated_position_for md L U c t line column bias).
  Proof.
    intros b c s t line column bias Fb Fc H Hs. unfold bc_generated_position_for.
    pose proof (fun b c => match_ok (option_map (called f n)) None b c) as none. cbn [option_map] in none.
    apply match_bind; [apply match_find; assumption|]. clear b c Fb Fc H. intros [i|] b c H; [|apply none; exact H].
    destruct (_ <? 1); [constructor|]. destruct (_ <? 0); [constructor|].
    apply match_bind; [apply match_ensure; exact H|]. clear b c H. intros m b c H.
    destruct (i32_sub md line 1) as [l|p]; cbn [bind]; [|constructor].
    destruct (lm_generated_for L m _ _ _ _) as [[r|] m']; [|apply none; apply paired_set; exact H].
    destruct (unwrap (rm_original r)) as [o|p]; cbn [bind]; [|constructor].
    apply (paired_set _ _ (Some m')) in H. destruct (_ =? _); [|apply none; exact H].
    assert (E : bc_generated_answer md L (bc_set_mappings L c (Some m')) r o
                = lift (called f n) (bc_generated_answer md L (bc_set_mappings L b (Some m')) r o)).
    { unfold bc_generated_answer. rewrite (name_at _ _ _ H), (source_at _ _ _ H), (pa_spans _ _ H).
      destruct (u32_add md (rm_line r) 1); cbn [bind lift]; [|reflexivity].
      destruct (bc_name_at L (bc_set_mappings L b (Some m')) (ol_source o)); reflexivity. }
    rewrite E. destruct (bc_generated_answer md L (bc_set_mappings L b (Some m')) r o) as [a|p]; cbn [bind lift]; [|constructor].
    apply (match_ok (option_map (called f n)) (Some a)). exact H.
  Qed.

  Lemma match_all : forall b c s t line column, follows md L U b0 b -> follows md L U c0 c -> paired b c ->
    find_alike md L U b0 c0 s t ->
    match_ (fun l => l) (bc_all_generated_position_for md L U b s line column) (bc_all_generated_position_for md L U c t line column).
  Proof.
    intros b c s t line column Fb Fc H Hs. unfold bc_all_generated_position_for.
    apply match_bind; [apply match_find; assumption|]. clear b c Fb Fc H. intros [i|] b c H; [|apply match_id; exact H].
    destruct (i <? 0); [apply match_id; exact H|].
    destruct (_ <? 1); [constructor|]. destruct (_ <? 0); [constructor|].
    apply match_bind; [apply match_ensure; exact H|]. clear b c H. intros m b c H.
    destruct (lm_all_generated L m _ _ _) as [r m']. apply match_id. apply paired_set. exact H.
  Qed.

  Lemma match_content : forall b c s t p, follows md L U b0 b -> follows md L U c0 c -> paired b c ->
    find_alike md L U b0 c0 s t ->
    match_ (fun o => o) (bc_source_content_for md L U b s p) (bc_source_content_for md L U c t p).
  Proof.
    intros b c s t p Fb Fc H Hs. unfold bc_source_content_for. rewrite (tw_contents _ _ _ _ _ (pa_tw _ _ H)).
    destruct (smj_sources_content _) as [texts|]; [|apply match_id; exact H].
    apply match_bind; [apply match_find; assumption|]. clear b c Fb Fc H. intros [i|] b c H.
    - destruct (vec_index texts _); cbn [bind]; [apply match_id; exact H | constructor].
    - destruct (match p with Some _ => _ | None => _ end); [constructor | apply match_id; exact H].
  Qed.

  Lemma match_state : forall A (h : A -> A) (r r' : res (A * BC)), match_ h r r' ->
    (exists p, state L r = Panic p /\ state L r' = Panic p)
    \/ (exists b c, state L r = Ok b /\ state L r' = Ok c /\ paired b c).
  Proof. intros A h r r' H. destruct H; cbn; eauto 10. Qed.

  Lemma ask_paired : forall b c q q', follows md L U b0 b -> follows md L U c0 c -> paired b c ->
    counterpart md L U b0 c0 q q' ->
    (exists p, ask md L U b q = Panic p /\ ask md L U c q' = Panic p)
    \/ (exists d d', ask md L U b q = Ok d /\ ask md L U c q' = Ok d' /\ paired d d').
  Proof.
    intros b c q q' Fb Fc H Hr.
    destruct Hr as [g bias| |o|s t line column bias Hs|s t line column Hs|s t p Hs]; cbn [ask].
    - eapply match_state, match_original. exact H.
    - unfold bc_compute_column_spans. rewrite (pa_spans _ _ H).
      destruct (bc_computed_column_spans b); [right; eauto|].
      pose proof (match_ensure _ _ H) as X.
      inversion X as [p E1 E2|m d d' Hd E1 E2]; cbn [bind]; [left; eauto|right].
      eexists. eexists. split; [reflexivity|]. split; [reflexivity|].
      destruct Hd as [[T S N C] Li M P]. constructor; [constructor|..]; cbn; assumption || reflexivity.
    - eapply match_state, match_each. exact H.
    - eapply match_state, match_generated; eassumption.
    - eapply match_state, match_all; eassumption.
    - eapply match_state, match_content; eassumption.
  Qed.

  Lemma lift_id : forall A (r : res A), lift (fun a => a) r = r.
  Proof. intros A [a|p]; reflexivity. Qed.

  Lemma paired_answers : forall b c, follows md L U b0 b -> follows md L U c0 c -> paired b c ->
    twin_answers md L U f n b0 c0 b c.
  Proof.
    intros b c Fb Fc H. constructor.
    - exact (tw_sources _ _ _ _ _ (pa_tw _ _ H)).
    - unfold bc_has_contents_of_all_sources. rewrite (tw_contents _ _ _ _ _ (pa_tw _ _ H)).
      destruct (smj_sources_content _) as [texts|]; [|reflexivity]. pose proof (pa_listed _ _ H) as E.
      destruct (smj_sources (bc_source_map b)), (smj_sources (bc_source_map c)); cbn in *; try discriminate; [|reflexivity].
      injection E as ->. reflexivity.
    - intros g bias. rewrite (match_answer _ _ _ _ (match_original b c g bias H)). reflexivity.
    - intros o. rewrite (match_answer _ _ _ _ (match_each b c o H)). apply lift_id.
    - intros s t line column bias Hs. rewrite (match_answer _ _ _ _ (match_generated b c s t line column bias Fb Fc H Hs)). reflexivity.
    - intros s t line column Hs. rewrite (match_answer _ _ _ _ (match_all b c s t line column Fb Fc H Hs)). apply lift_id.
    - intros s t p Hs. rewrite (match_answer _ _ _ _ (match_content b c s t p Fb Fc H Hs)). apply lift_id.
  Qed.

  Lemma asked_paired : forall qs qs' b c, follows md L U b0 b -> follows md L U c0 c -> paired b c ->
    Forall2 (counterpart md L U b0 c0) qs qs' -> twin_end md L U f n b0 c0 (asked md L U b qs) (asked md L U c qs').
  Proof.
    intros qs qs' b c Fb Fc H Hr. revert b c Fb Fc H.
    induction Hr as [|q q' qs qs' Hq Hr IH]; intros b c Fb Fc H; cbn [asked].
    - constructor. apply paired_answers; assumption.
    - destruct (ask_paired b c q q' Fb Fc H Hq) as [[p [-> ->]]|[d [d' [E1 [E2 Hd]]]]]; [constructor|].
      rewrite E1, E2. cbn [bind]. apply IH; [| |exact Hd].
      + exact (proj1 (ask_follows md L U b0 b q d Hb Fb E1)).
      + exact (proj1 (ask_follows md L U c0 c q' d' Hc Fc E2)).
  Qed.
End Twin.

Lemma listed_length : forall md L U c0, opened md L U c0 ->
  option_map len (smj_sources (bc_source_map c0)) = Some (len (bc_get_sources L c0)).
Proof.
  assert (X : forall md U j url a, compute_absolute_sources md U j url = Ok a ->
    option_map len (smj_sources j) = Some (len (as_to_vec a))).
  { intros md U j url a H. unfold compute_absolute_sources in H. bind_inv H. bind_inv H. inv H.
    rewrite (proj1 (as_from_array_vec _)). destruct (smj_sources j) as [l|]; cbn in *; [|discriminate].
    inv H0. cbn. f_equal. unfold len. f_equal. apply mapM_inv in H1.
    clear -H1. induction H1; cbn; congruence. }
  intros md L U c0 [[s [url H]]|[j [url H]]].
  - unfold bc_new in H. bind_inv H. bind_inv H. inv H. cbn. eapply X. eassumption.
  - unfold bc_from_source_map_json in H. bind_inv H. inv H. cbn. eapply X. eassumption.
Qed.

Lemma twin_history : forall md L U f n b0 c0 qs qs', opened md L U b0 -> opened md L U c0 -> twins L f n b0 c0 ->
  Forall2 (counterpart md L U b0 c0) qs qs' ->
  twin_end md L U f n b0 c0 (asked md L U b0 qs) (asked md L U c0 qs').
Proof.
  intros md L U f n b0 c0 qs qs' Ob Oc H Hr.
  pose proof (opened_fresh md L U b0 Ob) as Hb. pose proof (opened_fresh md L U c0 Oc) as Hc.
  assert (P : paired L f n b0 c0).
  { constructor; [exact H| | |].
    - rewrite (listed_length _ _ _ _ Ob), (listed_length _ _ _ _ Oc), (tw_sources _ _ _ _ _ H). unfold len. rewrite map_length. reflexivity.
    - rewrite (fr_mappings _ _ Hb), (fr_mappings _ _ Hc). reflexivity.
    - rewrite (fr_spans _ _ Hb), (fr_spans _ _ Hc). reflexivity. }
  apply asked_paired; [exact Hb | exact Hc | exact P | | |exact P|exact Hr].
  - apply follows_refl. exact Hb.
  - apply follows_refl. exact Hc.
Qed.

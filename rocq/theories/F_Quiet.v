(** * Calls that leave no trace *)
From Verif Require Import F_Base M_ArraySet M_BinarySearch M_Mapping M_Util M_SourceMap M_Generator M_Json M_MapLib
  M_Consumer M_Indexed S_List S_Mapping S_MapLib S_Consumer S_Indexed S_Alias S_Quiet F_ArraySet F_Consumer
  F_Indexed F_IndexedProps F_Alias F_Sections F_Json.

Section Quiet.
  Context (md : mode) (L : MapLib) (U : UrlLib).
  Notation BC := (BasicConsumer L).

  (** the mappings the consumer has or would read *)
  Definition loaded (c : BC) : option (lm_t L) :=
    match bc_mappings c with
    | Some t => Some t
    | None => match smj_mappings (bc_source_map c) with Some s => lm_parse L s | None => None end
    end.
  Definition load (c : BC) : BC := bc_set_mappings L c (loaded c).

  Lemma set_same : forall c, bc_set_mappings L c (bc_mappings c) = c.
  Proof. intros []. reflexivity. Qed.

  Lemma ensure_load : forall c, bc_ensure_mappings L (load c) = bc_ensure_mappings L c.
  Proof.
    intros c. unfold load, loaded. destruct (bc_mappings c) as [t|] eqn:E.
    - rewrite <- E, set_same. reflexivity.
    - destruct (smj_mappings (bc_source_map c)) as [s|] eqn:Es; [|rewrite <- E, set_same; reflexivity].
      unfold bc_ensure_mappings, bc_parse_mappings. rewrite E, Es. cbn. rewrite Es. cbn.
      destruct (lm_parse L s); reflexivity.
  Qed.

  Lemma ensure_load_ok : forall c t d, bc_ensure_mappings L c = Ok (t, d) -> d = load c /\ load d = d.
  Proof.
    intros c t d H. unfold bc_ensure_mappings, bc_parse_mappings in H. unfold load, loaded.
    destruct (bc_mappings c) as [m|] eqn:E.
    - cbn in H. rewrite E in H. cbn in H. inv H. split; [rewrite <- E, set_same; reflexivity|].
      rewrite E, <- E, set_same. reflexivity.
    - destruct (smj_mappings (bc_source_map c)) as [s|]; [|discriminate]. cbn in H.
      destruct (lm_parse L s) as [m|]; [|discriminate]. cbn in H. inv H. split; reflexivity.
  Qed.

  Lemma load_set : forall c t, load (bc_set_mappings L c (Some t)) = bc_set_mappings L c (Some t).
  Proof. reflexivity. Qed.

  Lemma each_load : forall c o, bc_each_mapping L (load c) o = bc_each_mapping L c o \/ load c = c.
  Proof.
    intros c o. unfold load, loaded. destruct (bc_mappings c) as [t|] eqn:E.
    - right. rewrite <- E. apply set_same.
    - destruct (smj_mappings (bc_source_map c)) as [s|] eqn:Es; [|right; rewrite <- E; apply set_same].
      destruct (lm_parse L s) as [t|] eqn:Et; [|right; rewrite <- E; apply set_same]. left.
      unfold bc_each_mapping, bc_parse_mappings. rewrite E, Es. cbn. rewrite Et. destruct o; reflexivity.
  Qed.

  (** equal but for the cache and for having read the mappings *)
  Definition near (c c' : BC) : Prop := alike L (load c) (load c').

  Lemma alike_refl : forall c, alike L c c.
  Proof. intros c. constructor; reflexivity. Qed.
  Lemma alike_sym : forall c c', alike L c c' -> alike L c' c.
  Proof. intros c c' [A B C D]. constructor; congruence. Qed.
  Lemma alike_trans : forall c c' c'', alike L c c' -> alike L c' c'' -> alike L c c''.
  Proof. intros c c' c'' [A B C D] [A' B' C' D']. constructor; congruence. Qed.
  Lemma alike_near : forall c c', alike L c c' -> near c c'.
  Proof.
    intros c c' [A B C D]. unfold near, load, loaded. constructor; cbn; try assumption. rewrite A, C. reflexivity.
  Qed.
  Lemma near_refl : forall c, near c c.
  Proof. intros c. apply alike_refl. Qed.
  Lemma near_sym : forall c c', near c c' -> near c' c.
  Proof. intros c c'. apply alike_sym. Qed.
  Lemma near_trans : forall c c' c'', near c c' -> near c' c'' -> near c c''.
  Proof. intros c c' c''. apply alike_trans. Qed.

  Inductive nearly {A} : res (A * BC) -> res (A * BC) -> Prop :=
  | nearly_panic : forall p, nearly (Panic p) (Panic p)
  | nearly_ok : forall a c c', near c c' -> nearly (Ok (a, c)) (Ok (a, c')).

  Lemma nearly_answer : forall A (r r' : res (A * BC)), nearly r r' -> answer r = answer r'.
  Proof. intros A r r' H. destruct H; reflexivity. Qed.
  Lemma nearly_state : forall A (r r' : res (A * BC)), nearly r r' ->
    (exists p, state L r = Panic p /\ state L r' = Panic p)
    \/ (exists c c', state L r = Ok c /\ state L r' = Ok c' /\ near c c').
  Proof. intros A r r' H. destruct H; cbn; eauto 10. Qed.
  Lemma agree_nearly : forall A (r r' : res (A * BC)), agree L r r' -> nearly r r'.
  Proof. intros A r r' H. destruct H; constructor. apply alike_near. assumption. Qed.

  Lemma near_ensure : forall c c', near c c' -> agree L (bc_ensure_mappings L c) (bc_ensure_mappings L c').
  Proof. intros c c' H. rewrite <- (ensure_load c), <- (ensure_load c'). apply agree_ensure. exact H. Qed.

  Lemma near_original : forall c c' g b, near c c' ->
    agree L (bc_original_position_for md L c g b) (bc_original_position_for md L c' g b).
  Proof.
    intros c c' g b H.
    assert (X : forall d, bc_original_position_for md L (load d) g b = bc_original_position_for md L d g b).
    { intros d. unfold bc_original_position_for. rewrite ensure_load. reflexivity. }
    rewrite <- (X c), <- (X c'). apply agree_original. exact H.
  Qed.

  Lemma near_each : forall c c' o, near c c' -> nearly (bc_each_mapping L c o) (bc_each_mapping L c' o).
  Proof.
    intros c c' o H.
    assert (X : forall d, bc_each_mapping L (load d) o = bc_each_mapping L d o).
    { intros d. destruct (each_load d o) as [E|E]; [exact E | rewrite E; reflexivity]. }
    rewrite <- (X c), <- (X c'). apply agree_nearly, agree_each. exact H.
  Qed.

  Context (c0 : BC) (Hf : fresh L c0).
  Notation FO := (follows md L U c0).

  Lemma near_find : forall c c' s t, FO c -> FO c' -> near c c' -> same_find md L U c0 s t ->
    nearly (bc_find_source_index md L U c s) (bc_find_source_index md L U c' t).
  Proof.
    intros c c' s t Hc Hc' H Hs. unfold same_find in Hs.
    rewrite <- (find_fresh md L U c0 c s Hf Hc), <- (find_fresh md L U c0 c' t Hf Hc') in Hs.
    destruct (bc_find_source_index md L U c s) as [[r d]|p] eqn:E1;
    destruct (bc_find_source_index md L U c' t) as [[r' d']|p'] eqn:E2; cbn in Hs; inv Hs; [|constructor].
    destruct (find_follows md L U _ _ _ _ _ Hf Hc E1) as [F1 [M1 S1]].
    destruct (find_follows md L U _ _ _ _ _ Hf Hc' E2) as [F2 [M2 S2]].
    constructor. destruct H as [A B C D]. cbn in A, B, C, D. unfold near, load. constructor; cbn.
    - rewrite (fo_map _ _ _ _ _ F1), (fo_map _ _ _ _ _ F2). reflexivity.
    - rewrite (fo_sources _ _ _ _ _ F1), (fo_sources _ _ _ _ _ F2). reflexivity.
    - unfold loaded in *. rewrite M1, M2, (fo_map _ _ _ _ _ F1), (fo_map _ _ _ _ _ F2).
      rewrite (fo_map _ _ _ _ _ Hc), (fo_map _ _ _ _ _ Hc') in C. exact C.
    - congruence.
  Qed.

  Lemma near_generated : forall c c' s t line column b, FO c -> FO c' -> near c c' -> same_find md L U c0 s t ->
    nearly (bc_generated_position_for md L U c s line column b) (bc_generated_position_for md L U c' t line column b).
  Proof.
    intros c c' s t line column b Hc Hc' H Hs. unfold bc_generated_position_for.
    destruct (near_find c c' s t Hc Hc' H Hs) as [p|[i|] d d' Hd]; cbn [bind]; [constructor| |constructor; exact Hd].
    destruct (_ <? 1); [constructor|]. destruct (_ <? 0); [constructor|].
    apply agree_nearly. apply agree_bind; [apply near_ensure; exact Hd|]. clear c c' Hc Hc' H d d' Hd. intros m c c' H.
    destruct (i32_sub md line 1) as [l|p]; cbn [bind]; [|constructor].
    destruct (lm_generated_for L m _ _ _ _) as [[r|] m']; [|constructor; apply alike_set; exact H].
    destruct (unwrap (rm_original r)) as [o|p]; cbn [bind]; [|constructor].
    apply (alike_set _ _ _ (Some m')) in H. destruct (_ =? _); [|constructor; exact H].
    assert (E : bc_generated_answer md L (bc_set_mappings L c (Some m')) r o
                = bc_generated_answer md L (bc_set_mappings L c' (Some m')) r o).
    { unfold bc_generated_answer, bc_name_at. rewrite (al_map _ _ _ H), (al_sources _ _ _ H), (al_spans _ _ _ H). reflexivity. }
    rewrite E. destruct (bc_generated_answer md L (bc_set_mappings L c' (Some m')) r o); cbn [bind]; constructor. exact H.
  Qed.

  Lemma near_all : forall c c' s t line column, FO c -> FO c' -> near c c' -> same_find md L U c0 s t ->
    nearly (bc_all_generated_position_for md L U c s line column) (bc_all_generated_position_for md L U c' t line column).
  Proof.
    intros c c' s t line column Hc Hc' H Hs. unfold bc_all_generated_position_for.
    destruct (near_find c c' s t Hc Hc' H Hs) as [p|[i|] d d' Hd]; cbn [bind]; [constructor| |constructor; exact Hd].
    destruct (i <? 0); [constructor; exact Hd|].
    destruct (_ <? 1); [constructor|]. destruct (_ <? 0); [constructor|].
    apply agree_nearly. apply agree_bind; [apply near_ensure; exact Hd|]. clear c c' Hc Hc' H d d' Hd. intros m c c' H.
    destruct (lm_all_generated L m _ _ _) as [r m']. constructor. apply alike_set. exact H.
  Qed.

  Lemma near_content : forall c c' s t p, FO c -> FO c' -> near c c' -> same_find md L U c0 s t ->
    nearly (bc_source_content_for md L U c s p) (bc_source_content_for md L U c' t p).
  Proof.
    intros c c' s t p Hc Hc' H Hs. unfold bc_source_content_for.
    rewrite (fo_map _ _ _ _ _ Hc), (fo_map _ _ _ _ _ Hc').
    destruct (smj_sources_content _) as [texts|]; [|constructor; exact H].
    destruct (near_find c c' s t Hc Hc' H Hs) as [e|[i|] d d' Hd]; cbn [bind]; [constructor| |].
    - destruct (vec_index texts _); cbn [bind]; constructor; exact Hd.
    - destruct (match p with Some _ => _ | None => _ end); constructor. exact Hd.
  Qed.

  Lemma near_spans : forall c c', near c c' ->
    (exists p, bc_compute_column_spans L c = Panic p /\ bc_compute_column_spans L c' = Panic p)
    \/ (exists d d', bc_compute_column_spans L c = Ok d /\ bc_compute_column_spans L c' = Ok d' /\ near d d').
  Proof.
    intros c c' H. unfold bc_compute_column_spans.
    replace (bc_computed_column_spans c) with (bc_computed_column_spans c') by (symmetry; exact (al_spans _ _ _ H)).
    destruct (bc_computed_column_spans c'); [right; eauto|].
    pose proof (near_ensure _ _ H) as X.
    inversion X as [p E1 E2|m d d' Hd E1 E2]; cbn [bind]; [left; eauto|right].
    eexists. eexists. split; [reflexivity|]. split; [reflexivity|].
    destruct Hd as [A B C D]. constructor; cbn; assumption || reflexivity.
  Qed.

  Lemma ask_near : forall c c' q, FO c -> FO c' -> near c c' ->
    (exists p, ask md L U c q = Panic p /\ ask md L U c' q = Panic p)
    \/ (exists d d', ask md L U c q = Ok d /\ ask md L U c' q = Ok d' /\ near d d').
  Proof.
    intros c c' q Hc Hc' H. destruct q as [g b|s line column b|s line column| |s p|o]; cbn [ask].
    - apply nearly_state, agree_nearly, near_original. exact H.
    - apply nearly_state, near_generated; try assumption. reflexivity.
    - apply nearly_state, near_all; try assumption. reflexivity.
    - apply near_spans. exact H.
    - apply nearly_state, near_content; try assumption. reflexivity.
    - apply nearly_state, near_each. exact H.
  Qed.

  Lemma near_answers : forall c c', FO c -> FO c' -> near c c' -> same_answers md L U c0 c c'.
  Proof.
    intros c c' Hc Hc' H. constructor.
    - unfold bc_get_sources. rewrite (fo_sources _ _ _ _ _ Hc), (fo_sources _ _ _ _ _ Hc'). reflexivity.
    - unfold bc_has_contents_of_all_sources. rewrite (fo_map _ _ _ _ _ Hc), (fo_map _ _ _ _ _ Hc'). reflexivity.
    - intros g b. apply agree_answer with (L := L). apply near_original. exact H.
    - intros o. apply nearly_answer, near_each. exact H.
    - intros. apply nearly_answer, near_generated; assumption.
    - intros. apply nearly_answer, near_all; assumption.
    - intros. apply nearly_answer, near_content; assumption.
  Qed.

  (** a quiet call changes nothing that matters *)
  Lemma quiet_near : forall c q d, FO c -> quiet q = true -> ask md L U c q = Ok d -> near d c.
  Proof.
    intros c q d Hc Hq H.
    assert (E : forall t e, bc_ensure_mappings L c = Ok (t, e) -> near e c).
    { intros t e X. destruct (ensure_load_ok _ _ _ X) as [E1 E2]. unfold near. rewrite E2, E1. apply alike_refl. }
    destruct q as [g b|s line column b|s line column| |s p|[|]]; try discriminate Hq; cbn [ask] in H.
    - unfold bc_original_position_for in H. destruct (_ <? 1); [discriminate|]. destruct (_ <? 0); [discriminate|].
      destruct (bc_ensure_mappings L c) as [[t e]|p]; [|discriminate]. specialize (E t e eq_refl). cbn [bind] in H.
      destruct (i32_sub md _ 1); [|discriminate]. cbn [bind] in H.
      destruct (lm_original_for L t _ _ _) as [m|]; [|inv H; exact E].
      destruct (_ =? _); [|inv H; exact E]. destruct (option_map_res _ _); [|discriminate]. inv H. exact E.
    - unfold bc_source_content_for in H. destruct (smj_sources_content _) as [texts|]; [|inv H; apply near_refl].
      destruct (bc_find_source_index md L U c s) as [[r e]|x] eqn:Ef; [|discriminate]. cbn [bind] in H.
      assert (N : near e c).
      { destruct (find_follows md L U _ _ _ _ _ Hf Hc Ef) as [F1 [M1 S1]]. apply alike_near. constructor; [| |exact M1|exact S1].
        - rewrite (fo_map _ _ _ _ _ F1), (fo_map _ _ _ _ _ Hc). reflexivity.
        - rewrite (fo_sources _ _ _ _ _ F1), (fo_sources _ _ _ _ _ Hc). reflexivity. }
      destruct r as [i|].
      + destruct (vec_index texts _); [|discriminate]. inv H. exact N.
      + destruct (match p with Some _ => _ | None => _ end); [discriminate|]. inv H. exact N.
    - unfold bc_each_mapping, bc_parse_mappings in H. unfold near, load, loaded.
      destruct (bc_mappings c) as [t|] eqn:Em; cbn [bind] in H.
      + inv H. cbn. apply alike_refl.
      + destruct (smj_mappings (bc_source_map c)) as [s|] eqn:Es; [|discriminate]. cbn in H.
        destruct (lm_parse L s) as [t|] eqn:Et; cbn in H; inv H; cbn; [apply alike_refl|].
        rewrite Em, Es, Et. apply alike_refl.
  Qed.

  Lemma ask_FO : forall c q d, FO c -> ask md L U c q = Ok d -> FO d.
  Proof. intros c q d Hc H. exact (proj1 (ask_follows md L U c0 c q d Hf Hc H)). Qed.

  Lemma loud_near : forall qs c c' d, FO c -> FO c' -> near c c' -> asked md L U c qs = Ok d ->
    exists d', asked md L U c' (loud qs) = Ok d' /\ near d d' /\ FO d /\ FO d'.
  Proof.
    induction qs as [|q qs IH]; intros c c' d Hc Hc' H Ha; cbn [asked] in Ha.
    - inv Ha. exists c'. auto.
    - destruct (ask md L U c q) as [c1|p] eqn:E; [|discriminate]. cbn [bind] in Ha.
      unfold loud. cbn [filter]. destruct (quiet q) eqn:Eq; cbn [negb].
      + apply (IH c1 c' d); [exact (ask_FO c q c1 Hc E)|exact Hc'| |exact Ha].
        eapply near_trans; [exact (quiet_near c q c1 Hc Eq E)|exact H].
      + destruct (ask_near c c' q Hc Hc' H) as [[p [X _]]|[x [y [X [Y N]]]]]; [congruence|].
        rewrite E in X. inv X. cbn [asked]. rewrite Y. cbn [bind].
        apply (IH x y d); [eapply ask_FO; [exact Hc|exact E]|eapply ask_FO; [exact Hc'|exact Y]|exact N|exact Ha].
  Qed.

  (** forward calls and compute_column_spans *)
  Definition spans_once (b : bool) : list query := if b then [QSpans] else [].

  Lemma spans_twice : forall c d, bc_compute_column_spans L c = Ok d -> bc_compute_column_spans L d = Ok d.
  Proof.
    intros c d H. unfold bc_compute_column_spans in H |- *.
    destruct (bc_computed_column_spans c) eqn:E; [inv H; rewrite E; reflexivity|].
    destruct (bc_ensure_mappings L c) as [[t e]|p]; [|discriminate]. cbn in H. inv H. reflexivity.
  Qed.

  Lemma only_spans : forall qs c d, Forall (fun q => q = QSpans) qs -> asked md L U c qs = Ok d ->
    asked md L U c (spans_once (match qs with [] => false | _ => true end)) = Ok d.
  Proof.
    intros qs c d Hq Ha. destruct qs as [|q qs]; [exact Ha|]. cbn [spans_once asked].
    inversion Hq as [|? ? E Hq']; subst. cbn [asked ask] in Ha |- *.
    destruct (bc_compute_column_spans L c) as [e|p] eqn:Es; [|discriminate]. cbn [bind] in *.
    pose proof (spans_twice _ _ Es) as T. clear - Hq' Ha T. induction Hq' as [|q qs E Hq IH]; [exact Ha|].
    subst q. cbn [asked ask] in Ha. rewrite T in Ha. apply IH. exact Ha.
  Qed.

  Lemma forward_near : forall qs d, Forall passed_on qs -> asked md L U c0 qs = Ok d ->
    exists d', (forall b, (b = true <-> In QSpans qs) -> asked md L U c0 (spans_once b) = Ok d') /\ near d d' /\ FO d /\ FO d'.
  Proof.
    intros qs d Hp Ha. pose proof (follows_refl md L U c0 Hf) as H0.
    destruct (loud_near qs c0 c0 d H0 H0 (near_refl c0) Ha) as [d' [E [N [F F']]]].
    exists d'. split; [|auto]. intros b Hb.
    assert (X : Forall (fun q => q = QSpans) (loud qs) /\ (match loud qs with [] => false | _ => true end = true <-> In QSpans qs)).
    { clear - Hp. induction Hp as [|q qs Hq Hp [I1 I2]]; [split; [constructor|cbn; intuition discriminate]|].
      destruct q as [g b|s line column b|s line column| |s p|o]; cbn in Hq; try contradiction; unfold loud in *; cbn [filter quiet negb].
      - split; [exact I1|]. rewrite I2. cbn. split; [intros X; right; exact X | intros [X|X]; [discriminate X | exact X]].
      - split; [constructor; [reflexivity|exact I1]|]. cbn. tauto.
      - split; [exact I1|]. rewrite I2. cbn. intuition discriminate. }
    destruct X as [X1 X2]. pose proof (only_spans _ _ _ X1 E) as Y.
    replace b with (match loud qs with [] => false | _ => true end); [exact Y|].
    apply Bool.eq_iff_eq_true. rewrite X2, Hb. reflexivity.
  Qed.
End Quiet.

Lemma quiet_calls : forall md L U c0 qs c, opened md L U c0 -> asked md L U c0 qs = Ok c ->
  exists c', asked md L U c0 (loud qs) = Ok c' /\ same_answers md L U c0 c c'.
Proof.
  intros md L U c0 qs c Ho Ha. pose proof (opened_fresh md L U c0 Ho) as Hf.
  pose proof (follows_refl md L U c0 Hf) as H0.
  destruct (loud_near md L U c0 Hf qs c0 c0 c H0 H0 (near_refl L c0) Ha) as [c' [E [N [F F']]]].
  exists c'. split; [exact E|]. apply near_answers; assumption.
Qed.

Lemma same_loud : forall md L U c0 qs qs' c c', opened md L U c0 -> asked md L U c0 qs = Ok c -> asked md L U c0 qs' = Ok c' ->
  loud qs = loud qs' -> same_answers md L U c0 c c'.
Proof.
  intros md L U c0 qs qs' c c' Ho Ha Ha' E. pose proof (opened_fresh md L U c0 Ho) as Hf.
  pose proof (follows_refl md L U c0 Hf) as H0.
  destruct (loud_near md L U c0 Hf qs c0 c0 c H0 H0 (near_refl L c0) Ha) as [d [D [N [F _]]]].
  destruct (loud_near md L U c0 Hf qs' c0 c0 c' H0 H0 (near_refl L c0) Ha') as [d' [D' [N' [F' _]]]].
  assert (d = d') by congruence. subst d'.
  apply near_answers; [exact Hf|exact F|exact F'|]. eapply near_trans; [exact N|apply near_sym; exact N'].
Qed.

(** *** In sections *)
Section Sections.
  Context (md : mode) (L : MapLib) (U : UrlLib).
  Notation Sec := (Section L).

  Record near_sec (s s' : Sec) : Prop := {
    ns_offset : sec_generated_offset s = sec_generated_offset s';
    ns_near : near L (sec_consumer s) (sec_consumer s');
    ns_start : exists c0, fresh L c0 /\ follows md L U c0 (sec_consumer s) /\ follows md L U c0 (sec_consumer s') }.

  Lemma spans_called : forall qs, calls_spans qs = true <-> In ISpans qs.
  Proof.
    intros qs. unfold calls_spans. rewrite existsb_exists. split.
    - intros [q [Hi Hq]]. destruct q; try discriminate Hq. exact Hi.
    - intros Hi. exists ISpans. split; [exact Hi | reflexivity].
  Qed.

  Lemma history_near : forall c0 qs c, iopened md L U c0 -> iasked md L U c0 qs = Ok c ->
    rc_flag (ic_sections c) = 0
    /\ Forall2 (fun s0 s => sec_generated_offset s = sec_generated_offset s0 /\ opened md L U (sec_consumer s0)
         /\ exists d, asked md L U (sec_consumer s0) (spans_once (calls_spans qs)) = Ok d
             /\ near L (sec_consumer s) d /\ follows md L U (sec_consumer s0) (sec_consumer s)
             /\ follows md L U (sec_consumer s0) d)
         (sections_of L c0) (sections_of L c).
  Proof.
    intros c0 qs c Ho Ha. destruct (ihistory md L U _ _ _ Ho Ha) as [_ Hf Hs]. split; [exact Hf|].
    eapply F_Json.Forall2_impl; [|exact Hs]. intros s0 s [H1 [H2 [asks [H3 [H4 H5]]]]].
    split; [exact H1|]. split; [exact H2|].
    destruct (forward_near md L U _ (opened_fresh md L U _ H2) asks _ H5 H3) as [d [E [N [F F']]]].
    exists d. split; [|auto]. apply E. rewrite spans_called. exact H4.
  Qed.

  Lemma histories_near : forall c0 qs qs' c c', iopened md L U c0 -> iasked md L U c0 qs = Ok c -> iasked md L U c0 qs' = Ok c' ->
    calls_spans qs = calls_spans qs' -> Forall2 near_sec (sections_of L c) (sections_of L c').
  Proof.
    intros c0 qs qs' c c' Ho Ha Ha' E.
    destruct (history_near _ _ _ Ho Ha) as [_ H]. destruct (history_near _ _ _ Ho Ha') as [_ H']. rewrite E in H. clear - H H'.
    revert H'. generalize (sections_of L c'). induction H as [|s0 s l0 l Hs H IH]; intros l' H'; inv H'; constructor; [|apply IH; assumption].
    destruct Hs as [A [B [d [D [N [F _]]]]]].
    match goal with X : _ /\ _ |- _ => destruct X as [A' [_ [d' [D' [N' [F' _]]]]]] end.
    assert (d = d') by congruence. subst d'. constructor; [congruence| |].
    - eapply near_trans; [exact N|]. apply near_sym. exact N'.
    - eexists. split; [apply (opened_fresh md L U _ B)|]. auto.
  Qed.

  Lemma near_offsets : forall l l', Forall2 near_sec l l' -> map sec_generated_offset l = map sec_generated_offset l'.
  Proof. intros l l' H. induction H as [|a b l l' [E _ _] H IH]; [reflexivity|]. cbn. rewrite E, IH. reflexivity. Qed.

  Definition cmp_np (a b : Position) : res Z :=
    let* d := i32_sub md (p_line a) (p_line b) in
    if negb (d =? 0) then i32_sub md (p_line a) (p_line b) else i32_sub md (p_column a) (p_column b).

  Lemma search_offsets : forall g (l : list Sec), search md g l (cmp_needle_section md L) (cmp_section_section md L) None
    = search md g (map sec_generated_offset l) cmp_np cmp_np None.
  Proof. intros g l. symmetry. apply search_map; reflexivity. Qed.

  Lemma near_get : forall l l' i, Forall2 near_sec l l' ->
    match vec_get l i, vec_get l' i with Some s, Some s' => near_sec s s' | None, None => True | _, _ => False end.
  Proof.
    intros l l' i H. unfold vec_get, len. rewrite (Forall2_len _ _ _ _ _ H).
    destruct (_ && _); [|exact I].
    destruct (nth_error l (Z.to_nat i)) as [s|] eqn:E.
    - destruct (Forall2_nth_l _ _ _ _ _ _ _ H E) as [s' [-> N]]. exact N.
    - destruct (nth_error l' (Z.to_nat i)) as [s'|] eqn:E'; [|exact I].
      destruct (Forall2_nth_r _ _ _ _ _ _ _ H E') as [s [X _]]. congruence.
  Qed.

  Lemma original_near : forall j j' v v' g b, Forall2 near_sec v v' ->
    answer (ic_original_position_for md L (mkIC j (mkCell 0 v)) g b)
    = answer (ic_original_position_for md L (mkIC j' (mkCell 0 v')) g b).
  Proof.
    intros j j' v v' g b H. unfold ic_original_position_for, rc_borrow. cbn [ic_sections rc_flag rc_val].
    change (0 <? 0) with false. cbn [bind rc_val]. rewrite !search_offsets, (near_offsets _ _ H).
    destruct (search _ _ _ _ _ _) as [k|p]; [|reflexivity]. cbn [bind].
    unfold rc_release, rc_borrow_mut. cbn [rc_flag rc_val]. change (0 + 1 - 1 =? 0) with true. cbn [bind rc_val].
    pose proof (near_get _ _ (to_usize k) H) as X.
    destruct (vec_get v (to_usize k)) as [s|]; destruct (vec_get v' (to_usize k)) as [s'|]; try contradiction; [|reflexivity].
    destruct X as [E N _]. rewrite E.
    destruct (i32_sub md _ 1) as [a|]; [|reflexivity]. cbn [bind].
    destruct (i32_sub md (p_line g) a) as [a1|]; [|reflexivity]. cbn [bind].
    match goal with |- answer (bind ?x _) = _ => destruct x as [a2|]; [|reflexivity] end. cbn [bind].
    destruct (i32_sub md (p_column g) a2) as [a3|]; [|reflexivity]. cbn [bind].
    destruct (near_original md L _ _ (mkPos a1 a3) b N) as [p|a4 d d' _]; reflexivity.
  Qed.

  Lemma content_near : forall v v' s p, Forall2 near_sec v v' ->
    answer (source_content_loop md L U v s p) = answer (source_content_loop md L U v' s p).
  Proof.
    intros v v' s p H. induction H as [|x x' v v' [E N [c0 [Hf [F F']]]] H IH]; [reflexivity|]. cbn [source_content_loop].
    destruct (near_content md L U c0 Hf _ _ s s p F F' N eq_refl) as [e|[a|] d d' _]; cbn [bind]; [reflexivity|reflexivity|].
    destruct (source_content_loop md L U v s p) as [[r w]|e]; destruct (source_content_loop md L U v' s p) as [[r' w']|e'];
      cbn in IH |- *; congruence.
  Qed.

  Lemma near_mapM : forall v v', Forall2 near_sec v v' ->
    let f := fun ele : Sec => let* bc := bc_compute_column_spans L (sec_consumer ele) in Ok (mkSection (sec_generated_offset ele) bc) in
    (exists w, mapM f v = Ok w) -> exists w, mapM f v' = Ok w.
  Proof.
    intros v v' H f. induction H as [|x x' v v' [E N _] H IH]; intros [w X]; [exists []; reflexivity|]. cbn in X |- *.
    unfold f in X at 1. unfold f at 1.
    destruct (near_spans L _ _ N) as [[p [P _]]|[d [d' [P [P' _]]]]]; rewrite P in X; [discriminate|]. rewrite P'. cbn [bind] in *.
    destruct (mapM f v) as [w1|]; [|discriminate]. destruct IH as [w2 ->]; [eauto|]. cbn. eauto.
  Qed.

  Lemma near_sec_sym : forall v v', Forall2 near_sec v v' -> Forall2 near_sec v' v.
  Proof.
    intros v v' H. induction H as [|x x' v v' [E N [c0 [Hf [F F']]]] H IH]; constructor; [|exact IH].
    constructor; [congruence|apply near_sym; exact N|exists c0; auto].
  Qed.

  Lemma cell_parts : forall c : IndexedConsumer L, rc_flag (ic_sections c) = 0 -> c = mkIC (ic_source_map c) (mkCell 0 (sections_of L c)).
  Proof. intros [j [n v]] H. cbn in H. subst n. reflexivity. Qed.

  Lemma spans_ok : forall c : IndexedConsumer L, rc_flag (ic_sections c) = 0 ->
    let f := fun ele : Sec => let* bc := bc_compute_column_spans L (sec_consumer ele) in Ok (mkSection (sec_generated_offset ele) bc) in
    (exists d, ic_computed_column_spans L c = Ok d) <-> (exists w, mapM f (sections_of L c) = Ok w).
  Proof.
    intros c Hf f. unfold ic_computed_column_spans, rc_borrow_mut. rewrite Hf. cbn [Z.eqb bind rc_val]. unfold sections_of.
    fold f. destruct (mapM f (rc_val (ic_sections c))) as [w|p]; cbn; split; intros [d H]; try discriminate; eauto.
  Qed.

  Lemma indexed_quiet : forall c0 qs qs' c c', iopened md L U c0 -> iasked md L U c0 qs = Ok c -> iasked md L U c0 qs' = Ok c' ->
    calls_spans qs = calls_spans qs' -> same_ianswers md L U c c'.
  Proof.
    intros c0 qs qs' c c' Ho Ha Ha' E.
    pose proof (histories_near _ _ _ _ _ Ho Ha Ha' E) as H.
    pose proof (ihistory md L U _ _ _ Ho Ha) as I1. pose proof (ihistory md L U _ _ _ Ho Ha') as I2.
    pose proof (if_flag _ _ _ _ _ _ I1) as F1. pose proof (if_flag _ _ _ _ _ _ I2) as F2.
    constructor.
    - rewrite (get_sources_spec md L U _ _ _ I1), (get_sources_spec md L U _ _ _ I2). reflexivity.
    - intros g b. rewrite (cell_parts c F1), (cell_parts c' F2). apply original_near. exact H.
    - unfold ic_has_contents_of_all_sources, rc_borrow. rewrite F1, F2. change (0 <? 0) with false. cbn [bind rc_val].
      assert (X : allM (fun it => bc_has_contents_of_all_sources L (sec_consumer it)) (sections_of L c)
                = allM (fun it => bc_has_contents_of_all_sources L (sec_consumer it)) (sections_of L c')).
      { clear - H. induction H as [|x x' v v' [_ N _] H IH]; [reflexivity|]. cbn [allM]. rewrite IH.
        replace (bc_has_contents_of_all_sources L (sec_consumer x)) with (bc_has_contents_of_all_sources L (sec_consumer x')); [reflexivity|].
        pose proof (al_map _ _ _ N) as M. cbn in M. unfold bc_has_contents_of_all_sources. rewrite M. reflexivity. }
      unfold sections_of in X. rewrite X. destruct (allM _ (rc_val (ic_sections c'))); reflexivity.
    - intros s p. pose proof (content_near _ _ s p H) as X. unfold sections_of in X.
      unfold ic_source_content_for, rc_borrow_mut. rewrite F1, F2. cbn [Z.eqb bind rc_val].
      destruct (source_content_loop md L U (rc_val (ic_sections c)) s p) as [[r w]|e];
      destruct (source_content_loop md L U (rc_val (ic_sections c')) s p) as [[r' w']|e']; cbn in X; inv X; cbn [bind]; [|reflexivity].
      destruct r'; [reflexivity|]. destruct (match p with Some _ => _ | None => _ end); reflexivity.
    - intros s line column b. unfold ic_generated_position_for.
      destruct (sections_of L c) as [|x v] eqn:Es; destruct (sections_of L c') as [|x' v'] eqn:Es'; inv H.
      + rewrite (find_empty md L U c s F1 Es), (find_empty md L U c' s F2 Es'). reflexivity.
      + rewrite (find_panics md L U c s F1), (find_panics md L U c' s F2) by congruence. reflexivity.
    - intros s line column. unfold ic_all_generated_position_for.
      destruct (sections_of L c) as [|x v] eqn:Es; destruct (sections_of L c') as [|x' v'] eqn:Es'; inv H.
      + rewrite (find_empty md L U c s F1 Es), (find_empty md L U c' s F2 Es'). reflexivity.
      + rewrite (find_panics md L U c s F1), (find_panics md L U c' s F2) by congruence. reflexivity.
    - rewrite (spans_ok c F1), (spans_ok c' F2). split; apply near_mapM; [exact H | apply near_sec_sym; exact H].
    - intros o. destruct (iopened_start md L U c0 Ho) as [_ Hgood]. pose proof (if_secs _ _ _ _ _ _ I1) as S1.
      destruct (sections_of L c) as [|x v] eqn:Es; destruct (sections_of L c') as [|x' v'] eqn:Es'; inv H.
      + rewrite (each_empty md L c o F1 Es), (each_empty md L c' o F2 Es'). reflexivity.
      + match goal with N : near_sec _ _ |- _ => destruct N as [NO _ _] end.
        destruct (sections_of L c0) as [|y w]; inv S1. inv Hgood.
        match goal with G : good_start _ _ _ y |- _ => destruct G as [_ [G1 G2]] end.
        match goal with G : sec_follows _ _ _ _ y x |- _ => destruct G as [G0 _] end. rewrite <- G0 in G1, G2.
        rewrite (each_panics md L c o x v F1 Es G1 G2). rewrite NO in G1, G2.
        rewrite (each_panics md L c' o x' v' F2 Es' G1 G2). reflexivity.
  Qed.
End Sections.

(** a position is answered by its section's map alone *)
Lemma own_section : forall md L U j url l c0 qs c g b,
  smj_sections j = Some l -> Forall small_offset l -> len l < 2147483647 ->
  ic_from_source_map_json md L U (seq 0 (length l)) j url = Ok c0 -> iasked md L U c0 qs = Ok c ->
  in_reach (map start_of (map js_offset l)) g ->
  ((forall s, In s l -> ~ starts_before (js_offset s) g)
     /\ answer (ic_original_position_for md L c g b) = Ok None)
  \/ (exists k s c1 c2, nth_error l k = Some s /\ starts_before (js_offset s) g
        /\ (forall s', In s' l -> starts_before (js_offset s') g -> pos_le (js_offset s') (js_offset s))
        /\ (forall k' s', nth_error l k' = Some s' -> js_offset s' = js_offset s -> (k <= k')%nat)
        /\ bc_from_source_map_json md L U (js_map s) url = Ok c1
        /\ asked md L U c1 (if calls_spans qs then [QSpans] else []) = Ok c2
        /\ answer (ic_original_position_for md L c g b)
           = answer (bc_original_position_for md L c2 (relative_position (js_offset s) g) b)).
Proof.
  intros md L U j url l c0 qs c g b El Hsm Hlen H0 H Hg.
  destruct (original_by_map md L U j url l c0 qs c g b El Hsm Hlen H0 H Hg)
    as [X|[k [s [c1 [asks [c2 [A1 [A2 [A3 [A4 [A5 [A6 [[A7 A8] A9]]]]]]]]]]]]]; [left; exact X|right].
  assert (Hf : fresh L c1) by (apply (opened_fresh md L U); right; exists (js_map s), url; exact A5).
  destruct (forward_near md L U c1 Hf asks c2 A8 A6) as [d [E [N _]]].
  exists k, s, c1, d. repeat (split; [assumption|]). split.
  - apply (E (calls_spans qs)). rewrite spans_called. exact A7.
  - rewrite A9. exact (agree_answer L _ _ _ (near_original md L _ _ _ b N)).
Qed.

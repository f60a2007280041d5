(** * Lemmas about the section a position is looked up in (C115) *)
From Verif Require Import F_Base M_ArraySet M_BinarySearch M_Mapping M_SourceMap M_Json M_MapLib M_Util M_Generator M_Consumer M_Indexed
  S_Mapping S_Consumer S_Indexed S_Quiet S_Fields S_Covers F_MappingList F_Quiet F_Fields.

Lemma covers_unique : forall l g k s k' s', covers l g k s -> covers l g k' s' -> k = k' /\ s = s'.
Proof.
  intros l g k s k' s' [A [B [C D]]] [A' [B' [C' D']]].
  assert (E : js_offset s = js_offset s').
  { apply pos_le_antisym; [apply C'|apply C]; eauto using nth_error_In. }
  assert (k = k'). { apply Nat.le_antisymm; [apply (D k' s'); [exact A'|congruence] | apply (D' k s); [exact A|congruence]]. }
  subst k'. split; congruence.
Qed.

Lemma covers_app : forall l l' g k s, (forall t, In t l' -> ~ starts_before (js_offset t) g) -> covers l g k s -> covers (l ++ l') g k s.
Proof.
  intros l l' g k s H [A [B [C D]]]. assert (K : (k < List.length l)%nat) by (apply nth_error_Some; congruence).
  split; [rewrite nth_error_app1; assumption|]. split; [exact B|]. split.
  - intros s' I' S'. apply in_app_or in I'. destruct I' as [I'|I']; [auto|]. exfalso. exact (H _ I' S').
  - intros k' s' E' F'. destruct (Nat.lt_ge_cases k' (List.length l)) as [G|G].
    + rewrite nth_error_app1 in E' by exact G. eauto.
    + eapply Nat.le_trans; [apply Nat.lt_le_incl; exact K|exact G].
Qed.

Lemma covers_front : forall p l g k s, (forall t, In t p -> pos_lt (js_offset t) (js_offset s)) -> covers l g k s ->
  covers (p ++ l) g (List.length p + k) s.
Proof.
  intros p l g k s H [A [B [C D]]].
  split; [rewrite nth_error_app2 by apply Nat.le_add_r; rewrite Nat.add_comm, Nat.add_sub; exact A|]. split; [exact B|]. split.
  - intros s' I' S'. apply in_app_or in I'. destruct I' as [I'|I']; [|auto]. specialize (H _ I'). unfold pos_lt, pos_le in *. lia.
  - intros k' s' E' F'. destruct (Nat.lt_ge_cases k' (List.length p)) as [G|G].
    + rewrite nth_error_app1 in E' by exact G. apply nth_error_In in E'. specialize (H _ E'). rewrite F' in H. unfold pos_lt in H. lia.
    + rewrite nth_error_app2 in E' by exact G. specialize (D _ _ E' F'). lia.
Qed.

Section Covers.
  Context (md : mode) (L : MapLib) (U : UrlLib).

  Lemma covered : forall url l g qs c k s b, on_sections md L U url l g qs c -> covers l g k s ->
    exists c1 c2, bc_from_source_map_json md L U (js_map s) url = Ok c1
      /\ asked md L U c1 (if calls_spans qs then [QSpans] else []) = Ok c2
      /\ answer (ic_original_position_for md L c g b) = answer (bc_original_position_for md L c2 (relative_position (js_offset s) g) b).
  Proof.
    intros url l g qs c k s b [j [c0 [H1 [H2 [H3 [H4 [H5 H6]]]]]]] Hc.
    destruct (own_section md L U j url l c0 qs c g b H1 H2 H3 H4 H5 H6) as [[N _]|[k' [s' [c1 [c2 [A [B [C [D [E [F G]]]]]]]]]]].
    - exfalso. destruct Hc as [A [B _]]. exact (N s (nth_error_In _ _ A) B).
    - destruct (covers_unique l g k s k' s' Hc (conj A (conj B (conj C D)))) as [_ <-]. eauto.
  Qed.
  Lemma covered_or_none : forall url l g qs c b, on_sections md L U url l g qs c ->
    (exists k s, covers l g k s) \/ ((forall s, In s l -> ~ starts_before (js_offset s) g) /\ answer (ic_original_position_for md L c g b) = Ok None).
  Proof.
    intros url l g qs c b [j [c0 [H1 [H2 [H3 [H4 [H5 H6]]]]]]].
    destruct (own_section md L U j url l c0 qs c g b H1 H2 H3 H4 H5 H6) as [[N E]|[k' [s' [c1 [c2 [A [B [C [D [E [F G]]]]]]]]]]]; [right; auto|].
    left. exists k', s'. exact (conj A (conj B (conj C D))).
  Qed.

  Lemma same_cover : forall url l l' g g' qs qs' c c' k k' s s' b, on_sections md L U url l g qs c -> on_sections md L U url l' g' qs' c' ->
    covers l g k s -> covers l' g' k' s' -> same_places (js_map s) (js_map s') ->
    relative_position (js_offset s) g = relative_position (js_offset s') g' -> calls_spans qs = calls_spans qs' ->
    answer (ic_original_position_for md L c g b) = answer (ic_original_position_for md L c' g' b).
  Proof.
    intros url l l' g g' qs qs' c c' k k' s s' b H H' Hc Hc' Hm Hr Hs.
    destruct (covered _ _ _ _ _ _ _ b H Hc) as [c1 [c2 [A [B E]]]]. destruct (covered _ _ _ _ _ _ _ b H' Hc') as [c1' [c2' [A' [B' E']]]].
    rewrite E, E', Hr. rewrite Hs in B.
    pose proof (places_json md L U (js_map s) (js_map s') url (if calls_spans qs' then [QSpans] else []) Hm) as K.
    rewrite A, A' in K. cbn [bind] in K. rewrite B, B' in K. cbn [alike] in K.
    apply (sp_original md L U), K. destruct (calls_spans qs'); repeat constructor.
  Qed.

  Lemma appended : forall url l more g qs qs' c c' b, on_sections md L U url l g qs c -> on_sections md L U url (l ++ more) g qs' c' ->
    (forall t, In t more -> ~ starts_before (js_offset t) g) -> calls_spans qs = calls_spans qs' ->
    answer (ic_original_position_for md L c g b) = answer (ic_original_position_for md L c' g b).
  Proof.
    intros url l more g qs qs' c c' b H H' Hn Hs. destruct (covered_or_none _ _ _ _ _ b H) as [[k [s Hc]]|[N E]].
    - eapply same_cover; eauto; [apply covers_app; eauto|]. repeat split.
    - destruct (covered_or_none _ _ _ _ _ b H') as [[k [s [A [B _]]]]|[_ E']]; [|congruence].
      exfalso. apply nth_error_In in A. apply in_app_or in A. destruct A as [A|A]; [exact (N _ A B)|exact (Hn _ A B)].
  Qed.

  Lemma put_in_front : forall url front l g qs qs' c c' k s b, on_sections md L U url l g qs c -> on_sections md L U url (front ++ l) g qs' c' ->
    covers l g k s -> (forall t, In t front -> pos_lt (js_offset t) (js_offset s)) -> calls_spans qs = calls_spans qs' ->
    answer (ic_original_position_for md L c g b) = answer (ic_original_position_for md L c' g b).
  Proof.
    intros url front l g qs qs' c c' k s b H H' Hc Hf Hs. eapply same_cover; eauto; [apply covers_front; eauto|]. repeat split.
  Qed.
End Covers.

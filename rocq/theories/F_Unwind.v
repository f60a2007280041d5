(** * Consumers after caught panics *)
From Verif Require Import F_Base M_ArraySet M_BinarySearch M_Mapping M_Util M_SourceMap M_Generator M_Json M_MapLib
  M_Consumer M_Indexed M_Unwind S_List S_Mapping S_MapLib S_Consumer S_Indexed S_Alias S_Quiet S_Unwind
  F_ArraySet F_Consumer F_ConsumerProps F_Indexed F_IndexedProps F_Alias F_Sections F_Json F_Quiet.
From Coq Require Import Sorting.Sorted Sorting.Permutation.

Section Unwind.
  Context (md : mode) (L : MapLib) (U : UrlLib).
  Notation BC := (BasicConsumer L).

  Lemma ensure_kept_load : forall c, bc_ensure_kept L c = load L c.
  Proof.
    intros c. unfold bc_ensure_kept, load, loaded. destruct (bc_mappings c) as [t|] eqn:E.
    - rewrite <- E. symmetry. apply set_same.
    - destruct (smj_mappings (bc_source_map c)); [reflexivity|]. rewrite <- E. symmetry. apply set_same.
  Qed.

  Lemma ensure_kept : forall c t d, bc_ensure_mappings L c = Ok (t, d) -> bc_ensure_kept L c = d /\ bc_mappings d = Some t.
  Proof.
    intros c t d H. rewrite ensure_kept_load. destruct (ensure_load_ok L _ _ _ H) as [E _]. split; [congruence|].
    unfold bc_ensure_mappings in H. destruct (match bc_mappings c with Some _ => _ | None => _ end) as [e|]; [|discriminate].
    cbn [bind] in H. destruct (bc_mappings e) eqn:X; [|discriminate]. cbn in H. inv H. exact X.
  Qed.

  Lemma kept_some : forall c t, bc_mappings (bc_ensure_kept L c) = Some t -> bc_ensure_mappings L c = Ok (t, bc_ensure_kept L c).
  Proof.
    intros c t H. unfold bc_ensure_kept, bc_ensure_mappings, bc_parse_mappings in *. destruct (bc_mappings c) as [m|] eqn:Em.
    - cbn. rewrite Em in *. inv H. reflexivity.
    - destruct (smj_mappings (bc_source_map c)) as [s|]; [|congruence]. cbn in *. rewrite H. reflexivity.
  Qed.

  Lemma set_keeps : forall c a t, bc_set_mappings L (bc_set_mappings L c a) t = bc_set_mappings L c t.
  Proof. reflexivity. Qed.

  (** a call that passes *)
  Lemma keep_ok : forall c q d, ask md L U c q = Ok d -> keep md L U c q = d.
  Proof.
    intros c q d H. destruct q as [g b|s line column b|s line column| |s p|o]; cbn [ask keep] in *.
    - apply state_ok in H. destruct H as [a H]. unfold bc_original_position_for in H. unfold bc_original_kept.
      destruct (_ <? 1); [discriminate|]. destruct (_ <? 0); [discriminate|].
      destruct (bc_ensure_mappings L c) as [[t e]|x] eqn:E; [|discriminate]. cbn [bind] in H.
      destruct (ensure_kept _ _ _ E) as [-> _].
      destruct (i32_sub md _ 1); [|discriminate]. cbn [bind] in H.
      destruct (lm_original_for L t _ _ _) as [m|]; [|inv H; reflexivity].
      destruct (_ =? _); [|inv H; reflexivity]. destruct (option_map_res _ _); [|discriminate]. inv H. reflexivity.
    - apply state_ok in H. destruct H as [a H]. unfold bc_generated_position_for in H. unfold bc_generated_kept.
      destruct (bc_find_source_index md L U c s) as [[[i|] e]|x]; [|inv H; reflexivity|discriminate]. cbn [bind] in H.
      destruct (line <? 1); [discriminate|]. destruct (column <? 0); [discriminate|].
      destruct (bc_ensure_mappings L e) as [[t f]|x] eqn:E; [|discriminate]. cbn [bind] in H.
      destruct (ensure_kept _ _ _ E) as [-> ->].
      destruct (i32_sub md line 1) as [l1|]; [|discriminate]. cbn [bind] in H.
      destruct (lm_generated_for L t _ _ _ _) as [found t']. cbn [snd].
      destruct found as [m|]; [|inv H; reflexivity]. destruct (unwrap (rm_original m)) as [og|]; [|discriminate]. cbn [bind] in H.
      destruct (_ =? _); [|inv H; reflexivity]. destruct (bc_generated_answer md L _ m og); [|discriminate]. inv H. reflexivity.
    - apply state_ok in H. destruct H as [a H]. unfold bc_all_generated_position_for in H. unfold bc_all_kept.
      destruct (bc_find_source_index md L U c s) as [[[i|] e]|x]; [|inv H; reflexivity|discriminate]. cbn [bind] in H.
      destruct (i <? 0); [inv H; reflexivity|].
      destruct (line <? 1); [discriminate|]. destruct (_ <? 0); [discriminate|].
      destruct (bc_ensure_mappings L e) as [[t f]|x] eqn:E; [|discriminate]. cbn [bind] in H.
      destruct (ensure_kept _ _ _ E) as [-> ->]. destruct (lm_all_generated L t _ _ _) as [l t']. inv H. reflexivity.
    - unfold bc_compute_column_spans in H. unfold bc_spans_kept. destruct (bc_computed_column_spans c); [inv H; reflexivity|].
      destruct (bc_ensure_mappings L c) as [[t f]|x] eqn:E; [|discriminate]. cbn [bind] in H.
      destruct (ensure_kept _ _ _ E) as [-> ->]. inv H. reflexivity.
    - apply state_ok in H. destruct H as [a H]. unfold bc_source_content_for in H. unfold bc_content_kept, bc_find_kept.
      destruct (smj_sources_content _) as [texts|]; [|inv H; reflexivity].
      destruct (bc_find_source_index md L U c s) as [[[i|] e]|x]; [| |discriminate]; cbn [bind] in H.
      + destruct (vec_index texts _); [|discriminate]. inv H. reflexivity.
      + destruct (match p with Some _ => _ | None => _ end); [discriminate|]. inv H. reflexivity.
    - apply state_ok in H. destruct H as [a H]. unfold bc_each_mapping, bc_parse_mappings in H. unfold bc_each_kept, bc_ensure_kept.
      destruct (bc_mappings c) as [t|] eqn:Em; cbn [bind] in H.
      + rewrite Em. destruct o; [inv H; rewrite <- Em; symmetry; apply set_same|].
        destruct (lm_by_original L t) as [l t']. inv H. reflexivity.
      + destruct (smj_mappings (bc_source_map c)) as [s|] eqn:Es; [|discriminate]. cbn in H.
        destruct (lm_parse L s) as [t|] eqn:Et; cbn in H |- *.
        * destruct o; [inv H; reflexivity|]. destruct (lm_by_original L t) as [l t']. inv H. reflexivity.
        * inv H. rewrite <- Em. apply set_same.
  Qed.

  Lemma lived_ok : forall qs c d, asked md L U c qs = Ok d -> lived md L U c qs = d.
  Proof.
    induction qs as [|q qs IH]; intros c d H; cbn in H |- *; [inv H; reflexivity|].
    destruct (ask md L U c q) as [e|p] eqn:E; [|discriminate]. rewrite (keep_ok _ _ _ E). apply IH. exact H.
  Qed.

  Section From.
    Context (c0 : BC) (Hf : fresh L c0).
    Notation FO := (follows md L U c0).

    Lemma find_kept_FO : forall c s r d, FO c -> bc_find_source_index md L U c s = Ok (r, d) ->
      FO d /\ near L d c /\ bc_computed_column_spans d = bc_computed_column_spans c.
    Proof.
      intros c s r d Hc E. destruct (find_follows md L U _ _ _ _ _ Hf Hc E) as [F1 [M1 S1]].
      split; [exact F1|]. split; [|exact S1]. apply alike_near. constructor; [| |exact M1|exact S1].
      - rewrite (fo_map _ _ _ _ _ F1), (fo_map _ _ _ _ _ Hc). reflexivity.
      - rewrite (fo_sources _ _ _ _ _ F1), (fo_sources _ _ _ _ _ Hc). reflexivity.
    Qed.

    Lemma ensure_kept_FO : forall c, FO c -> FO (bc_ensure_kept L c) /\ near L (bc_ensure_kept L c) c
      /\ bc_computed_column_spans (bc_ensure_kept L c) = bc_computed_column_spans c.
    Proof.
      intros c Hc. split; [|split].
      - unfold bc_ensure_kept. destruct (bc_mappings c) as [t|] eqn:Em; [exact Hc|].
        destruct (smj_mappings (bc_source_map c)) as [s|] eqn:Es; [|exact Hc].
        destruct (lm_parse L s) as [t|] eqn:Et; [|rewrite <- Em, set_same; exact Hc].
        rewrite (fo_map _ _ _ _ _ Hc) in Es. eapply (set_follows md L U); [exact Hc|exact Es|].
        pose proof (fo_state _ _ _ _ _ Hc) as X. rewrite Em in X. rewrite X. apply ls_parse. exact Et.
      - rewrite ensure_kept_load. unfold near. replace (load L (load L c)) with (load L c); [apply alike_refl|].
        unfold load at 2. unfold loaded. unfold load, loaded. destruct (bc_mappings c) as [t|] eqn:Em; [reflexivity|].
        cbn. destruct (smj_mappings (bc_source_map c)) as [s|] eqn:Es; [|reflexivity]. destruct (lm_parse L s); reflexivity.
      - unfold bc_ensure_kept. destruct (bc_mappings c); [reflexivity|]. destruct (smj_mappings _); reflexivity.
    Qed.

    Lemma ensure_state : forall c t, FO c -> bc_mappings (bc_ensure_kept L c) = Some t ->
      exists s, smj_mappings (bc_source_map c0) = Some s /\ lib_state L s (bc_computed_column_spans c) t.
    Proof.
      intros c t Hc E. destruct (ensure_kept_FO c Hc) as [F [_ S]]. pose proof (fo_state _ _ _ _ _ F) as X.
      rewrite E, S in X. exact X.
    Qed.

    Lemma keep_FO : forall c q, FO c -> FO (keep md L U c q).
    Proof.
      intros c q Hc. destruct q as [g b|s line column b|s line column| |s p|o]; cbn [keep].
      - unfold bc_original_kept. destruct (_ <? 1); [exact Hc|]. destruct (_ <? 0); [exact Hc|].
        apply ensure_kept_FO. exact Hc.
      - unfold bc_generated_kept. destruct (bc_find_source_index md L U c s) as [[r d]|x] eqn:E; [|exact Hc].
        destruct (find_kept_FO _ _ _ _ Hc E) as [F _]. destruct r as [i|]; [|exact F].
        destruct (_ <? 1); [exact F|]. destruct (_ <? 0); [exact F|].
        destruct (ensure_kept_FO d F) as [G [_ S]].
        destruct (bc_mappings (bc_ensure_kept L d)) as [t|] eqn:Et; [|exact G].
        destruct (i32_sub md line 1); [|exact G].
        destruct (ensure_state d t F Et) as [s0 [Es Hs]].
        eapply (set_follows md L U); [exact G|exact Es|]. rewrite S. apply ls_generated_for. exact Hs.
      - unfold bc_all_kept. destruct (bc_find_source_index md L U c s) as [[r d]|x] eqn:E; [|exact Hc].
        destruct (find_kept_FO _ _ _ _ Hc E) as [F _]. destruct r as [i|]; [|exact F].
        destruct (i <? 0); [exact F|]. destruct (_ <? 1); [exact F|]. destruct (_ <? 0); [exact F|].
        destruct (ensure_kept_FO d F) as [G [_ S]].
        destruct (bc_mappings (bc_ensure_kept L d)) as [t|] eqn:Et; [|exact G].
        destruct (ensure_state d t F Et) as [s0 [Es Hs]].
        eapply (set_follows md L U); [exact G|exact Es|]. rewrite S. apply ls_all_generated. exact Hs.
      - unfold bc_spans_kept. destruct (bc_computed_column_spans c) eqn:Ec; [exact Hc|].
        destruct (ensure_kept_FO c Hc) as [G [_ S]].
        destruct (bc_mappings (bc_ensure_kept L c)) as [t|] eqn:Et; [|exact G].
        destruct (ensure_state c t Hc Et) as [s0 [Es Hs]].
        destruct G as [G1 G2 G3 G4 G5]. constructor; cbn; try assumption. exists s0. split; [exact Es|].
        eapply ls_spans. exact Hs.
      - unfold bc_content_kept, bc_find_kept. destruct (smj_sources_content _); [|exact Hc].
        destruct (bc_find_source_index md L U c s) as [[r d]|x] eqn:E; [|exact Hc]. apply (find_kept_FO _ _ _ _ Hc E).
      - unfold bc_each_kept. destruct (ensure_kept_FO c Hc) as [G [_ S]].
        destruct (bc_mappings (bc_ensure_kept L c)) as [t|] eqn:Et; [|exact G]. destruct o; [exact G|].
        destruct (ensure_state c t Hc Et) as [s0 [Es Hs]].
        eapply (set_follows md L U); [exact G|exact Es|]. rewrite S. apply ls_by_original. exact Hs.
    Qed.

    Lemma lived_FO : forall qs c, FO c -> FO (lived md L U c qs).
    Proof. induction qs as [|q qs IH]; intros c Hc; [exact Hc|]. cbn. apply IH, keep_FO, Hc. Qed.

    (** a call that panics, other than generated_position_for *)
    Lemma panic_near : forall c q p, FO c -> ask md L U c q = Panic p ->
      match q with QGenerated _ _ _ _ => True | _ => near L (keep md L U c q) c end.
    Proof.
      intros c q p Hc H. destruct q as [g b|s line column b|s line column| |s pm|o]; cbn [ask keep] in *; [|exact I| | | |].
      - unfold bc_original_kept. destruct (_ <? 1); [apply near_refl|]. destruct (_ <? 0); [apply near_refl|].
        apply ensure_kept_FO. exact Hc.
      - unfold bc_all_kept. unfold bc_all_generated_position_for in H.
        destruct (bc_find_source_index md L U c s) as [[r d]|x] eqn:E; [|apply near_refl].
        destruct (find_kept_FO _ _ _ _ Hc E) as [F [N _]]. cbn [bind] in H. destruct r as [i|]; [|exact N].
        destruct (i <? 0); [exact N|]. destruct (_ <? 1); [exact N|]. destruct (_ <? 0); [exact N|].
        destruct (bc_ensure_mappings L d) as [[t e]|x] eqn:Ee.
        { cbn [bind] in H. destruct (lm_all_generated L t _ _ _). discriminate H. }
        destruct (ensure_kept_FO d F) as [_ [G _]].
        destruct (bc_mappings (bc_ensure_kept L d)) as [t|] eqn:Et; [|eapply near_trans; [exact G|exact N]].
        rewrite (kept_some _ _ Et) in Ee. discriminate Ee.
      - unfold bc_spans_kept. unfold bc_compute_column_spans in H. destruct (bc_computed_column_spans c); [apply near_refl|].
        destruct (bc_ensure_mappings L c) as [[t e]|x] eqn:Ee; [discriminate H|].
        destruct (ensure_kept_FO c Hc) as [_ [G _]].
        destruct (bc_mappings (bc_ensure_kept L c)) as [t|] eqn:Et; [|exact G].
        rewrite (kept_some _ _ Et) in Ee. discriminate Ee.
      - unfold bc_content_kept, bc_find_kept. destruct (smj_sources_content _); [|apply near_refl].
        destruct (bc_find_source_index md L U c s) as [[r d]|x] eqn:E; [|apply near_refl]. apply (find_kept_FO _ _ _ _ Hc E).
      - unfold bc_each_kept. unfold bc_each_mapping, bc_parse_mappings in H. unfold bc_ensure_kept.
        destruct (bc_mappings c) as [t|] eqn:Em; cbn [bind] in H.
        { destruct o; [|destruct (lm_by_original L t)]; discriminate H. }
        destruct (smj_mappings (bc_source_map c)) as [s|] eqn:Es; [|rewrite Em; apply near_refl].
        cbn in H. destruct (lm_parse L s) as [t|]; [|discriminate H]. destruct o; [|destruct (lm_by_original L t)]; discriminate H.
    Qed.

    Lemma passing_near : forall qs c c', FO c -> FO c' -> near L c c' -> reverse_passes md L U c qs ->
      exists d', asked md L U c' (passing md L U c qs) = Ok d' /\ near L (lived md L U c qs) d' /\ FO d'.
    Proof.
      induction qs as [|q qs IH]; intros c c' Hc Hc' N R; cbn [passing lived fold_left asked].
      - exists c'. auto.
      - cbn [reverse_passes] in R. destruct R as [R1 R2].
        destruct (ask md L U c q) as [d|p] eqn:E.
        + destruct (ask_near md L U c0 Hf c c' q Hc Hc' N) as [[p [X _]]|[x [y [X [Y M]]]]]; [congruence|].
          rewrite E in X. inv X. cbn [asked]. rewrite Y. cbn [bind].
          rewrite (keep_ok _ _ _ E) in R2 |- *.
          apply IH; [exact (ask_FO md L U c0 Hf _ _ _ Hc E)|exact (ask_FO md L U c0 Hf _ _ _ Hc' Y)|exact M|exact R2].
        + apply IH; [apply keep_FO; exact Hc|exact Hc'| |exact R2].
          pose proof (panic_near c q p Hc E) as X. destruct q; try (eapply near_trans; [exact X|exact N]).
          destruct R1 as [d R1]. discriminate R1.
    Qed.

    Lemma keep_flag : forall c q, FO c -> readable L (bc_source_map c0) ->
      bc_computed_column_spans (keep md L U c q) = match q with QSpans => true | _ => bc_computed_column_spans c end.
    Proof.
      intros c q Hc Hr. destruct q as [g b|s line column b|s line column| |s p|o]; cbn [keep].
      - unfold bc_original_kept. destruct (_ <? 1); [reflexivity|]. destruct (_ <? 0); [reflexivity|].
        apply ensure_kept_FO. exact Hc.
      - unfold bc_generated_kept. destruct (bc_find_source_index md L U c s) as [[r d]|x] eqn:E; [|reflexivity].
        destruct (find_kept_FO _ _ _ _ Hc E) as [F [_ S1]]. destruct r as [i|]; [|exact S1].
        destruct (_ <? 1); [exact S1|]. destruct (_ <? 0); [exact S1|].
        destruct (ensure_kept_FO d F) as [G [_ S]].
        destruct (bc_mappings (bc_ensure_kept L d)) as [t|] eqn:Et; [|congruence].
        destruct (i32_sub md line 1); cbn; congruence.
      - unfold bc_all_kept. destruct (bc_find_source_index md L U c s) as [[r d]|x] eqn:E; [|reflexivity].
        destruct (find_kept_FO _ _ _ _ Hc E) as [F [_ S1]]. destruct r as [i|]; [|exact S1].
        destruct (i <? 0); [exact S1|]. destruct (_ <? 1); [exact S1|]. destruct (_ <? 0); [exact S1|].
        destruct (ensure_kept_FO d F) as [G [_ S]].
        destruct (bc_mappings (bc_ensure_kept L d)) as [t|] eqn:Et; cbn; congruence.
      - unfold bc_spans_kept. destruct (bc_computed_column_spans c) eqn:Ec; [exact Ec|].
        destruct (ensure_readable md L U c0 c Hc Hr) as [t Et]. destruct (ensure_kept _ _ _ Et) as [-> ->]. reflexivity.
      - unfold bc_content_kept, bc_find_kept. destruct (smj_sources_content _); [|reflexivity].
        destruct (bc_find_source_index md L U c s) as [[r d]|x] eqn:E; [|reflexivity]. apply (find_kept_FO _ _ _ _ Hc E).
      - unfold bc_each_kept. destruct (ensure_kept_FO c Hc) as [G [_ S]].
        destruct (bc_mappings (bc_ensure_kept L c)) as [t|] eqn:Et; [|exact S]. destruct o; exact S.
    Qed.

    Lemma lived_flag : forall qs c, FO c -> readable L (bc_source_map c0) ->
      (bc_computed_column_spans (lived md L U c qs) = true <-> bc_computed_column_spans c = true \/ In QSpans qs).
    Proof.
      induction qs as [|q qs IH]; intros c Hc Hr; cbn; [tauto|].
      rewrite (IH _ (keep_FO c q Hc) Hr). rewrite (keep_flag c q Hc Hr).
      destruct q; intuition discriminate.
    Qed.
  End From.

  Lemma lived_start : forall c0 qs, opened md L U c0 -> fresh L c0 /\ follows md L U c0 (lived md L U c0 qs).
  Proof.
    intros c0 qs Ho. pose proof (opened_fresh md L U _ Ho) as Hf. split; [exact Hf|].
    apply lived_FO; [exact Hf|]. apply follows_refl. exact Hf.
  Qed.

  Lemma as_passing : forall c0 qs, opened md L U c0 -> reverse_passes md L U c0 qs ->
    exists c', asked md L U c0 (passing md L U c0 qs) = Ok c' /\ same_answers md L U c0 (lived md L U c0 qs) c'.
  Proof.
    intros c0 qs Ho R. destruct (lived_start c0 qs Ho) as [Hf H]. pose proof (follows_refl md L U c0 Hf) as H0.
    destruct (passing_near c0 Hf qs c0 c0 H0 H0 (near_refl L c0) R) as [d [D [N F]]].
    exists d. split; [exact D|]. apply near_answers; assumption.
  Qed.

  Lemma no_trace : forall c0 qs q p, opened md L U c0 -> ask md L U (lived md L U c0 qs) q = Panic p ->
    (forall s line column b, q <> QGenerated s line column b) ->
    same_answers md L U c0 (lived md L U c0 (qs ++ [q])) (lived md L U c0 qs).
  Proof.
    intros c0 qs q p Ho H Hq. destruct (lived_start c0 qs Ho) as [Hf F]. unfold lived in *. rewrite fold_left_app. cbn [fold_left].
    apply near_answers; [exact Hf|apply keep_FO; assumption|exact F|].
    pose proof (panic_near c0 Hf _ q p F H) as X. destruct q; try exact X. exfalso. eapply Hq. reflexivity.
  Qed.

  Lemma lived_spans : forall c0 qs, opened md L U c0 -> readable L (bc_source_map c0) ->
    (bc_computed_column_spans (lived md L U c0 qs) = true <-> In QSpans qs).
  Proof.
    intros c0 qs Ho Hr. destruct (lived_start c0 [] Ho) as [Hf F].
    rewrite (lived_flag c0 Hf qs c0 (follows_refl md L U c0 Hf) Hr). rewrite (fr_spans _ _ Hf). intuition discriminate.
  Qed.

  (** ** Indexed consumers *)
  Notation Sec := (Section L).

  Lemma source_of_near : forall v v' i, Forall2 (near_sec md L U) v v' -> sources_of_section L v i = sources_of_section L v' i.
  Proof.
    intros v v' i H. unfold sources_of_section, vec_index. pose proof (near_get md L U _ _ (Z.of_nat i) H) as X.
    destruct (vec_get v (Z.of_nat i)) as [s|]; destruct (vec_get v' (Z.of_nat i)) as [s'|]; try contradiction; [|reflexivity].
    cbn [bind]. pose proof (al_map _ _ _ (ns_near _ _ _ _ _ X)) as M. cbn in M. rewrite M. reflexivity.
  Qed.

  Inductive cells {A} (v v' : list Sec) : res (A * RefCell (list Sec)) -> res (A * RefCell (list Sec)) -> Prop :=
  | cells_ok : forall a n, cells v v' (Ok (a, mkCell n v)) (Ok (a, mkCell n v'))
  | cells_panic : forall p, cells v v' (Panic p) (Panic p).

  Lemma inner_cells : forall v v', Forall2 (near_sec md L U) v v' -> forall js n i acc,
    cells v v' (get_sources_inner L (mkCell n v) i js acc) (get_sources_inner L (mkCell n v') i js acc).
  Proof.
    intros v v' H. induction js as [|j js IH]; intros n i acc; cbn [get_sources_inner]; [constructor|].
    unfold rc_borrow. cbn [rc_flag rc_val]. destruct (n <? 0); [constructor|]. cbn [bind rc_val].
    rewrite (source_of_near _ _ i H). destruct (sources_of_section L v' i) as [l|]; [|constructor]. cbn [bind].
    destruct (vec_index l _); [|constructor]. cbn [bind]. apply IH.
  Qed.

  Lemma outer_cells : forall v v', Forall2 (near_sec md L U) v v' -> forall is n acc,
    cells v v' (get_sources_outer L (mkCell n v) is acc) (get_sources_outer L (mkCell n v') is acc).
  Proof.
    intros v v' H. induction is as [|i is IH]; intros n acc; cbn [get_sources_outer]; [constructor|].
    unfold rc_borrow. cbn [rc_flag rc_val]. destruct (n <? 0); [constructor|]. cbn [bind rc_val].
    rewrite (source_of_near _ _ i H). destruct (sources_of_section L v' i) as [l|]; [|constructor]. cbn [bind].
    destruct (inner_cells v v' H (seq 0 (length l)) (n + 1) i acc) as [a m|p]; [|constructor]. cbn [bind]. apply IH.
  Qed.

  Lemma sources_cells : forall j j' v v', Forall2 (near_sec md L U) v v' ->
    answer (ic_get_sources L (mkIC j (mkCell 0 v))) = answer (ic_get_sources L (mkIC j' (mkCell 0 v'))).
  Proof.
    intros j j' v v' H. unfold ic_get_sources, rc_borrow. cbn [ic_sections rc_flag rc_val]. change (0 <? 0) with false. cbn [bind rc_val].
    rewrite (Forall2_len _ _ _ _ _ H). destruct (outer_cells v v' H (seq 0 (length v')) (0 + 1) []) as [a m|p]; reflexivity.
  Qed.

  Definition sound_offset (s : Sec) : Prop :=
    (exists z, i32_sub md (p_line (sec_generated_offset s)) 1 = Ok z)
    /\ (exists z, i32_sub md (p_column (sec_generated_offset s)) 1 = Ok z).

  Lemma near_ianswers : forall c c', rc_flag (ic_sections c) = 0 -> rc_flag (ic_sections c') = 0 ->
    Forall2 (near_sec md L U) (sections_of L c) (sections_of L c') -> Forall sound_offset (sections_of L c) ->
    same_ianswers md L U c c'.
  Proof.
    intros c c' F1 F2 H Hs. constructor.
    - rewrite (cell_parts L c F1), (cell_parts L c' F2). apply sources_cells. exact H.
    - intros g b. rewrite (cell_parts L c F1), (cell_parts L c' F2). apply (original_near md L U). exact H.
    - unfold ic_has_contents_of_all_sources, rc_borrow. rewrite F1, F2. change (0 <? 0) with false. cbn [bind rc_val].
      assert (X : allM (fun it => bc_has_contents_of_all_sources L (sec_consumer it)) (sections_of L c)
                = allM (fun it => bc_has_contents_of_all_sources L (sec_consumer it)) (sections_of L c')).
      { clear - H. induction H as [|x x' v v' [_ N _] H IH]; [reflexivity|]. cbn [allM]. rewrite IH.
        replace (bc_has_contents_of_all_sources L (sec_consumer x)) with (bc_has_contents_of_all_sources L (sec_consumer x')); [reflexivity|].
        pose proof (al_map _ _ _ N) as M. cbn in M. unfold bc_has_contents_of_all_sources. rewrite M. reflexivity. }
      unfold sections_of in X. rewrite X. destruct (allM _ (rc_val (ic_sections c'))); reflexivity.
    - intros s p. pose proof (content_near md L U _ _ s p H) as X. unfold sections_of in X.
      unfold ic_source_content_for, rc_borrow_mut. rewrite F1, F2. cbn [Z.eqb bind rc_val].
      destruct (source_content_loop md L U (rc_val (ic_sections c)) s p) as [[r w]|e];
      destruct (source_content_loop md L U (rc_val (ic_sections c')) s p) as [[r' w']|e']; cbn in X; inv X; cbn [bind]; [|reflexivity].
      destruct r'; [reflexivity|]. destruct (match p with Some _ => _ | None => _ end); reflexivity.
    - intros s line column b. unfold ic_generated_position_for.
      destruct (sections_of L c) as [|x v] eqn:Es; destruct (sections_of L c') as [|x' v'] eqn:Es'; inv H.
      + rewrite (find_empty md L U c s F1 Es), (find_empty md L U c' s F2 Es'). reflexivity.
      + rewrite (find_panics md L U c s F1), (find_panics md L U c' s F2) by congruence. reflexivity.
    - intros s line column. unfold ic_all_generated_position_for.
      destruct (sections_of L c) as [|x v] eqn:Es; destruct (sections_of L c') as [|x' v'] eqn:Es'; inv H.
      + rewrite (find_empty md L U c s F1 Es), (find_empty md L U c' s F2 Es'). reflexivity.
      + rewrite (find_panics md L U c s F1), (find_panics md L U c' s F2) by congruence. reflexivity.
    - rewrite (spans_ok L c F1), (spans_ok L c' F2). split; apply (near_mapM md L U); [exact H | apply near_sec_sym; exact H].
    - intros o.
      destruct (sections_of L c) as [|x v] eqn:Es; destruct (sections_of L c') as [|x' v'] eqn:Es'; inv H.
      + rewrite (each_empty md L c o F1 Es), (each_empty md L c' o F2 Es'). reflexivity.
      + match goal with N : near_sec _ _ _ _ _ |- _ => destruct N as [NO _ _] end.
        inv Hs. match goal with G : sound_offset x |- _ => destruct G as [G1 G2] end.
        rewrite (each_panics md L c o x v F1 Es G1 G2). rewrite NO in G1, G2.
        rewrite (each_panics md L c' o x' v' F2 Es' G1 G2). reflexivity.
  Qed.

  (** what is left of a section by calls whose panics are caught; [b]: spans computed *)
  Definition sec_lived (b : bool) (s0 s : Sec) : Prop :=
    sec_generated_offset s = sec_generated_offset s0 /\ opened md L U (sec_consumer s0)
    /\ follows md L U (sec_consumer s0) (sec_consumer s)
    /\ exists d, asked md L U (sec_consumer s0) (spans_once b) = Ok d /\ follows md L U (sec_consumer s0) d
        /\ near L (sec_consumer s) d.

  Lemma sec_lived_step : forall b s0 s o e, sec_lived b s0 s -> o = sec_generated_offset s ->
    (fresh L (sec_consumer s0) -> follows md L U (sec_consumer s0) (sec_consumer s) ->
       follows md L U (sec_consumer s0) e /\ near L e (sec_consumer s)) ->
    sec_lived b s0 (mkSection o e).
  Proof.
    intros b s0 s o e [H1 [H2 [H3 [d [H4 [H5 H6]]]]]] -> He.
    destruct (He (opened_fresh md L U _ H2) H3) as [X Y]. split; [exact H1|]. split; [exact H2|]. split; [exact X|].
    exists d. split; [exact H4|]. split; [exact H5|]. cbn. eapply near_trans; [exact Y|exact H6].
  Qed.

  Lemma update_lived : forall b l0 l n s e, Forall2 (sec_lived b) l0 l -> nth_error l n = Some s ->
    (forall s0, sec_lived b s0 s -> sec_lived b s0 e) -> Forall2 (sec_lived b) l0 (update l n e).
  Proof.
    intros b l0 l n s e H. revert n. induction H as [|s0 x l0 l Hs H IH]; intros n E He; destruct n as [|n]; try discriminate; cbn in *.
    - inv E. constructor; auto.
    - constructor; [exact Hs|]. apply IH; assumption.
  Qed.

  Lemma ikeep_original : forall b c0 c g, Forall2 (sec_lived b) (sections_of L c0) (sections_of L c) ->
    Forall2 (sec_lived b) (sections_of L c0) (sections_of L (ic_original_kept md L c g))
    /\ rc_flag (ic_sections (ic_original_kept md L c g)) = rc_flag (ic_sections c).
  Proof.
    intros b c0 c g H. unfold ic_original_kept. destruct (search _ _ _ _ _ _) as [k|]; [|auto].
    destruct (vec_get (rc_val (ic_sections c)) (to_usize k)) as [it|] eqn:E; [|auto].
    match goal with |- context [match ?x with Ok _ => _ | Panic _ => _ end] => destruct x as [p|] end; [|auto].
    split; [|reflexivity]. unfold ic_keep_sections, sections_of. cbn [ic_sections rc_val].
    unfold vec_get in E. destruct (_ && _); [|discriminate].
    apply (update_lived b _ _ _ it); [exact H|exact E|].
    intros s0 Hs. apply (sec_lived_step b s0 it); [exact Hs|reflexivity|]. intros Hf F.
    split; [apply (keep_FO _ Hf _ (QOriginal p None)); exact F|].
    unfold bc_original_kept. destruct (_ <? 1); [apply near_refl|]. destruct (_ <? 0); [apply near_refl|].
    apply (ensure_kept_FO (sec_consumer s0)). exact F.
  Qed.

  Lemma ikeep_content : forall b s p l0 l, Forall2 (sec_lived b) l0 l ->
    Forall2 (sec_lived b) l0 (content_loop_kept md L U l s p).
  Proof.
    intros b s p l0 l H. induction H as [|s0 x l0 l Hs H IH]; cbn [content_loop_kept]; constructor.
    - apply (sec_lived_step b s0 x); [exact Hs|reflexivity|]. intros Hf F.
      split; [apply (keep_FO _ Hf _ (QContent s p)); exact F|].
      unfold bc_content_kept, bc_find_kept. destruct (smj_sources_content _); [|apply near_refl].
      destruct (bc_find_source_index md L U _ s) as [[r d]|e] eqn:E; [|apply near_refl].
      apply (find_kept_FO (sec_consumer s0) Hf _ _ _ _ F E).
    - destruct (bc_source_content_for md L U _ s p) as [[[t|] d]|e]; [exact H|exact IH|exact H].
  Qed.

  Definition spans_pass (s0 : Sec) : Prop := exists d, bc_compute_column_spans L (sec_consumer s0) = Ok d.

  Lemma ikeep_spans : forall b l0 l, Forall2 (sec_lived b) l0 l -> Forall spans_pass l0 ->
    Forall2 (sec_lived true) l0 (spans_loop_kept L l).
  Proof.
    intros b l0 l H. induction H as [|s0 x l0 l Hs H IH]; intros Hp; cbn [spans_loop_kept]; [constructor|].
    inversion Hp as [|? ? [d0 D0] Hp']; subst. destruct Hs as [H1 [H2 [H3 [d [H4 [H5 H6]]]]]].
    pose proof (opened_fresh md L U _ H2) as Hf.
    assert (Hd : bc_compute_column_spans L d = Ok d0 /\ asked md L U (sec_consumer s0) (spans_once true) = Ok d0).
    { destruct b; cbn [spans_once asked ask] in H4 |- *.
      - rewrite D0 in H4 |- *. cbn in H4 |- *. inv H4. split; [|reflexivity]. eapply spans_twice. exact D0.
      - inv H4. rewrite D0. split; reflexivity. }
    destruct Hd as [Hd1 Hd2].
    destruct (near_spans L _ _ H6) as [[p [P1 P2]]|[e [e' [P1 [P2 N]]]]]; [congruence|].
    assert (e' = d0) by congruence. subst e'. rewrite P1.
    assert (K : bc_spans_kept L (sec_consumer x) = e) by exact (keep_ok (sec_consumer x) QSpans e P1).
    constructor; [|apply IH; exact Hp']. rewrite K.
    split; [exact H1|]. split; [exact H2|].
    split; [exact (ask_FO md L U _ Hf _ QSpans _ H3 P1)|].
    exists d0. split; [exact Hd2|]. split; [|exact N]. exact (ask_FO md L U _ Hf _ QSpans _ H5 Hd1).
  Qed.

  Lemma ilived_inv : forall qs b c0 c, Forall2 (sec_lived b) (sections_of L c0) (sections_of L c) ->
    rc_flag (ic_sections c) = 0 -> (calls_spans qs = true -> Forall spans_pass (sections_of L c0)) ->
    Forall2 (sec_lived (b || calls_spans qs)) (sections_of L c0) (sections_of L (ilived md L U c qs))
    /\ rc_flag (ic_sections (ilived md L U c qs)) = 0.
  Proof.
    induction qs as [|q qs IH]; intros b c0 c H Hf Hp; cbn [ilived fold_left calls_spans existsb].
    - rewrite orb_false_r. auto.
    - fold (calls_spans qs). fold (ilived md L U (ikeep md L U c q) qs). cbn [calls_spans existsb] in Hp. fold (calls_spans qs) in Hp.
      destruct q; cbn [ikeep orb] in *; try (apply IH; assumption).
      + destruct (ikeep_original b c0 c input H) as [A B]. apply IH; [exact A|congruence|exact Hp].
      + apply IH; [|exact Hf|exact Hp]. apply ikeep_content. exact H.
      + rewrite orb_true_r. specialize (IH true c0). cbn [orb] in IH. apply IH; [|exact Hf|intros _; apply Hp; reflexivity].
        eapply ikeep_spans; [exact H|]. apply Hp. reflexivity.
  Qed.

  Lemma lived_refl : forall c0, iopened md L U c0 -> Forall2 (sec_lived false) (sections_of L c0) (sections_of L c0)
    /\ rc_flag (ic_sections c0) = 0 /\ Forall sound_offset (sections_of L c0).
  Proof.
    intros c0 Ho. destruct (iopened_start md L U c0 Ho) as [Hf Hg]. split; [|split; [exact Hf|]].
    - induction Hg as [|s l [G _] Hg IH]; constructor; [|exact IH]. pose proof (opened_fresh md L U _ G) as F.
      pose proof (follows_refl md L U _ F) as F'. split; [reflexivity|]. split; [exact G|]. split; [exact F'|].
      exists (sec_consumer s). split; [reflexivity|]. split; [exact F'|]. apply near_refl.
    - eapply Forall_impl; [|exact Hg]. intros s [_ G]. exact G.
  Qed.

  Lemma spans_pass_all : forall c0 d, rc_flag (ic_sections c0) = 0 -> ic_computed_column_spans L c0 = Ok d ->
    Forall spans_pass (sections_of L c0).
  Proof.
    intros c0 d Hf H. assert (X : exists d, ic_computed_column_spans L c0 = Ok d) by eauto.
    apply (spans_ok L c0 Hf) in X. destruct X as [w X]. revert w X. induction (sections_of L c0) as [|s l IH]; intros w X; constructor.
    - cbn in X. destruct (bc_compute_column_spans L (sec_consumer s)) as [e|] eqn:E; [|discriminate]. exists e. exact E.
    - cbn in X. destruct (bc_compute_column_spans L (sec_consumer s)) as [e|] eqn:E; [|discriminate]. cbn in X.
      match type of X with bind ?m _ = _ => destruct m as [w'|] eqn:Em; [|discriminate] end. eapply IH. reflexivity.
  Qed.

  Lemma lived_meet : forall b l0 l l', Forall2 (sec_lived b) l0 l -> Forall2 (sec_lived b) l0 l' -> Forall2 (near_sec md L U) l l'.
  Proof.
    intros b l0 l l' H. revert l'. induction H as [|s0 s l0 l Hs H IH]; intros l' H'; inv H'; constructor; [|apply IH; assumption].
    destruct Hs as [A [B [F [d [D [_ N]]]]]].
    match goal with X : sec_lived _ _ _ |- _ => destruct X as [A' [_ [F' [d' [D' [_ N']]]]]] end.
    assert (d = d') by congruence. subst d'. constructor; [congruence| |].
    - eapply near_trans; [exact N|]. apply near_sym. exact N'.
    - eexists. split; [apply (opened_fresh md L U _ B)|]. auto.
  Qed.

  Lemma ilived_answers : forall c0 qs qs', iopened md L U c0 -> calls_spans qs = calls_spans qs' ->
    (calls_spans qs = true -> exists d, ic_computed_column_spans L c0 = Ok d) ->
    same_ianswers md L U (ilived md L U c0 qs) (ilived md L U c0 qs').
  Proof.
    intros c0 qs qs' Ho E Hp. destruct (lived_refl c0 Ho) as [R [Hf Hs]].
    assert (P : calls_spans qs = true -> Forall spans_pass (sections_of L c0)).
    { intros X. destruct (Hp X) as [d D]. exact (spans_pass_all c0 d Hf D). }
    destruct (ilived_inv qs false c0 c0 R Hf P) as [A A']. rewrite E in P.
    destruct (ilived_inv qs' false c0 c0 R Hf P) as [B B']. cbn [orb] in A, B. rewrite E in A.
    apply near_ianswers; [exact A'|exact B'|eapply lived_meet; [exact A|exact B]|].
    clear - A Hs. induction A as [|s0 s l0 l [H _] A IH]; constructor; inv Hs; [|apply IH; assumption].
    unfold sound_offset. rewrite H. assumption.
  Qed.

  (** calls that pass *)
  Lemma content_loop_ok : forall secs s p a w, source_content_loop md L U secs s p = Ok (a, w) -> content_loop_kept md L U secs s p = w.
  Proof.
    induction secs as [|x secs IH]; intros s p a w H; cbn in H |- *; [inv H; reflexivity|].
    destruct (bc_source_content_for md L U (sec_consumer x) s p) as [[it bc]|e] eqn:E; [|discriminate]. cbn in H.
    assert (K : bc_content_kept md L U (sec_consumer x) s = bc).
    { apply (keep_ok (sec_consumer x) (QContent s p)). cbn [ask]. rewrite E. reflexivity. }
    rewrite K. destruct it as [it|]; [inv H; reflexivity|].
    destruct (source_content_loop md L U secs s p) as [[a' w']|e] eqn:E2; [|discriminate]. cbn in H. inv H.
    rewrite (IH _ _ _ _ E2). reflexivity.
  Qed.

  Lemma spans_loop_ok : forall secs w,
    mapM (fun ele : Sec => let* bc := bc_compute_column_spans L (sec_consumer ele) in Ok (mkSection (sec_generated_offset ele) bc)) secs = Ok w ->
    spans_loop_kept L secs = w.
  Proof.
    induction secs as [|x secs IH]; intros w H; cbn in H |- *; [inv H; reflexivity|].
    destruct (bc_compute_column_spans L (sec_consumer x)) as [bc|e] eqn:E; [|discriminate]. cbn in H.
    rewrite (keep_ok (sec_consumer x) QSpans bc E : bc_spans_kept L (sec_consumer x) = bc).
    match type of H with bind ?m _ = _ => destruct m as [w'|] eqn:Em; [|discriminate] end. cbn in H. inv H.
    rewrite (IH _ eq_refl). reflexivity.
  Qed.

  Lemma same_cell : forall (c : IndexedConsumer L), rc_flag (ic_sections c) = 0 -> ic_set_sections L c (mkCell 0 (rc_val (ic_sections c))) = c.
  Proof. intros [j [n v]] H. cbn in H. subst n. reflexivity. Qed.

  Lemma ikeep_ok : forall c q d, rc_flag (ic_sections c) = 0 -> Forall sound_offset (sections_of L c) ->
    iask md L U c q = Ok d -> ikeep md L U c q = d.
  Proof.
    intros c q d Hf Ho H. destruct q as [|g b| |s p|s line column b|s line column| |o]; cbn [iask ikeep] in *.
    - unfold ic_get_sources, rc_borrow in H. rewrite Hf in H. change (0 <? 0) with false in H. cbn [bind rc_val] in H.
      assert (X : forall is n acc a cell, get_sources_outer L (mkCell n (rc_val (ic_sections c))) is acc = Ok (a, cell) ->
                cell = mkCell n (rc_val (ic_sections c))).
      { assert (Y : forall js n i acc a cell, get_sources_inner L (mkCell n (rc_val (ic_sections c))) i js acc = Ok (a, cell) ->
                cell = mkCell n (rc_val (ic_sections c))).
        { induction js as [|j js IH]; intros n i acc a cell X; cbn [get_sources_inner] in X; [inv X; reflexivity|].
          unfold rc_borrow in X. cbn [rc_flag rc_val] in X. destruct (n <? 0); [discriminate|]. cbn [bind rc_val] in X.
          destruct (sources_of_section L _ i); [|discriminate]. cbn [bind] in X. destruct (vec_index _ _); [|discriminate]. cbn [bind] in X.
          unfold rc_release in X. cbn [rc_flag rc_val] in X. replace (n + 1 - 1) with n in X by lia. eapply IH. exact X. }
        induction is as [|i is IH]; intros n acc a cell X; cbn [get_sources_outer] in X; [inv X; reflexivity|].
        unfold rc_borrow in X. cbn [rc_flag rc_val] in X. destruct (n <? 0); [discriminate|]. cbn [bind rc_val] in X.
        destruct (sources_of_section L _ i) as [l|]; [|discriminate]. cbn [bind] in X.
        destruct (get_sources_inner L _ i _ _) as [[a1 cell1]|] eqn:E; [|discriminate]. cbn [bind] in X.
        apply Y in E. subst cell1. unfold rc_release in X. cbn [rc_flag rc_val] in X. replace (n + 1 - 1) with n in X by lia. eapply IH. exact X. }
      destruct (get_sources_outer L _ _ _) as [[a cell]|] eqn:E; [|discriminate]. apply X in E. subst cell. cbn in H. inv H.
      symmetry. apply same_cell. exact Hf.
    - unfold ic_original_position_for, rc_borrow in H. rewrite Hf in H. change (0 <? 0) with false in H. cbn [bind rc_val] in H.
      unfold ic_original_kept. destruct (search _ _ _ _ _ _) as [k|]; [|discriminate]. cbn [bind] in H.
      unfold rc_release, rc_borrow_mut in H. cbn [rc_flag rc_val] in H. change (0 + 1 - 1 =? 0) with true in H. cbn [bind rc_val] in H.
      destruct (vec_get (rc_val (ic_sections c)) (to_usize k)) as [it|]; [|inv H; symmetry; apply same_cell; exact Hf].
      destruct (i32_sub md _ 1) as [a|]; [|discriminate]. cbn [bind] in H |- *.
      destruct (i32_sub md (p_line g) a) as [a1|]; [|discriminate]. cbn [bind] in H |- *.
      match type of H with istate _ (bind ?x _) = _ => destruct x as [a2|]; [|discriminate] end. cbn [bind] in H |- *.
      destruct (i32_sub md (p_column g) a2) as [a3|]; [|discriminate]. cbn [bind] in H |- *.
      destruct (bc_original_position_for md L (sec_consumer it) (mkPos a1 a3) b) as [[r bc]|] eqn:E; [|discriminate]. cbn in H. inv H.
      assert (K : bc_original_kept L (sec_consumer it) (mkPos a1 a3) = bc).
      { apply (keep_ok (sec_consumer it) (QOriginal (mkPos a1 a3) b)). cbn [ask]. rewrite E. reflexivity. }
      rewrite K. unfold ic_keep_sections. rewrite Hf. reflexivity.
    - unfold ic_has_contents_of_all_sources, rc_borrow in H. rewrite Hf in H. change (0 <? 0) with false in H. cbn [bind rc_val] in H.
      destruct (allM _ _); [|discriminate]. cbn in H. inv H. symmetry. apply same_cell. exact Hf.
    - unfold ic_source_content_for, rc_borrow_mut in H. rewrite Hf in H. cbn [Z.eqb bind rc_val] in H.
      destruct (source_content_loop md L U (rc_val (ic_sections c)) s p) as [[a w]|] eqn:E; [|discriminate].
      unfold sections_of. rewrite (content_loop_ok _ _ _ _ _ E). cbn [bind] in H. unfold ic_keep_sections. rewrite Hf.
      destruct a; [cbn in H; inv H; reflexivity|]. destruct (match p with Some _ => _ | None => _ end); [discriminate|]. cbn in H. inv H. reflexivity.
    - unfold ic_generated_position_for in H. destruct (sections_of L c) as [|x v] eqn:Es.
      + rewrite (find_empty md L U c s Hf Es) in H. cbn in H. inv H. reflexivity.
      + rewrite (find_panics md L U c s Hf) in H by congruence. discriminate.
    - unfold ic_all_generated_position_for in H. destruct (sections_of L c) as [|x v] eqn:Es.
      + rewrite (find_empty md L U c s Hf Es) in H. cbn in H. inv H. reflexivity.
      + rewrite (find_panics md L U c s Hf) in H by congruence. discriminate.
    - unfold ic_computed_column_spans, rc_borrow_mut in H. rewrite Hf in H. cbn [Z.eqb bind rc_val] in H.
      match type of H with bind ?m _ = _ => destruct m as [w|] eqn:Em; [|discriminate] end. cbn in H. inv H.
      unfold sections_of. rewrite (spans_loop_ok _ _ Em). unfold ic_keep_sections. rewrite Hf. reflexivity.
    - destruct (sections_of L c) as [|x v] eqn:Es.
      + rewrite (each_empty md L c o Hf Es) in H. cbn in H. inv H. reflexivity.
      + inv Ho. match goal with G : sound_offset x |- _ => destruct G as [G1 G2] end.
        rewrite (each_panics md L c o x v Hf Es G1 G2) in H. discriminate.
  Qed.

  Lemma ilived_ok : forall c0 qs c, iopened md L U c0 -> iasked md L U c0 qs = Ok c -> ilived md L U c0 qs = c.
  Proof.
    intros c0 qs c Ho. destruct (lived_refl c0 Ho) as [_ [_ Hs]].
    enough (X : forall qs pre c1, iasked md L U c0 pre = Ok c1 -> iasked md L U c1 qs = Ok c -> ilived md L U c1 qs = c)
      by exact (X qs [] c0 eq_refl).
    clear qs. induction qs as [|q qs IH]; intros pre c1 H1 H; cbn in H |- *; [inv H; reflexivity|].
    destruct (iask md L U c1 q) as [c2|] eqn:E; [|discriminate]. cbn [bind] in H.
    pose proof (ihistory md L U _ _ _ Ho H1) as [_ Hf Hh].
    assert (Hs1 : Forall sound_offset (sections_of L c1)).
    { clear - Hh Hs. induction Hh as [|s0 s l0 l [A _] Hh IH]; constructor; inv Hs; [|apply IH; assumption].
      unfold sound_offset. rewrite A. assumption. }
    rewrite (ikeep_ok _ _ _ Hf Hs1 E). apply (IH (pre ++ [q])); [|exact H].
    clear - H1 E. revert H1. generalize c0. induction pre as [|x pre IH]; intros k H1; cbn in H1 |- *; [inv H1; rewrite E; reflexivity|].
    destruct (iask md L U k x) as [c3|]; [|discriminate]. cbn in H1 |- *. apply IH. exact H1.
  Qed.

  Lemma ilived_as_passing : forall c0 qs, iopened md L U c0 ->
    (calls_spans qs = true -> exists d, ic_computed_column_spans L c0 = Ok d) ->
    exists c', iasked md L U c0 (if calls_spans qs then [ISpans] else []) = Ok c'
      /\ same_ianswers md L U (ilived md L U c0 qs) c'.
  Proof.
    intros c0 qs Ho Hp.
    assert (X : exists c', iasked md L U c0 (if calls_spans qs then [ISpans] else []) = Ok c').
    { destruct (calls_spans qs); [|exists c0; reflexivity]. destruct (Hp eq_refl) as [d D]. exists d. cbn. rewrite D. reflexivity. }
    destruct X as [c' X]. exists c'. split; [exact X|]. rewrite <- (ilived_ok _ _ _ Ho X).
    apply ilived_answers; [exact Ho| |exact Hp]. destruct (calls_spans qs); reflexivity.
  Qed.
End Unwind.

Section Specs.
  Context (md : mode) (L : MapLib) (U : UrlLib).

  Lemma lived_lookup : forall c0 qs src, opened md L U c0 -> len (bc_get_sources L c0) < 2^31 ->
    bc_get_sources L (lived md L U c0 qs) = bc_get_sources L c0
    /\ answer (bc_find_source_index md L U (lived md L U c0 qs) src)
       = match source_lookup md L U c0 src with
         | Ok r => Ok (option_map Z.of_nat r)
         | Panic p => Panic p
         end.
  Proof.
    intros c0 qs src Ho Hl. destruct (lived_start md L U c0 qs Ho) as [Hf F].
    destruct (source_lookup_stable_at md L U c0 _ src Hf F Hl) as [A [B _]]. split; [exact A|exact B].
  Qed.

  Lemma lived_content : forall c0 qs src p, opened md L U c0 -> len (bc_get_sources L c0) < 2^31 ->
    answer (bc_source_content_for md L U (lived md L U c0 qs) src p)
    = match smj_sources_content (bc_source_map c0) with
      | None => Ok None
      | Some contents =>
          match source_lookup md L U c0 src with
          | Panic p => Panic p
          | Ok None => match p with Some false => Ok None | _ => Panic PMissing end
          | Ok (Some i) =>
              match nth_error contents i with Some text => Ok (Some text) | None => Panic PIndex end
          end
      end.
  Proof.
    intros c0 qs src p Ho Hl. destruct (lived_start md L U c0 qs Ho) as [Hf F].
    exact (content_spec_at md L U c0 _ src p Hf F Hl).
  Qed.

  Context (ok : MapLibOk L).

  Lemma lived_original : forall c0 qs g b l, opened md L U c0 -> len (bc_get_sources L c0) < 2^31 ->
    readable L (bc_source_map c0) -> reports L (lived md L U c0 qs) l -> Forall raw_i31 l ->
    position_ok (p_line g) (p_column g) ->
    exists found, nearest (by_place l) (p_line g - 1, p_column g) (default_bias b) found
      /\ answer (bc_original_position_for md L (lived md L U c0 qs) g b)
         = original_outcome (bc_source_map c0) (bc_get_sources L c0) (p_line g) found.
  Proof.
    intros c0 qs g b l Ho Hl Hr R Hi Hp. destruct (lived_start md L U c0 qs Ho) as [Hf F].
    exact (original_spec_at md L U ok c0 _ g b l Hf F Hl Hr R Hi Hp).
  Qed.

  Lemma lived_generated : forall c0 qs src i line column b l, opened md L U c0 -> len (bc_get_sources L c0) < 2^31 ->
    readable L (bc_source_map c0) -> reports L (lived md L U c0 qs) l -> Forall raw_i31 l ->
    source_lookup md L U c0 src = Ok (Some i) -> position_ok line column ->
    exists found last, nearest (of_source (Z.of_nat i) l) (line - 1, column) (default_bias b) found
      /\ answer (bc_generated_position_for md L U (lived md L U c0 qs) src line column b)
         = generated_outcome (bc_source_map c0) (bc_get_sources L c0) i found last
      /\ end_shown (In QSpans qs) l found last.
  Proof.
    intros c0 qs src i line column b l Ho Hl Hr R Hi Hs Hp. destruct (lived_start md L U c0 qs Ho) as [Hf F].
    destruct (generated_spec_at md L U ok c0 _ src i line column b l Hf F Hl Hr R Hi Hs Hp) as [found [last [A [B C]]]].
    exists found, last. split; [exact A|]. split; [exact B|]. unfold end_shown in *.
    pose proof (lived_spans md L U c0 qs Ho Hr) as X. destruct found; [|exact C].
    destruct C as [w [C1 [C2 [C3 C4]]]]. exists w. repeat split; tauto.
  Qed.

  Lemma lived_all : forall c0 qs src i line column l, opened md L U c0 -> len (bc_get_sources L c0) < 2^31 ->
    readable L (bc_source_map c0) -> reports L (lived md L U c0 qs) l -> source_lookup md L U c0 src = Ok (Some i) ->
    let col := match column with Some z => z | None => 0 end in
    position_ok line col ->
    exists r, answer (bc_all_generated_position_for md L U (lived md L U c0 qs) src line column) = Ok r /\ Forall (ends_right l) r
      /\ (at_place (line, col) (of_source (Z.of_nat i) l) <> [] ->
          Permutation (map strip r) (at_place (line, col) (of_source (Z.of_nat i) l))).
  Proof.
    intros c0 qs src i line column l Ho Hl Hr R Hs. destruct (lived_start md L U c0 qs Ho) as [Hf F].
    exact (all_generated_spec_at md L U ok c0 _ src i line column l Hf F Hl Hr R Hs).
  Qed.

  Lemma lived_each : forall c0 qs l l0, opened md L U c0 -> reports L c0 l0 -> reports L (lived md L U c0 qs) l ->
    (StronglySorted raw_le l /\ Forall raw_u32 l /\ map strip l = map strip l0)
    /\ (forall lo, answer (bc_each_mapping L (lived md L U c0 qs) OriginalOrd) = Ok lo ->
          Permutation (map strip lo) (filter has_original (map strip l)) /\ StronglySorted orig_le lo
          /\ Forall (ends_right l) lo).
  Proof.
    intros c0 qs l l0 Ho R0 R. destruct (lived_start md L U c0 qs Ho) as [Hf F]. split.
    - exact (each_mapping_generated_at md L U ok c0 _ l l0 Hf F R0 R).
    - intros lo H. exact (each_mapping_original_at md L U ok c0 _ l lo Hf F R H).
  Qed.
End Specs.

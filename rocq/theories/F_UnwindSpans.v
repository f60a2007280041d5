(** * Indexed consumers after caught panics, section by section *)
From Verif Require Import F_Base M_ArraySet M_BinarySearch M_Mapping M_Util M_SourceMap M_Generator M_Json M_MapLib
  M_Consumer M_Indexed M_Unwind S_List S_Mapping S_MapLib S_Consumer S_Indexed S_Alias S_Quiet S_Unwind
  F_ArraySet F_Consumer F_ConsumerProps F_Indexed F_IndexedProps F_Alias F_Sections F_Json F_Quiet F_Unwind.
From Coq Require Import Sorting.Sorted Sorting.Permutation.

Section Spans.
  Context (md : mode) (L : MapLib) (U : UrlLib).
  Notation Sec := (Section L).

  Definition passb (s0 : Sec) : bool := match bc_compute_column_spans L (sec_consumer s0) with Ok _ => true | Panic _ => false end.

  (** [b]: computed_column_spans was called; it reaches the first sections *)
  Fixpoint mark (b : bool) (l0 : list Sec) : list (bool * Sec) :=
    match l0 with
    | [] => []
    | s0 :: l0 => (b && passb s0, s0) :: mark (b && passb s0) l0
    end.
  Definition marked (p : bool * Sec) (s : Sec) : Prop := sec_lived md L U (fst p) (snd p) s.

  Lemma mark_false : forall l0 l, Forall2 (sec_lived md L U false) l0 l -> Forall2 marked (mark false l0) l.
  Proof. intros l0 l H. induction H as [|s0 s l0 l Hs H IH]; cbn; constructor; [exact Hs|exact IH]. Qed.

  Lemma update_marked : forall l0 l n s e, Forall2 marked l0 l -> nth_error l n = Some s ->
    (forall p, marked p s -> marked p e) -> Forall2 marked l0 (update l n e).
  Proof.
    intros l0 l n s e H. revert n. induction H as [|s0 x l0 l Hs H IH]; intros n E He; destruct n as [|n]; try discriminate; cbn in *.
    - inv E. constructor; auto.
    - constructor; [exact Hs|]. apply IH; assumption.
  Qed.

  Lemma marked_original : forall l0 c g, Forall2 marked l0 (sections_of L c) ->
    Forall2 marked l0 (sections_of L (ic_original_kept md L c g))
    /\ rc_flag (ic_sections (ic_original_kept md L c g)) = rc_flag (ic_sections c).
  Proof.
    intros l0 c g H. unfold ic_original_kept. destruct (search _ _ _ _ _ _) as [k|]; [|auto].
    destruct (vec_get (rc_val (ic_sections c)) (to_usize k)) as [it|] eqn:E; [|auto].
    match goal with |- context [match ?x with Ok _ => _ | Panic _ => _ end] => destruct x as [p|] end; [|auto].
    split; [|reflexivity]. unfold ic_keep_sections, sections_of. cbn [ic_sections rc_val].
    unfold vec_get in E. destruct (_ && _); [|discriminate].
    apply (update_marked _ _ _ it); [exact H|exact E|].
    intros [b s0] Hs. apply (sec_lived_step md L U b s0 it); [exact Hs|reflexivity|]. intros Hf F.
    split; [apply (keep_FO md L U _ Hf _ (QOriginal p None)); exact F|].
    unfold bc_original_kept. destruct (_ <? 1); [apply near_refl|]. destruct (_ <? 0); [apply near_refl|].
    apply (ensure_kept_FO md L U (sec_consumer s0)). exact F.
  Qed.

  Lemma marked_content : forall s p l0 l, Forall2 marked l0 l -> Forall2 marked l0 (content_loop_kept md L U l s p).
  Proof.
    intros s p l0 l H. induction H as [|[b s0] x l0 l Hs H IH]; cbn [content_loop_kept]; constructor.
    - apply (sec_lived_step md L U b s0 x); [exact Hs|reflexivity|]. intros Hf F.
      split; [apply (keep_FO md L U _ Hf _ (QContent s p)); exact F|].
      unfold bc_content_kept, bc_find_kept. destruct (smj_sources_content _); [|apply near_refl].
      destruct (bc_find_source_index md L U _ s) as [[r d]|e] eqn:E; [|apply near_refl].
      apply (find_kept_FO md L U (sec_consumer s0) Hf _ _ _ _ F E).
    - destruct (bc_source_content_for md L U _ s p) as [[[t|] d]|e]; [exact H|exact IH|exact H].
  Qed.

  Lemma marked_spans : forall l0 b l, Forall2 marked (mark b l0) l -> Forall2 marked (mark true l0) (spans_loop_kept L l).
  Proof.
    induction l0 as [|s0 l0 IH]; intros b l H; cbn [mark] in H; inv H; cbn [spans_loop_kept mark]; [constructor|].
    match goal with X : marked _ ?y |- _ => rename y into x; rename X into Hs end.
    match goal with X : Forall2 _ _ ?t |- _ => rename t into l; rename X into H end.
    unfold marked in Hs. cbn [fst snd] in Hs. cbn [andb]. unfold passb in *.
    destruct Hs as [H1 [H2 [H3 [d [H4 [H5 H6]]]]]]. pose proof (opened_fresh md L U _ H2) as Hf.
    destruct (bc_compute_column_spans L (sec_consumer s0)) as [d0|p0] eqn:D0.
    - rewrite andb_true_r in H, H4.
      assert (Hd : bc_compute_column_spans L d = Ok d0 /\ asked md L U (sec_consumer s0) (spans_once true) = Ok d0).
      { destruct b; cbn [spans_once asked ask] in H4 |- *.
        - rewrite D0 in H4 |- *. cbn in H4 |- *. inv H4. split; [|reflexivity]. eapply spans_twice. exact D0.
        - inv H4. rewrite D0. split; reflexivity. }
      destruct Hd as [Hd1 Hd2].
      destruct (near_spans L _ _ H6) as [[p [P1 P2]]|[e [e' [P1 [P2 N]]]]]; [congruence|].
      assert (e' = d0) by congruence. subst e'. rewrite P1.
      assert (K : bc_spans_kept L (sec_consumer x) = e) by exact (keep_ok md L U (sec_consumer x) QSpans e P1).
      constructor; [|eapply IH; exact H]. rewrite K.
      split; [exact H1|]. split; [exact H2|].
      split; [exact (ask_FO md L U _ Hf _ QSpans _ H3 P1)|].
      exists d0. split; [exact Hd2|]. split; [|exact N]. exact (ask_FO md L U _ Hf _ QSpans _ H5 Hd1).
    - rewrite andb_false_r in H, H4. cbn [spans_once asked] in H4. inv H4.
      destruct (near_spans L _ _ H6) as [[p [P1 P2]]|[e [e' [P1 [P2 N]]]]]; [|congruence].
      rewrite P1. constructor; [|exact H].
      assert (P : ask md L U (sec_consumer x) QSpans = Panic p) by exact P1.
      apply (sec_lived_step md L U false s0 x); [|reflexivity|].
      { split; [exact H1|]. split; [exact H2|]. split; [exact H3|]. eexists. split; [reflexivity|]. split; [exact H5|exact H6]. }
      intros _ F. split; [exact (keep_FO md L U _ Hf _ QSpans F)|]. exact (panic_near md L U _ Hf _ _ _ F P).
  Qed.

  Lemma marked_inv : forall qs b c0 c, Forall2 marked (mark b (sections_of L c0)) (sections_of L c) ->
    rc_flag (ic_sections c) = 0 ->
    Forall2 marked (mark (b || calls_spans qs) (sections_of L c0)) (sections_of L (ilived md L U c qs))
    /\ rc_flag (ic_sections (ilived md L U c qs)) = 0.
  Proof.
    induction qs as [|q qs IH]; intros b c0 c H Hf; cbn [ilived fold_left calls_spans existsb].
    - rewrite orb_false_r. auto.
    - fold (calls_spans qs). fold (ilived md L U (ikeep md L U c q) qs).
      destruct q; cbn [ikeep orb] in *; try (apply IH; assumption).
      + destruct (marked_original _ c input H) as [A B]. apply IH; [exact A|congruence].
      + apply IH; [|exact Hf]. apply marked_content. exact H.
      + rewrite orb_true_r. specialize (IH true c0). cbn [orb] in IH. apply IH; [|exact Hf].
        eapply marked_spans. exact H.
  Qed.

  Lemma marked_lived : forall c0 qs, iopened md L U c0 ->
    Forall2 marked (mark (calls_spans qs) (sections_of L c0)) (sections_of L (ilived md L U c0 qs))
    /\ rc_flag (ic_sections (ilived md L U c0 qs)) = 0.
  Proof.
    intros c0 qs Ho. destruct (lived_refl md L U c0 Ho) as [R [Hf _]].
    exact (marked_inv qs false c0 c0 (mark_false _ _ R) Hf).
  Qed.

  Lemma marked_meet : forall m l l', Forall2 marked m l -> Forall2 marked m l' -> Forall2 (near_sec md L U) l l'.
  Proof.
    intros m l l' H. revert l'. induction H as [|[b s0] s m l Hs H IH]; intros l' H'; inv H'; constructor; [|apply IH; assumption].
    destruct Hs as [A [B [F [d [D [_ N]]]]]]. cbn [fst snd] in *.
    match goal with X : marked _ _ |- _ => destruct X as [A' [_ [F' [d' [D' [_ N']]]]]] end. cbn [fst snd] in *.
    assert (d = d') by congruence. subst d'. constructor; [congruence| |].
    - eapply near_trans; [exact N|]. apply near_sym. exact N'.
    - eexists. split; [apply (opened_fresh md L U _ B)|]. auto.
  Qed.

  Lemma mark_nth : forall l0 b k, nth_error (mark b l0) k
    = option_map (fun s0 => (b && forallb passb (firstn (S k) l0), s0)) (nth_error l0 k).
  Proof.
    induction l0 as [|s0 l0 IH]; intros b k; [destruct k; reflexivity|]. destruct k as [|k].
    - cbn. rewrite andb_true_r. reflexivity.
    - cbn [mark nth_error]. rewrite IH. destruct (nth_error l0 k); [|reflexivity]. cbn [option_map].
      do 2 f_equal. change (firstn (S (S k)) (s0 :: l0)) with (s0 :: firstn (S k) l0). cbn [forallb]. rewrite andb_assoc. reflexivity.
  Qed.

  Lemma marked_offsets : forall b l0 l, Forall2 marked (mark b l0) l ->
    map sec_generated_offset l = map sec_generated_offset l0.
  Proof.
    intros b l0. revert b. induction l0 as [|s0 l0 IH]; intros b l H; inv H; [reflexivity|]. cbn [map].
    match goal with X : marked _ _ |- _ => destruct X as [A _] end. cbn [snd] in A. f_equal; [exact A|]. eapply IH. eassumption.
  Qed.

  (** all answers, without a hypothesis on computed_column_spans *)
  Lemma ilived_alike : forall c0 qs qs', iopened md L U c0 -> calls_spans qs = calls_spans qs' ->
    same_ianswers md L U (ilived md L U c0 qs) (ilived md L U c0 qs').
  Proof.
    intros c0 qs qs' Ho E. destruct (marked_lived c0 qs Ho) as [A A']. destruct (marked_lived c0 qs' Ho) as [B B']. rewrite <- E in B.
    destruct (lived_refl md L U c0 Ho) as [_ [_ Hs]].
    apply near_ianswers; [exact A'|exact B'|eapply marked_meet; [exact A|exact B]|].
    clear - A Hs. revert A. generalize (calls_spans qs). generalize (sections_of L (ilived md L U c0 qs)).
    induction Hs as [|s0 l0 S Hs IH]; intros l b A; inv A; constructor; [|eapply IH; eassumption].
    match goal with X : marked _ _ |- _ => destruct X as [X1 _] end. cbn [snd] in X1. unfold sound_offset. rewrite X1. exact S.
  Qed.

  (** the section that answers *)
  Lemma selects_now : forall c g b, rc_flag (ic_sections c) = 0 ->
    in_reach (map sec_generated_offset (sections_of L c)) g -> StronglySorted pos_le (map sec_generated_offset (sections_of L c)) ->
    len (sections_of L c) < 2147483647 ->
    ((forall s, In s (sections_of L c) -> ~ before L g s)
       /\ answer (ic_original_position_for md L c g b) = Ok None)
    \/ (exists k s, selected L (sections_of L c) g k s
          /\ answer (ic_original_position_for md L c g b)
             = answer (bc_original_position_for md L (sec_consumer s) (relative_to L s g) b)).
  Proof.
    intros c g b Hf Hn2 Hs2 Hl2.
    destruct (search_selects md L _ _ Hn2 Hs2 Hl2) as [r [Er Hr]].
    destruct c as [j [n v]]. cbn in Hf. subst n. unfold sections_of in *. cbn [ic_sections rc_val] in *.
    unfold ic_original_position_for, rc_borrow. cbn [ic_sections rc_flag rc_val].
    change (0 <? 0) with false. cbn [bind rc_val]. rewrite Er. cbn [bind].
    unfold rc_release, rc_borrow_mut. cbn [rc_flag rc_val]. change (0 + 1 - 1 =? 0) with true. cbn [bind rc_val].
    destruct Hr as [[Hr Hnone]|[Hr [s0 Hsel]]].
    - left. split; [exact Hnone|]. subst r.
      replace (vec_get v (to_usize (-1))) with (@None (Section L)); [reflexivity|].
      symmetry. destruct (vec_get v (to_usize (-1))) eqn:E; [|reflexivity].
      apply vec_get_range in E. change (to_usize (-1)) with 18446744073709551615 in E. lia.
    - right. pose proof Hsel as [Hnth [Hb _]].
      assert (Hrl : r < len v).
      { unfold len. assert (Z.to_nat r < length v)%nat by (apply nth_error_Some; congruence). lia. }
      exists (Z.to_nat r), s0. split; [exact Hsel|].
      rewrite to_usize_small by lia. rewrite <- (Z2Nat.id r) at 1 by exact Hr. rewrite vec_get_nth, Hnth.
      destruct Hn2 as [G1 [G2 [R1 _]]].
      destruct (R1 _ (in_map sec_generated_offset _ _ (nth_error_In _ _ Hnth))) as [N1 [_ [N2 N3]]]. clear R1.
      unfold fits, i32_min, i32_max in *. change (2 ^ 31) with 2147483648 in *.
      rewrite (i32_sub_ok md (p_line (sec_generated_offset s0)) 1) by lia. cbn [bind].
      rewrite i32_sub_ok by lia. cbn [bind]. unfold relative_to.
      destruct (p_line (sec_generated_offset s0) =? p_line g) eqn:El.
      + destruct (N3 ltac:(lia)) as [M1 [_ M2]]. rewrite i32_sub_ok by lia. cbn [bind]. rewrite i32_sub_ok by lia. cbn [bind].
        destruct (bc_original_position_for _ _ _ _ _) as [[a bc]|p]; reflexivity.
      + cbn [bind]. rewrite i32_sub_ok by lia. cbn [bind]. rewrite Z.sub_0_r.
        destruct (bc_original_position_for _ _ _ _ _) as [[a bc]|p]; reflexivity.
  Qed.

  Lemma same_offset_nth : forall (l l0 : list Sec) n s, map sec_generated_offset l = map sec_generated_offset l0 ->
    nth_error l n = Some s -> exists s0, nth_error l0 n = Some s0 /\ sec_generated_offset s = sec_generated_offset s0.
  Proof.
    intros l l0 n s E H. assert (X : nth_error (map sec_generated_offset l0) n = Some (sec_generated_offset s)).
    { rewrite <- E. apply map_nth_error. exact H. }
    rewrite nth_error_map in X. destruct (nth_error l0 n) as [s0|]; [|discriminate]. cbn in X. inv X. eauto.
  Qed.

  Lemma passb_reach : forall url l secs k, Forall2 (section_opens md L U url) l secs ->
    (forallb passb (firstn k secs) = true <->
     forall s c1, In s (firstn k l) -> bc_from_source_map_json md L U (js_map s) url = Ok c1 ->
       exists d, bc_compute_column_spans L c1 = Ok d).
  Proof.
    intros url l secs k H. revert k. induction H as [|s sec l secs Ho H IH]; intros k; [destruct k; cbn; split; [intros _ s c1 []|auto|intros _ s c1 []|auto]|].
    destruct k as [|k]; [cbn; split; [intros _ ? ? []|auto]|]. cbn [firstn forallb]. rewrite andb_true_iff, IH. clear IH H.
    destruct Ho as [_ [_ Hcon]]. unfold passb. split.
    - intros [A B] s' c1 [<-|Hin] E; [|eapply B; eassumption]. rewrite Hcon in E. inv E.
      destruct (bc_compute_column_spans L (sec_consumer sec)) as [d|]; [eauto|discriminate].
    - intros X. split; [|intros s' c1 Hin E; eapply X; [right; exact Hin|exact E]].
      destruct (X s (sec_consumer sec) (or_introl eq_refl) Hcon) as [d ->]. reflexivity.
  Qed.

  Lemma lived_section : forall j url l c0 qs g b,
    smj_sections j = Some l -> Forall small_offset l -> len l < 2147483647 ->
    ic_from_source_map_json md L U (seq 0 (length l)) j url = Ok c0 ->
    in_reach (map start_of (map js_offset l)) g ->
    ((forall s, In s l -> ~ starts_before (js_offset s) g)
       /\ answer (ic_original_position_for md L (ilived md L U c0 qs) g b) = Ok None)
    \/ (exists k s c1 c2, nth_error l k = Some s /\ starts_before (js_offset s) g
          /\ (forall s', In s' l -> starts_before (js_offset s') g -> pos_le (js_offset s') (js_offset s))
          /\ (forall k' s', nth_error l k' = Some s' -> js_offset s' = js_offset s -> (k <= k')%nat)
          /\ bc_from_source_map_json md L U (js_map s) url = Ok c1
          /\ ((calls_spans qs = true /\ spans_reach md L U url l k /\ bc_compute_column_spans L c1 = Ok c2)
              \/ (~ (calls_spans qs = true /\ spans_reach md L U url l k) /\ c2 = c1))
          /\ answer (ic_original_position_for md L (ilived md L U c0 qs) g b)
             = answer (bc_original_position_for md L c2 (relative_position (js_offset s) g) b)).
  Proof.
    intros j url l c0 qs g b El Hsm Hlen H0 Hg.
    assert (H32 : Forall i32_offset l) by (eapply Forall_impl; [|exact Hsm]; intros s [A B]; unfold i32_offset; lia).
    assert (Hsmall : forall n s, nth_error l n = Some s -> small_offset s).
    { intros n s Hs. rewrite Forall_forall in Hsm. apply Hsm. eapply nth_error_In. exact Hs. }
    assert (Ho : iopened md L U c0).
    { exists (seq 0 (length l)), j, url, l. split; [exact El|]. split; [unfold schedule; reflexivity|]. split; [exact H32|exact H0]. }
    assert (Hop := H0). apply opening_in_order in Hop.
    2: { intros l0 E0. rewrite El in E0. inv E0. exact H32. }
    2: { intros l0 E0. rewrite El in E0. inv E0. reflexivity. }
    destruct Hop as [_ [l0 [secs [E0 [Hord [Hf Ec]]]]]]. rewrite El in E0. injection E0 as <-.
    assert (Hsecs : sections_of L c0 = secs) by (rewrite Ec; reflexivity).
    pose proof (Forall2_len _ _ _ _ _ Hf) as Hle.
    destruct (marked_lived c0 qs Ho) as [A A']. rewrite Hsecs in A. pose proof (marked_offsets _ _ _ A) as Eo.
    pose proof (f_equal (@length _) Eo) as Elen. rewrite !map_length in Elen.
    destruct (selects_now (ilived md L U c0 qs) g b A') as [[Hno Ha]|[k [sec [[S1 [S2 [S3 S4]]] Ha]]]].
    - rewrite Eo, (sections_start md L U _ _ _ Hf Hsm). exact Hg.
    - rewrite Eo. eapply sections_sorted; [exact Hf|exact Hsm|]. unfold in_order in Hord. inversion Hord; assumption.
    - unfold len in *. rewrite Elen, <- Hle. exact Hlen.
    - left. split; [|exact Ha]. intros s Hin Hb. apply In_nth_error in Hin. destruct Hin as [n Hs].
      destruct (Forall2_nth_l _ _ _ _ _ _ _ Hf Hs) as [sec [Hsec Hso]].
      destruct (same_offset_nth _ _ _ _ (eq_sym Eo) Hsec) as [t [Ht Et]].
      apply (Hno t); [eapply nth_error_In; exact Ht|]. unfold before. rewrite <- Et.
      apply (before_starts md L U _ _ _ g Hso (Hsmall _ _ Hs)). exact Hb.
    - right. destruct (Forall2_nth_r _ _ _ _ _ _ _ A S1) as [[fl s0] [Hm Hl]]. rewrite mark_nth in Hm.
      destruct (nth_error secs k) as [s0'|] eqn:Es0; [|discriminate]. cbn [option_map] in Hm. injection Hm as <- <-. rename s0' into s0.
      destruct Hl as [L1 [L2 [L3 [d [L4 [L5 L6]]]]]]. cbn [fst snd] in *.
      destruct (Forall2_nth_r _ _ _ _ _ _ _ Hf Es0) as [s [Hs Hso]].
      pose proof Hso as [_ [Hoff Hcon]]. apply (proj1 (plus_one_small md s _ (Hsmall _ _ Hs))) in Hoff.
      exists k, s, (sec_consumer s0), d. split; [exact Hs|].
      split; [apply (before_starts md L U _ _ _ g Hso (Hsmall _ _ Hs)); unfold before in *; rewrite <- L1; exact S2|].
      split; [|split].
      + intros s' Hin Hb. apply In_nth_error in Hin. destruct Hin as [n Hs'].
        destruct (Forall2_nth_l _ _ _ _ _ _ _ Hf Hs') as [sec' [Hsec' Hso']].
        destruct (same_offset_nth _ _ _ _ (eq_sym Eo) Hsec') as [t [Ht Et]].
        assert (Bt : before L g t) by (unfold before; rewrite <- Et; exact (proj2 (before_starts md L U _ _ _ g Hso' (Hsmall _ _ Hs')) Hb)).
        specialize (S3 t (nth_error_In _ _ Ht) Bt). rewrite <- Et, L1 in S3.
        destruct Hso' as [_ [Hoff' _]]. apply (proj1 (plus_one_small md s' _ (Hsmall _ _ Hs'))) in Hoff'. rewrite Hoff, Hoff' in S3. unfold pos_le in *. cbn in S3. lia.
      + intros k' s' Hk Heq. destruct (Forall2_nth_l _ _ _ _ _ _ _ Hf Hk) as [sec' [Hsec' [_ [Hoff' _]]]].
        apply (proj1 (plus_one_small md s' _ (Hsmall _ _ Hk))) in Hoff'.
        destruct (same_offset_nth _ _ _ _ (eq_sym Eo) Hsec') as [t [Ht Et]].
        apply (S4 k' t Ht). rewrite <- Et, L1, Hoff, Hoff', Heq. reflexivity.
      + split; [exact Hcon|].
        assert (Ans : answer (ic_original_position_for md L (ilived md L U c0 qs) g b)
          = answer (bc_original_position_for md L d (relative_position (js_offset s) g) b)).
        { rewrite Ha, (agree_answer L _ _ _ (near_original md L _ _ (relative_to L sec g) b L6)). f_equal. f_equal.
          unfold relative_to, relative_position. rewrite L1, Hoff. cbn [p_line p_column]. f_equal.
          * lia.
          * destruct (p_line (js_offset s) + 1 =? p_line g); lia. }
        split; [|exact Ans]. pose proof (passb_reach url l secs (S k) Hf) as PR. fold (spans_reach md L U url l k) in PR.
        change (asked md L U (sec_consumer s0) (spans_once (calls_spans qs && forallb passb (firstn (S k) secs))) = Ok d) in L4.
        destruct (calls_spans qs && forallb passb (firstn (S k) secs)) eqn:Eb.
        * apply andb_true_iff in Eb. destruct Eb as [B1 B2]. left. split; [exact B1|]. split; [apply PR; exact B2|].
          cbn [spans_once asked ask] in L4.
          destruct (bc_compute_column_spans L (sec_consumer s0)); cbn [bind] in L4; [exact L4|congruence].
        * right. split; [|cbn [spans_once asked] in L4; inversion L4; reflexivity].
          intros [B1 B2]. apply PR in B2. rewrite B1, B2 in Eb. discriminate.
  Qed.
End Spans.

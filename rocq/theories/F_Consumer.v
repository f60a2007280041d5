(** * BasicConsumer: invariants over histories, lookups *)
From Verif Require Import F_Base M_ArraySet M_Mapping M_Util M_SourceMap M_Generator M_Json M_MapLib
  M_Consumer S_List S_MapLib S_Consumer F_ArraySet.
From Coq Require Import Sorting.Sorted Sorting.Permutation.

Section Consumer.
  Context (md : mode) (L : MapLib) (U : UrlLib).
  Notation BC := (BasicConsumer L).

  Record fresh (c : BC) : Prop := {
    fr_cache : bc_source_lookup_cache c = [];
    fr_mappings : bc_mappings c = None;
    fr_spans : bc_computed_column_spans c = false;
    fr_sources : as_inv (bc_absolute_sources c) }.

  Lemma abs_inv : forall j url a, compute_absolute_sources md U j url = Ok a -> as_inv a.
  Proof.
    intros j url a H. unfold compute_absolute_sources in H. bind_inv H. bind_inv H. inv H.
    apply as_from_array_inv.
  Qed.

  Lemma opened_fresh : forall c, opened md L U c -> fresh c.
  Proof.
    intros c [[s [url H]]|[j [url H]]].
    - unfold bc_new in H. bind_inv H. bind_inv H. inv H. constructor; cbn; try reflexivity. eapply abs_inv; eassumption.
    - unfold bc_from_source_map_json in H. bind_inv H. inv H. constructor; cbn; try reflexivity. eapply abs_inv; eassumption.
  Qed.

  (** what a history leaves alone, and what it keeps true *)
  Record follows (c0 c : BC) : Prop := {
    fo_map : bc_source_map c = bc_source_map c0;
    fo_sources : bc_absolute_sources c = bc_absolute_sources c0;
    fo_url : bc_source_map_url c = bc_source_map_url c0;
    fo_cache : forall k i, hm_get k (bc_source_lookup_cache c) = Some i ->
      exists c', bc_find_source_index md L U c0 k = Ok (Some i, c');
    fo_state : match bc_mappings c with
               | None => bc_computed_column_spans c = false
               | Some t => exists s, smj_mappings (bc_source_map c0) = Some s
                                     /\ lib_state L s (bc_computed_column_spans c) t
               end }.

  Lemma follows_refl : forall c, fresh c -> follows c c.
  Proof.
    intros c [H1 H2 H3 H4]. constructor; try reflexivity.
    - rewrite H1. intros k i H. discriminate.
    - rewrite H2. exact H3.
  Qed.

  Lemma find_follows : forall c0 c src r c', fresh c0 -> follows c0 c ->
    bc_find_source_index md L U c src = Ok (r, c') ->
    follows c0 c' /\ bc_mappings c' = bc_mappings c
    /\ bc_computed_column_spans c' = bc_computed_column_spans c.
  Proof.
    intros c0 c src r c' Hf Ho H. unfold bc_find_source_index in H.
    destruct (hm_get src (bc_source_lookup_cache c)) as [i|] eqn:Ec; [inv H; auto|].
    assert (Hins : forall i, (exists c1, bc_find_source_index md L U c0 src = Ok (Some i, c1)) ->
      follows c0 (bc_cache_insert L c src i)).
    { intros i Hi. destruct Ho as [F1 F2 F3 F4 F5].
      unfold bc_cache_insert. constructor; cbn [bc_source_map bc_source_lookup_cache bc_absolute_sources
        bc_source_map_url bc_mappings bc_computed_column_spans]; try assumption.
      intros k v Hk. destruct (str_eq_dec k src) as [->|Hn].
      - rewrite hm_get_insert_same in Hk. inv Hk. exact Hi.
      - rewrite hm_get_insert_other in Hk by exact Hn. exact (F4 _ _ Hk). }
    assert (H0 : bc_find_source_index md L U c0 src =
      let* source_as_map_relative := compute_source_url md U None src (bc_source_map_url c) in
        if as_has (bc_absolute_sources c) source_as_map_relative then
          let* index := unwrap (as_index_of (bc_absolute_sources c) source_as_map_relative) in
          Ok (Some (to_i32 index), bc_cache_insert L c0 src (to_i32 index))
        else
          let* source_as_source_root_relative :=
            compute_source_url md U (smj_source_root (bc_source_map c)) src (bc_source_map_url c) in
          if as_has (bc_absolute_sources c) source_as_source_root_relative then
            let* index := unwrap (as_index_of (bc_absolute_sources c) source_as_source_root_relative) in
            Ok (Some (to_i32 index), bc_cache_insert L c0 src (to_i32 index))
          else Ok (None, c0)).
    { unfold bc_find_source_index. rewrite (fr_cache _ Hf). cbn [hm_get].
      rewrite (fo_map _ _ Ho), (fo_sources _ _ Ho), (fo_url _ _ Ho). reflexivity. }
    destruct (compute_source_url md U None src (bc_source_map_url c)) as [u|p]; cbn [bind] in H, H0; [|discriminate].
    destruct (as_has (bc_absolute_sources c) u).
    - destruct (unwrap _) as [i|p]; cbn [bind] in H, H0; [|discriminate]. inv H.
      split; [apply Hins; eauto | split; reflexivity].
    - destruct (compute_source_url md U (smj_source_root (bc_source_map c)) src (bc_source_map_url c)) as [u'|p];
        cbn [bind] in H, H0; [|discriminate].
      destruct (as_has (bc_absolute_sources c) u').
      + destruct (unwrap _) as [i|p]; cbn [bind] in H, H0; [|discriminate]. inv H.
        split; [apply Hins; eauto | split; reflexivity].
      + inv H. auto.
  Qed.

  (** *** The index found *)
  Lemma find_spec : forall c0 c src, fresh c0 -> follows c0 c -> len (bc_get_sources L c) < 2^31 ->
    answer (bc_find_source_index md L U c src)
    = match source_lookup md L U c src with
      | Ok r => Ok (option_map Z.of_nat r)
      | Panic p => Panic p
      end.
  Proof.
    assert (Hin : forall a u, as_inv a -> len (as_array a) < 2^31 -> as_has a u = true ->
      exists n, first_index u (as_array a) = Some n /\ unwrap (as_index_of a u) = Ok (Z.of_nat n)
        /\ to_i32 (Z.of_nat n) = Z.of_nat n).
    { intros a u Ha Hl Hh. rewrite (as_has_iff a Ha) in Hh. apply mem_In in Hh.
      destruct (first_index_In _ _ Hh) as [n En]. exists n. split; [exact En|].
      assert (E : as_index_of a u = Some (Z.of_nat n)).
      { unfold as_index_of. destruct Ha as [Ha _]. rewrite Ha, En. reflexivity. }
      rewrite E. split; [reflexivity|]. destruct (first_index_some _ _ _ En) as [Hn _].
      apply to_i32_id. assert (Hlt : (n < length (as_array a))%nat) by (apply nth_error_Some; congruence).
      unfold len in Hl. change (2^31) with 2147483648 in Hl. lia. }
    assert (Hout : forall a u, as_inv a -> as_has a u = false -> first_index u (as_array a) = None).
    { intros a u Ha Hh. rewrite (as_has_iff a Ha) in Hh. apply mem_false in Hh. apply first_index_none. exact Hh. }
    assert (Hfresh : forall c src, hm_get src (bc_source_lookup_cache c) = None ->
      as_inv (bc_absolute_sources c) -> len (bc_get_sources L c) < 2^31 ->
      answer (bc_find_source_index md L U c src)
      = match source_lookup md L U c src with Ok r => Ok (option_map Z.of_nat r) | Panic p => Panic p end).
    { intros c src Hc Ha Hl. unfold bc_find_source_index, source_lookup, index_of_source. rewrite Hc.
      unfold bc_get_sources, as_to_vec in *.
      destruct (compute_source_url md U None src (bc_source_map_url c)) as [u|p]; cbn [bind]; [|reflexivity].
      destruct (as_has (bc_absolute_sources c) u) eqn:Eh.
      - destruct (Hin _ _ Ha Hl Eh) as [n [-> [-> E2]]]. cbn. rewrite E2. reflexivity.
      - rewrite (Hout _ _ Ha Eh).
        destruct (compute_source_url md U (smj_source_root (bc_source_map c)) src (bc_source_map_url c)) as [u'|p];
          cbn [bind]; [|reflexivity].
        destruct (as_has (bc_absolute_sources c) u') eqn:Eh'.
        + destruct (Hin _ _ Ha Hl Eh') as [n [-> [-> E2]]]. cbn. rewrite E2. reflexivity.
        + rewrite (Hout _ _ Ha Eh'). reflexivity. }
    intros c0 c src Hf Ho Hl.
    assert (Ha : as_inv (bc_absolute_sources c)) by (rewrite (fo_sources _ _ Ho); apply fr_sources; exact Hf).
    destruct (hm_get src (bc_source_lookup_cache c)) as [i|] eqn:Ec; [|apply Hfresh; assumption].
    destruct (fo_cache _ _ Ho _ _ Ec) as [c' Hc'].
    assert (Hl0 : len (bc_get_sources L c0) < 2^31).
    { unfold bc_get_sources in *. rewrite <- (fo_sources _ _ Ho). exact Hl. }
    pose proof (Hfresh c0 src) as H0. rewrite (fr_cache _ Hf) in H0.
    specialize (H0 eq_refl (fr_sources _ Hf) Hl0). rewrite Hc' in H0.
    unfold bc_find_source_index at 1. rewrite Ec. cbn [answer] in *. rewrite H0.
    unfold source_lookup, bc_get_sources. rewrite (fo_map _ _ Ho), (fo_sources _ _ Ho), (fo_url _ _ Ho). reflexivity.
  Qed.

  Lemma lookup_follows : forall c0 c src, follows c0 c ->
    source_lookup md L U c src = source_lookup md L U c0 src.
  Proof.
    intros c0 c src Ho. unfold source_lookup, bc_get_sources.
    rewrite (fo_map _ _ Ho), (fo_sources _ _ Ho), (fo_url _ _ Ho). reflexivity.
  Qed.

  Lemma lookup_bound : forall c src i, source_lookup md L U c src = Ok (Some i) ->
    exists u, nth_error (bc_get_sources L c) i = Some u.
  Proof.
    intros c src i H. unfold source_lookup, index_of_source in H. bind_inv H.
    destruct (first_index x (bc_get_sources L c)) as [n|] eqn:E.
    - inv H. exists x. exact (proj1 (first_index_some _ _ _ E)).
    - bind_inv H. injection H as H. exists x0. exact (proj1 (first_index_some _ _ _ H)).
  Qed.

  (** *** The library state *)
  Lemma set_follows : forall c0 c t s, follows c0 c -> smj_mappings (bc_source_map c0) = Some s ->
    lib_state L s (bc_computed_column_spans c) t -> follows c0 (bc_set_mappings L c (Some t)).
  Proof.
    intros c0 c t s [F1 F2 F3 F4 F5] Es Ht. constructor; cbn; try assumption. exists s. split; assumption.
  Qed.

  (** the mappings of [c], parsed now if need be *)
  Lemma ensure_ok : forall c0 c t c', follows c0 c -> bc_ensure_mappings L c = Ok (t, c') ->
    exists s, smj_mappings (bc_source_map c0) = Some s /\ lib_state L s (bc_computed_column_spans c) t
      /\ c' = bc_set_mappings L c (Some t) /\ (bc_mappings c = None -> lm_parse L s = Some t)
      /\ (forall t', bc_mappings c = Some t' -> t' = t).
  Proof.
    intros c0 c t c' Ho H. unfold bc_ensure_mappings in H. pose proof (fo_state _ _ Ho) as Hs.
    destruct (bc_mappings c) as [t0|] eqn:Em.
    - cbn [bind] in H. rewrite Em in H. cbn in H. inv H. destruct Hs as [s [E1 E2]]. exists s.
      split; [exact E1|]. split; [exact E2|]. split; [|split; [discriminate | intros t' E; congruence]].
      destruct c'; cbn in *. subst. reflexivity.
    - unfold bc_parse_mappings in H. rewrite (fo_map _ _ Ho) in H.
      destruct (smj_mappings (bc_source_map c0)) as [s|]; cbn [unwrap bind] in H; [|discriminate].
      destruct (lm_parse L s) as [t1|] eqn:Ep; cbn [unwrap bind bc_set_mappings bc_mappings] in H; [|discriminate].
      inv H. exists s. split; [reflexivity|]. rewrite Hs. split; [apply ls_parse; exact Ep|].
      split; [reflexivity|]. split; [intros _; exact Ep | discriminate].
  Qed.

  Lemma ensure_readable : forall c0 c, follows c0 c -> readable L (bc_source_map c0) ->
    exists t, bc_ensure_mappings L c = Ok (t, bc_set_mappings L c (Some t)).
  Proof.
    intros c0 c Ho [s [t [Es Et]]]. unfold bc_ensure_mappings. destruct (bc_mappings c) as [t0|] eqn:Em.
    - exists t0. cbn [bind]. rewrite Em. cbn. destruct c; cbn in *. subst. reflexivity.
    - exists t. unfold bc_parse_mappings. rewrite (fo_map _ _ Ho), Es. cbn [unwrap bind]. rewrite Et. reflexivity.
  Qed.

  Lemma ensure_unreadable : forall c0 c, follows c0 c -> ~ readable L (bc_source_map c0) ->
    bc_ensure_mappings L c = Panic PUnwrapNone /\ bc_mappings c = None.
  Proof.
    intros c0 c Ho Hn. unfold bc_ensure_mappings. pose proof (fo_state _ _ Ho) as Hs.
    destruct (bc_mappings c) as [t0|] eqn:Em.
    - exfalso. apply Hn. destruct Hs as [s [E1 E2]]. clear Em.
      induction E2 as [t1 E2| | | |]; try assumption. exists s, t1. split; assumption.
    - split; [|reflexivity]. unfold bc_parse_mappings. rewrite (fo_map _ _ Ho).
      destruct (smj_mappings (bc_source_map c0)) as [s|] eqn:Es; cbn [unwrap bind]; [|reflexivity].
      destruct (lm_parse L s) as [t|] eqn:Et; [|reflexivity].
      exfalso. apply Hn. exists s, t. split; assumption.
  Qed.

  (** *** Every call keeps the invariant *)
  Lemma ensure_follows : forall c0 c t c', follows c0 c -> bc_ensure_mappings L c = Ok (t, c') -> follows c0 c'.
  Proof.
    intros c0 c t c' Ho H. destruct (ensure_ok _ _ _ _ Ho H) as [s [E1 [E2 [-> _]]]].
    eapply set_follows; eassumption.
  Qed.

  Lemma state_ok : forall A (r : res (A * BC)) c, state L r = Ok c -> exists a, r = Ok (a, c).
  Proof. intros A [[a c1]|p] c H; cbn in H; inv H. eauto. Qed.

  Lemma ask_follows : forall c0 c q c', fresh c0 -> follows c0 c -> ask md L U c q = Ok c' ->
    follows c0 c'
    /\ bc_computed_column_spans c' = match q with QSpans => true | _ => bc_computed_column_spans c end.
  Proof.
    intros c0 c q c' Hf Ho H. destruct q as [g b|src l co b|src l co| |src p|o]; cbn [ask] in H.
    - apply state_ok in H. destruct H as [a H]. unfold bc_original_position_for in H.
      destruct (p_line g <? 1); [discriminate|]. destruct (p_column g <? 0); [discriminate|].
      destruct (bc_ensure_mappings L c) as [[t c1]|p] eqn:E; cbn [bind] in H; [|discriminate].
      destruct (i32_sub md (p_line g) 1) as [l|p]; cbn [bind] in H; [|discriminate].
      assert (Hc : c' = c1).
      { destruct (lm_original_for L t (to_u32 l) (to_u32 (p_column g)) _) as [m|]; [|inv H; reflexivity].
        destruct (to_i32 (rm_line m) =? p_line g); [|inv H; reflexivity].
        destruct (option_map_res _ _) as [r|]; cbn [bind] in H; [inv H; reflexivity | discriminate]. }
      subst c'. split; [eapply ensure_follows; eassumption|].
      destruct (ensure_ok _ _ _ _ Ho E) as [s [_ [_ [-> _]]]]. reflexivity.
    - apply state_ok in H. destruct H as [a H]. unfold bc_generated_position_for in H.
      destruct (bc_find_source_index md L U c src) as [[i c1]|p] eqn:Ef; cbn [bind] in H; [|discriminate].
      destruct (find_follows _ _ _ _ _ Hf Ho Ef) as [Ho1 [_ Hc1]].
      destruct i as [i|]; [|inv H; auto].
      destruct (l <? 1); [discriminate|]. destruct (co <? 0); [discriminate|].
      destruct (bc_ensure_mappings L c1) as [[t c2]|p] eqn:E; cbn [bind] in H; [|discriminate].
      destruct (ensure_ok _ _ _ _ Ho1 E) as [s [E1 [E2 [-> _]]]].
      destruct (i32_sub md l 1) as [l'|p]; cbn [bind] in H; [|discriminate].
      destruct (lm_generated_for L t (to_u32 i) (to_u32 l') (to_u32 co) _) as [found t2] eqn:Eg.
      assert (Ht2 : lib_state L s (bc_computed_column_spans c1) t2).
      { change t2 with (snd (found, t2)). rewrite <- Eg. apply ls_generated_for. exact E2. }
      assert (Hc : c' = bc_set_mappings L (bc_set_mappings L c1 (Some t)) (Some t2)).
      { destruct found as [m|]; [|inv H; reflexivity].
        destruct (unwrap (rm_original m)) as [o|p]; cbn [bind] in H; [|discriminate].
        destruct (to_i32 (ol_source o) =? i); [|inv H; reflexivity].
        destruct (bc_generated_answer _ _ _ _ _) as [r|]; cbn [bind] in H; [inv H; reflexivity | discriminate]. }
      subst c'. split; [|exact Hc1]. eapply set_follows; [eapply set_follows; eassumption | eassumption | exact Ht2].
    - apply state_ok in H. destruct H as [a H]. unfold bc_all_generated_position_for in H.
      destruct (bc_find_source_index md L U c src) as [[i c1]|p] eqn:Ef; cbn [bind] in H; [|discriminate].
      destruct (find_follows _ _ _ _ _ Hf Ho Ef) as [Ho1 [_ Hc1]].
      destruct i as [i|]; [|inv H; auto]. destruct (i <? 0); [inv H; auto|].
      destruct (l <? 1); [discriminate|]. destruct (_ <? 0) in H; [discriminate|].
      destruct (bc_ensure_mappings L c1) as [[t c2]|p] eqn:E; cbn [bind] in H; [|discriminate].
      destruct (ensure_ok _ _ _ _ Ho1 E) as [s [E1 [E2 [-> _]]]].
      destruct (lm_all_generated L t _ _ _) as [found t2] eqn:Eg. inv H.
      assert (Ht2 : lib_state L s (bc_computed_column_spans c1) t2).
      { change t2 with (snd (a, t2)). rewrite <- Eg. apply ls_all_generated. exact E2. }
      split; [|exact Hc1]. eapply set_follows; [eapply set_follows; eassumption | eassumption | exact Ht2].
    - unfold bc_compute_column_spans in H. destruct (bc_computed_column_spans c) eqn:Ec; [inv H; auto|].
      destruct (bc_ensure_mappings L c) as [[t c1]|p] eqn:E; cbn [bind] in H; [|discriminate].
      destruct (ensure_ok _ _ _ _ Ho E) as [s [E1 [E2 [-> _]]]]. inv H. split; [|reflexivity].
      destruct Ho as [F1 F2 F3 F4 F5]. constructor; cbn; try assumption. exists s. split; [exact E1|].
      eapply ls_spans. exact E2.
    - apply state_ok in H. destruct H as [a H]. unfold bc_source_content_for in H.
      destruct (smj_sources_content (bc_source_map c)) as [sc|]; [|inv H; auto].
      destruct (bc_find_source_index md L U c src) as [[i c1]|p'] eqn:Ef; cbn [bind] in H; [|discriminate].
      destruct (find_follows _ _ _ _ _ Hf Ho Ef) as [Ho1 [_ Hc1]].
      destruct i as [i|].
      + destruct (vec_index sc (to_usize i)) as [r|]; cbn [bind] in H; [inv H; auto | discriminate].
      + destruct (match p with Some b => b | None => true end); [discriminate | inv H; auto].
    - apply state_ok in H. destruct H as [a H]. unfold bc_each_mapping in H.
      assert (Hst : forall t, (let* r := match bc_mappings c with Some m => Ok (Some m) | None => bc_parse_mappings L c end in Ok r)
          = Ok (Some t) -> exists s, smj_mappings (bc_source_map c0) = Some s /\ lib_state L s (bc_computed_column_spans c) t).
      { intros t Ht. pose proof (fo_state _ _ Ho) as Hs. destruct (bc_mappings c) as [t0|].
        - cbn in Ht. inv Ht. exact Hs.
        - unfold bc_parse_mappings in Ht. rewrite (fo_map _ _ Ho) in Ht.
          destruct (smj_mappings (bc_source_map c0)) as [s|]; cbn in Ht; [|discriminate].
          exists s. split; [reflexivity|]. rewrite Hs. apply ls_parse. congruence. }
      destruct (match bc_mappings c with Some m => Ok (Some m) | None => bc_parse_mappings L c end) as [[t|]|p];
        cbn [bind] in H; [|inv H; auto|discriminate].
      destruct (Hst t eq_refl) as [s [E1 E2]]. destruct o.
      + inv H. split; [eapply set_follows; eassumption | reflexivity].
      + destruct (lm_by_original L t) as [l t2] eqn:Eb. inv H. split; [|reflexivity].
        eapply set_follows; [eassumption | eassumption|]. change t2 with (snd (a, t2)). rewrite <- Eb.
        apply ls_by_original. exact E2.
  Qed.

  Lemma asked_follows : forall c0 qs c c', fresh c0 -> follows c0 c -> asked md L U c qs = Ok c' -> follows c0 c'.
  Proof.
    intros c0. induction qs as [|q qs IH]; intros c c' Hf Ho H; cbn in H; [inv H; exact Ho|].
    bind_inv H. destruct (ask_follows _ _ _ _ Hf Ho H0) as [H1 _]. eapply IH; eassumption.
  Qed.

  Lemma asked_spans : forall c0 qs c c', fresh c0 -> follows c0 c -> asked md L U c qs = Ok c' ->
    (bc_computed_column_spans c' = true <-> bc_computed_column_spans c = true \/ In QSpans qs).
  Proof.
    intros c0. induction qs as [|q qs IH]; intros c c' Hf Ho H; cbn in H; [inv H; cbn; tauto|].
    bind_inv H. destruct (ask_follows _ _ _ _ Hf Ho H0) as [H1 H2].
    rewrite (IH _ _ Hf H1 H). rewrite H2. cbn. destruct q; split; intros [X|X]; auto; try (destruct X; [discriminate|auto]).
  Qed.

  (** the form used by the theorems *)
  Lemma history : forall c0 qs c, opened md L U c0 -> asked md L U c0 qs = Ok c ->
    fresh c0 /\ follows c0 c.
  Proof.
    intros c0 qs c Ho H. pose proof (opened_fresh _ Ho) as Hf. split; [exact Hf|].
    eapply asked_follows; [exact Hf | apply follows_refl; exact Hf | exact H].
  Qed.
End Consumer.

(** * Indexed maps of generator outputs: C73, C74 *)
From Verif Require Import F_Base M_ArraySet M_Mapping M_Util M_SourceMap M_Generator M_Json M_MapLib
  M_Consumer M_Indexed S_List S_Vlq S_Decode S_Mapping S_Generator S_Contents S_Json S_MapLib S_Consumer S_EndToEnd
  S_Indexed S_Bundle
  F_ArraySet F_MappingList F_Generator F_GeneratorProps F_Contents F_Consumer F_ConsumerProps F_EndToEnd F_Queries
  F_Indexed F_IndexedProps.
From Coq Require Import Sorting.Sorted Sorting.Permutation.

Lemma Forall2_In_l : forall A B (R : A -> B -> Prop) l l' a, Forall2 R l l' -> In a l -> exists b, In b l' /\ R a b.
Proof.
  intros A B R l l' a H. induction H; cbn; intros Hi; [contradiction|]. destruct Hi as [->|Hi]; [eauto|].
  destruct (IHForall2 Hi) as [b [? ?]]. eauto.
Qed.

Lemma renamed_same : forall key ops, (forall f, key f = f) -> renamed key ops = ops.
Proof.
  intros key ops H. induction ops as [|op ops IH]; [reflexivity|]. destruct op; cbn; rewrite ?H, IH; reflexivity.
Qed.

Lemma present_full : forall A (xs : list (option A)),
  (length xs <= length (present xs))%nat <-> (forall x, In x xs -> x <> None).
Proof.
  intros A. induction xs as [|[x|] xs IH]; cbn.
  - split; [intros _ x [] | lia].
  - rewrite <- Nat.succ_le_mono, IH. split.
    + intros H y [<-|Hy]; [discriminate | auto].
    + intros H y Hy. apply H. right. exact Hy.
  - pose proof (F_Generator.present_length _ xs). split; [lia|]. intros Hx. exfalso. apply (Hx None); auto.
Qed.

Lemma last_content_named : forall k ops now,
  last_content k ops now = now \/ In k (map (fun op => match op with GContent s _ => s | _ => [] end) ops).
Proof.
  intros k. induction ops as [|op ops IH]; intros now; [left; reflexivity|]. destruct op as [m|s t|]; cbn.
  - destruct (IH now); auto.
  - destruct (str_eqb k s) eqn:E; [apply str_eqb_eq in E; auto|]. destruct (IH now); auto.
  - destruct (IH now); auto.
Qed.

Lemma text_or_not : forall key ops, some_text key ops \/ ~ some_text key ops.
Proof.
  intros key ops. unfold some_text. generalize (renamed key ops). clear. intros l.
  set (ks := map (fun op => match op with GContent s _ => s | _ => [] end) l).
  destruct (existsb (fun k => is_some (last_content k l None)) ks) eqn:E.
  - left. apply existsb_exists in E. destruct E as [k [_ E]]. exists k. intros X. rewrite X in E. discriminate.
  - right. intros [k Hk]. destruct (last_content_named k l None) as [X|X]; [exact (Hk X)|]. fold ks in X.
    enough (Y : existsb (fun k => is_some (last_content k l None)) ks = true) by congruence.
    apply existsb_exists. exists k. split; [exact X|]. destruct (last_content k l None); [reflexivity | congruence].
Qed.

Section Bundle.
  Context (md : mode) (L : MapLib) (U : UrlLib).

  (** contents with and without a root *)
  Lemma contents_keyed : forall file root skip ops g j g' key,
    gen_run md U (gen_new file root skip) ops = Ok g -> gen_as_json md U g = Ok (j, g') -> keyed md U root key ->
    smj_sources j = Some (source_names ops)
    /\ (~ some_text key ops -> smj_sources_content j = None)
    /\ (some_text key ops -> smj_sources_content j = Some (present (map (text_of key ops) (source_names ops)))).
  Proof.
    intros file root skip ops g j g' key Eg Ej Hk.
    destruct (generate_arrays md U file root skip ops g j g' Eg Ej) as [_ [Esrc _]]. fold (source_names ops) in Esrc.
    split; [exact Esrc|].
    assert (Hno : ~ some_text key ops -> forall k, last_content k (renamed key ops) None = None).
    { intros H k. destruct (last_content k (renamed key ops) None) as [t|] eqn:E; [|reflexivity].
      exfalso. apply H. exists k. congruence. }
    destruct root as [r|]; cbn in Hk.
    - destruct (contents_by_key _ _ _ _ _ _ _ _ _ _ Eg Ej Hk) as [srcs [Es [_ [H1 H2]]]].
      assert (srcs = source_names ops) by congruence. subst srcs. split; [intros H; apply H1, Hno, H|].
      intros H. apply (H2 H).
    - destruct (generate_contents _ _ _ _ _ _ _ _ Eg Ej) as [srcs [Es [H1 H2]]].
      assert (srcs = source_names ops) by congruence. subst srcs.
      unfold some_text, text_of in *. rewrite (renamed_same _ _ Hk) in *. split; [intros H; apply H1, Hno, H|].
      intros H. rewrite (H2 H). do 2 f_equal. apply map_ext. intros f. rewrite Hk. reflexivity.
  Qed.

  Lemma has_contents_json : forall file root skip ops g j g' key c,
    gen_run md U (gen_new file root skip) ops = Ok g -> gen_as_json md U g = Ok (j, g') -> keyed md U root key ->
    bc_source_map c = j ->
    exists b, bc_has_contents_of_all_sources L c = Ok b
      /\ (b = true <-> some_text key ops /\ forall s, In s (source_names ops) -> text_of key ops s <> None).
  Proof.
    intros file root skip ops g j g' key c Eg Ej Hk Hc.
    destruct (contents_keyed _ _ _ _ _ _ _ _ Eg Ej Hk) as [Es [H1 H2]].
    unfold bc_has_contents_of_all_sources. rewrite Hc, Es.
    destruct (smj_sources_content j) as [sc|] eqn:Ec; cbn [unwrap bind].
    - assert (S : ~ ~ some_text key ops) by (intros X; specialize (H1 X); discriminate).
      exists (len (source_names ops) <=? len sc). split; [reflexivity|].
      assert (X : some_text key ops -> len (source_names ops) <= len sc
                  <-> (forall s, In s (source_names ops) -> text_of key ops s <> None)).
      { intros Ht. specialize (H2 Ht). injection H2 as ->. unfold len.
        pose proof (present_full _ (map (text_of key ops) (source_names ops))) as P. rewrite map_length in P.
        rewrite <- Nat2Z.inj_le, P. split.
        - intros H s Hs. apply H. apply in_map. exact Hs.
        - intros H x Hx. apply in_map_iff in Hx. destruct Hx as [s [<- Hs]]. apply H. exact Hs. }
      rewrite Z.leb_le. split; [|intros [A B]; apply (X A); exact B].
      intros Hle.
      assert (D : some_text key ops \/ ~ some_text key ops) by apply text_or_not.
      destruct D as [D|D]; [|contradiction]. split; [exact D | apply (X D); exact Hle].
    - exists false. split; [reflexivity|]. split; [discriminate|]. intros [A _]. specialize (H2 A). discriminate.
  Qed.

  (** ** Sections *)
  Lemma section_opened : forall p s url c, section_of md U p s ->
    bc_from_source_map_json md L U (js_map s) url = Ok c ->
    exists g, gen_run md U (gen_new (pt_file p) (pt_root p) (pt_skip p)) (pt_ops p) = Ok g
      /\ opened_on md L U g url c None.
  Proof.
    intros p s url c [_ [g [g' [Eg Ej]]]] Hc. exists g. split; [exact Eg|]. right.
    destruct (as_json_shape _ _ _ _ _ Ej) as [Hv Hs].
    exists g', (smj_to_string (js_map s)), []. split; [unfold gen_as_string; rewrite Ej; reflexivity|].
    split; [|reflexivity]. unfold create_consumer. rewrite (reopen _ Hv Hs), Hs. cbn [is_some]. rewrite Hc. reflexivity.
  Qed.

  Lemma bundle_opened : forall parts url c, opened_bundle md L U parts url c ->
    exists j l, smj_sections j = Some l /\ Forall2 (section_of md U) parts l
      /\ ic_from_source_map_json md L U (seq 0 (length l)) j url = Ok c.
  Proof.
    intros parts url c [j [l [Es [Hf H]]]]. exists j, l. split; [exact Es|]. split; [exact Hf|].
    destruct H as [H|[s [Ej H]]]; [exact H|]. unfold create_consumer in H. rewrite Ej, Es in H. cbn [is_some] in H.
    destruct (ic_from_source_map_json _ _ _ _ _ _) as [c1|p]; [|discriminate]. cbn in H. congruence.
  Qed.

  Lemma bundle_sections : forall parts url c, opened_bundle md L U parts url c -> Forall small_part parts ->
    iopened md L U c /\ exists secs, sections_of L c = secs
      /\ Forall2 (fun p sec => exists s, section_of md U p s /\ section_opens md L U url s sec) parts secs.
  Proof.
    intros parts url c H Hsm. destruct (bundle_opened _ _ _ H) as [j [l [Es [Hf H0]]]].
    assert (Hso : Forall small_offset l).
    { clear - Hf Hsm. induction Hf as [|p s parts l [E _] Hf IH]; [constructor|]. inversion Hsm as [|? ? S1 S2]; subst.
      constructor; [|apply IH; exact S2]. unfold small_offset. rewrite E. exact S1. }
    split.
    { exists (seq 0 (length l)), j, url, l. split; [exact Es|]. split; [unfold schedule; reflexivity|]. split; [|exact H0].
      eapply Forall_impl; [|exact Hso]. intros s [A B]. unfold i32_offset. lia. }
    apply opening_in_order in H0.
    2: { intros l0 E0. rewrite Es in E0. inv E0. eapply Forall_impl; [|exact Hso]. intros s [A B]. unfold i32_offset. lia. }
    2: { intros l0 E0. rewrite Es in E0. inv E0. reflexivity. }
    destruct H0 as [_ [l0 [secs [E0 [_ [Ho ->]]]]]]. rewrite Es in E0. injection E0 as <-.
    exists secs. split; [reflexivity|]. clear - Hf Ho. revert secs Ho.
    induction Hf as [|p s parts l Hp Hf IH]; intros secs Ho; inversion Ho; subst; constructor; [|apply IH; assumption].
    exists s. auto.
  Qed.

  (** ** original_position_for *)
  Lemma bundle_original : forall (ok : MapLibOk L) parts url c0 qs c g b,
    Forall good_part parts -> len parts < 2147483647 ->
    opened_bundle md L U parts url c0 -> iasked md L U c0 qs = Ok c -> position_ok (p_line g) (p_column g) ->
    ((forall p, In p parts -> ~ starts_before (pt_offset p) g)
       /\ answer (ic_original_position_for md L c g b) = Ok None)
    \/ (exists p, part_for parts g p
          /\ let g' := relative_position (pt_offset p) g in
             let ends m last := (last = None \/ column_end (pt_mappings p) m last)
                                /\ (In ISpans qs -> column_end (pt_mappings p) m last) in
             exists found, nearest (by_generated (pt_mappings p)) (place g') (default_bias b) found
               /\ original_reply md U (pt_root p) url ends (p_line g') found
                    (answer (ic_original_position_for md L c g b))).
  Proof.
    intros ok parts url c0 qs c g b Hg Hlen Hop Ha Hp. destruct (bundle_opened _ _ _ Hop) as [j [l [Es [Hf H0]]]].
    pose proof (Forall2_len _ _ _ _ _ Hf) as Hle.
    assert (Hno : Forall natural_offset l).
    { clear - Hf Hg. induction Hf as [|p s parts l [E _] Hf IH]; [constructor|]. inversion Hg as [|? ? [S1 _] S2]; subst.
      constructor; [|apply IH; exact S2]. unfold natural_offset. rewrite E. exact S1. }
    assert (Hll : len l < 2147483647) by (unfold len in *; rewrite <- Hle; exact Hlen).
    assert (Hreach : in_reach (map start_of (map js_offset l)) g)
      by (destruct Hp as [P1 P2]; apply natural_reach; [exact Hno | lia | lia]).
    destruct (original_by_map md L U j url l c0 qs c g b Es (natural_all_small _ Hno) Hll H0 Ha Hreach)
      as [[Hnone E]|[k [s [c1 [asks [c2 [Hk [Hb [Hmax [Hfirst [Hc1 [Hc2 [Hsp E]]]]]]]]]]]]].
    - left. split; [|exact E]. intros p Hin. destruct (Forall2_In_l _ _ _ _ _ _ Hf Hin) as [s [Hs [Hoff _]]].
      rewrite <- Hoff. apply Hnone. exact Hs.
    - right. destruct (Forall2_nth_r _ _ _ _ _ _ _ Hf Hk) as [p [Hpk Hps]]. exists p.
      pose proof (proj1 Hps) as Hoff. split.
      + destruct (nth_error_split _ _ Hpk) as [before [after [Eparts Hkl]]]. exists before, after.
        split; [exact Eparts|]. rewrite <- Hoff. split; [exact Hb|]. split.
        * intros p' Hin Hb'. destruct (Forall2_In_l _ _ _ _ _ _ Hf Hin) as [s' [Hs' [Hoff' _]]].
          rewrite <- Hoff' in *. apply Hmax; assumption.
        * intros p' Hin Heq. apply In_nth_error in Hin. destruct Hin as [n Hn].
          assert (Hnl : (n < length before)%nat) by (apply nth_error_Some; congruence).
          assert (Hn' : nth_error parts n = Some p') by (rewrite Eparts, nth_error_app1 by exact Hnl; exact Hn).
          destruct (Forall2_nth_l _ _ _ _ _ _ _ Hf Hn') as [s' [Hs' [Hoff' _]]].
          specialize (Hfirst n s' Hs' ltac:(congruence)). lia.
      + destruct (section_opened p s url c1 Hps Hc1) as [gn [Eg Eo]].
        rewrite Forall_forall in Hg. destruct (Hg p (nth_error_In _ _ Hpk)) as [Hof [V1 [V2 V3]]].
        assert (Hpos : position_ok (p_line (relative_position (pt_offset p) g)) (p_column (relative_position (pt_offset p) g))).
        { rewrite <- Hoff in *. unfold position_ok, relative_position, starts_before in *. cbn [p_line p_column].
          unfold i32_max in *. change (2 ^ 31) with 2147483648 in *.
          destruct (Z.eqb_spec (p_line (js_offset s) + 1) (p_line g)); lia. }
        destruct (original_end md L U ok _ _ _ _ _ _ _ _ _ _ _ _ b V1 V2 V3 Eg Eo Hc2 Hpos) as [found [F1 F2]].
        exists found. split; [exact F1|]. rewrite E, Hoff.
        replace (relative_position (pt_offset p) g)
          with (mkPos (p_line (relative_position (pt_offset p) g)) (p_column (relative_position (pt_offset p) g))) at 2
          by (destruct (relative_position (pt_offset p) g); reflexivity).
        cbv zeta in F2. revert F2. unfold original_reply. destruct found as [m|]; [|auto].
        destruct (_ =? _); [|auto]. destruct (m_source m) as [src|]; [|auto].
        intros [u [last [A [[B1 B2] C]]]]. exists u, last. split; [exact A|]. split; [|exact C].
        split; [exact B1|]. intros X. apply B2, Hsp, X.
  Qed.

  (** ** get_sources *)
  Lemma bundle_sources : forall parts url c0 qs c, Forall small_part parts ->
    opened_bundle md L U parts url c0 -> iasked md L U c0 qs = Ok c ->
    answer (ic_get_sources L c) = Ok (concat (map pt_sources parts)).
  Proof.
    intros parts url c0 qs c Hsm Hop Ha. destruct (bundle_sections _ _ _ Hop Hsm) as [Ho [secs [Es Hf]]].
    rewrite (indexed_sources md L U _ _ _ Ho Ha), Es. do 2 f_equal. clear - Hf.
    induction Hf as [|p sec parts secs [s [[_ [g [g' [Eg Ej]]]] [_ [_ Hc]]]] Hf IH]; [reflexivity|]. cbn. rewrite IH. f_equal.
    destruct (generate_arrays md U _ _ _ _ _ _ _ Eg Ej) as [_ [Esrc _]].
    unfold raw_sources. unfold bc_from_source_map_json in Hc. bind_inv Hc. inv Hc.
    cbn [bc_source_map]. rewrite Esrc. reflexivity.
  Qed.

  (** ** contents *)
  Lemma section_facts : forall p s sec url, section_of md U p s -> section_opens md L U url s sec ->
    opened md L U (sec_consumer sec) /\ bc_source_map (sec_consumer sec) = js_map s
    /\ (forall src, source_lookup md L U (sec_consumer sec) src = part_index md U url p src)
    /\ length (bc_get_sources L (sec_consumer sec)) = length (pt_sources p).
  Proof.
    intros p s sec url Hps [_ [_ Hc]]. destruct (section_opened p s url _ Hps Hc) as [g [Eg Eo]].
    destruct (opened_facts md L U _ _ _ _ _ _ _ _ Eg Eo) as [Ho [j [g' [Ej [Ec0 [_ [_ [Hurl [Hroot Hmap]]]]]]]]].
    split; [exact Ho|]. split.
    { unfold bc_from_source_map_json in Hc. bind_inv Hc. inv Hc. reflexivity. }
    split.
    - intros src. unfold source_lookup, part_index. rewrite Hurl, Hroot. unfold pt_sources. rewrite Hmap. reflexivity.
    - pose proof (mapM_inv _ _ _ Hmap) as X. apply Forall2_same_length in X. symmetry. exact X.
  Qed.

  Lemma bundle_few : forall parts secs url,
    Forall2 (fun p sec => exists s, section_of md U p s /\ section_opens md L U url s sec) parts secs ->
    Forall (fun p => len (pt_sources p) < 2^31) parts ->
    Forall (fun s => len (bc_get_sources L (sec_consumer s)) < 2 ^ 31) secs.
  Proof.
    intros parts secs url Hf Hl. induction Hf as [|p sec parts secs [s [H1 H2]] Hf IH]; [constructor|].
    inversion Hl as [|? ? L1 L2]; subst. constructor; [|apply IH; exact L2].
    destruct (section_facts _ _ _ _ H1 H2) as [_ [_ [_ E]]]. unfold len in *. rewrite E. exact L1.
  Qed.

  Lemma bundle_contents : forall parts url c0 qs c key src pm, Forall small_part parts ->
    Forall (fun p => len (pt_sources p) < 2^31) parts ->
    opened_bundle md L U parts url c0 -> iasked md L U c0 qs = Ok c ->
    (forall p, In p parts -> keyed md U (pt_root p) (key p)) ->
    let panics := match pm with Some b => b | None => true end in
    exists replies, Forall2 (fun p => part_content md U url (key p) src panics p) parts replies
      /\ answer (ic_source_content_for md L U c src pm)
         = match first_answer replies with
           | Ok None => if panics then Panic PMissing else Ok None
           | r => r
           end.
  Proof.
    intros parts url c0 qs c key src pm Hsm Hl Hop Ha Hk panics.
    destruct (bundle_sections _ _ _ Hop Hsm) as [Ho [secs [Es Hf]]].
    exists (map (fun s => answer (bc_source_content_for md L U (sec_consumer s) src pm)) secs). split.
    2: { rewrite (indexed_content md L U c0 qs c src pm Ho Ha); rewrite Es; [reflexivity|]. eapply bundle_few; eassumption. }
    clear Es Ho Ha Hop Hsm. induction Hf as [|p sec parts secs [s [H1 H2]] Hf IH]; [constructor|].
    inversion Hl as [|? ? L1 L2]; subst. constructor.
    2: { apply IH; [exact L2|]. intros q Hq. apply Hk. right. exact Hq. }
    destruct (section_facts _ _ _ _ H1 H2) as [Ho [Em [Elk El]]].
    assert (Hlen : len (bc_get_sources L (sec_consumer sec)) < 2^31) by (unfold len in *; rewrite El; exact L1).
    rewrite (content_spec md L U (sec_consumer sec) [] (sec_consumer sec) src pm Ho eq_refl Hlen), Em, Elk.
    destruct H1 as [_ [g [g' [Eg Ej]]]].
    destruct (contents_keyed _ _ _ _ _ _ _ _ Eg Ej (Hk p (or_introl eq_refl))) as [_ [C1 C2]].
    split.
    - intros Hn. rewrite (C1 Hn). reflexivity.
    - intros Hn. rewrite (C2 Hn). fold panics. destruct (part_index md U url p src) as [[i|]|e]; [|destruct pm as [[|]|]; reflexivity|reflexivity].
      split; [reflexivity|]. intros Hfirst f Ef. unfold pt_sources in *. rewrite (present_aligned _ _ Hfirst _ _ Ef). reflexivity.
  Qed.

  Lemma bundle_has_contents : forall parts url c0 qs c key, Forall small_part parts ->
    Forall (fun p => len (pt_sources p) < 2^31) parts ->
    opened_bundle md L U parts url c0 -> iasked md L U c0 qs = Ok c ->
    (forall p, In p parts -> keyed md U (pt_root p) (key p)) ->
    exists b, answer (ic_has_contents_of_all_sources L c) = Ok b
      /\ (b = true <-> forall p, In p parts -> some_text (key p) (pt_ops p)
            /\ forall s, In s (pt_sources p) -> text_of (key p) (pt_ops p) s <> None).
  Proof.
    intros parts url c0 qs c key Hsm Hl Hop Ha Hk.
    destruct (bundle_sections _ _ _ Hop Hsm) as [Ho [secs [Es Hf]]].
    destruct (indexed_has_contents md L U c0 qs c Ho Ha) as [b [E Hb]]; [rewrite Es; eapply bundle_few; eassumption|].
    exists b. split; [exact E|]. rewrite Hb, Es. clear - Hf Hk.
    assert (X : Forall2 (fun p sec => bc_has_contents_of_all_sources L (sec_consumer sec) = Ok true
        <-> some_text (key p) (pt_ops p) /\ forall s, In s (pt_sources p) -> text_of (key p) (pt_ops p) s <> None) parts secs).
    { induction Hf as [|p sec parts secs [s [H1 H2]] Hf IH]; [constructor|]. constructor.
      2: { apply IH. intros q Hq. apply Hk. right. exact Hq. }
      destruct (section_facts _ _ _ _ H1 H2) as [_ [Em _]]. destruct H1 as [_ [g [g' [Eg Ej]]]].
      destruct (has_contents_json _ _ _ _ _ _ _ _ _ Eg Ej (Hk p (or_introl eq_refl)) Em) as [b [E Hb]].
      rewrite E, <- Hb. split; congruence. }
    split; intros H.
    - intros p Hin. destruct (Forall2_In_l _ _ _ _ _ _ X Hin) as [sec [Hs Hx]]. apply Hx, H, Hs.
    - intros sec Hin. destruct (Forall2_In_r _ _ _ _ _ _ X Hin) as [p [Hp Hx]]. apply Hx, H, Hp.
  Qed.

  (** a basic consumer *)
  Lemma end_has_contents : forall file root skip ops g url c0 lk qs c key,
    gen_run md U (gen_new file root skip) ops = Ok g ->
    opened_on md L U g url c0 lk -> asked md L U c0 qs = Ok c -> keyed md U root key ->
    exists b, bc_has_contents_of_all_sources L c = Ok b
      /\ (b = true <-> some_text key ops /\ forall s, In s (source_names ops) -> text_of key ops s <> None).
  Proof.
    intros file root skip ops g url c0 lk qs c key Eg Eo Ha Hk.
    destruct (opened_facts md L U _ _ _ _ _ _ _ _ Eg Eo) as [Ho [j [g' [Ej [Ec0 _]]]]].
    destruct (history md L U _ _ _ Ho Ha) as [_ Hc].
    apply (has_contents_json _ _ _ _ _ _ _ _ _ Eg Ej Hk). rewrite (fo_map _ _ _ _ _ Hc). exact Ec0.
  Qed.
End Bundle.

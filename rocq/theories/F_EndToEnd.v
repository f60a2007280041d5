(** * From the generator to the consumer *)
From Verif Require Import F_Base M_ArraySet M_Mapping M_Util M_SourceMap M_Generator M_Json M_MapLib
  M_Consumer M_Indexed S_List S_Vlq S_Decode S_Mapping S_Generator S_Far S_Contents S_Json S_MapLib S_Consumer S_EndToEnd F_ArraySet F_Decode F_Serialize
  F_MappingList F_FarLoop F_Generator F_GeneratorProps F_Contents F_Json F_Dispatch F_MapLibRef F_Consumer F_ConsumerProps.
From Coq Require Import Sorting.Sorted Sorting.Permutation.

Lemma generate_shortest : forall md U file root skip ops, readable_run ops -> (root = None \/ no_content ops) ->
  exists g j g' s raws r, gen_run md U (gen_new file root skip) ops = Ok g
    /\ gen_as_json md U g = Ok (j, g')
    /\ smj_mappings j = Some s /\ good_text shortest_field s
    /\ (exists n, is_last_line (added_mappings ops) n /\ Z.of_nat (count_occ N.eq_dec s (ch ";")) = n - 1)
    /\ Z.of_nat (count_occ N.eq_dec s (ch ";")) < 2^32
    /\ decode_mappings s = Some raws
    /\ resolve (distinct (present (map m_source (added_mappings ops))))
               (distinct (present (map m_name (added_mappings ops)))) raws = Some r
    /\ (forall x, In x r <-> exists m, In m (added_mappings ops) /\ x = written m).
Proof.
  intros md U file root skip ops Hr Hroot. pose proof (expressible_encodable _ (readable_expressible _ Hr)) as He.
  pose proof Hr as [Hr1 [Hr2 Hr3]].
  destruct (generate_roundtrip md U file root skip ops Hr1 Hr2 Hr3 Hroot) as [g [j [g' [r [Eg [Ej [Erd [Hin _]]]]]]]].
  destruct (generate_arrays md U file root skip ops g j g' Eg Ej) as [_ [Esrc [Enm _]]].
  destruct He as [He1 He2].
  destruct (generate_line_structure md U file root skip ops He1 He2 Hroot)
    as [g1 [j1 [g1' [s [n [Eg1 [Ej1 [Es [Hn [Hcount _]]]]]]]]]].
  rewrite Eg in Eg1. injection Eg1 as <-. rewrite Ej in Ej1. injection Ej1 as <- <-.
  destruct (gen_run_ok md U file root skip ops (conj He1 He2) Hroot) as [g1 [Eg1 [HB Hml]]].
  rewrite Eg in Eg1. injection Eg1 as <-.
  destruct (as_json_ok md U file root skip ops g HB (conj He1 He2) Hml Hroot)
    as [j1 [g1' [a [ml' [Ej1 [Ea [Hp [Hs _]]]]]]]].
  rewrite Ej in Ej1. injection Ej1 as <- <-.
  pose proof (as_json_inv _ _ _ _ _ Ej) as [a2 [ml2 [s2 [sc [Ea2 [Es2 [_ [Hj _]]]]]]]].
  rewrite Ea in Ea2. injection Ea2 as <- <-.
  pose proof HB as [_ _ _ H4 H5 _ _].
  destruct (far_loop_start md (g_sources g) (g_names g) a) as [s3 [r3 [Es3 [Hc3 [_ Hg1]]]]].
  { rewrite Forall_forall. intros m Hm.
    assert (Hi : In m (added_mappings ops)) by (eapply Permutation_in; [symmetry; exact Hp | exact Hm]).
    rewrite Forall_forall in Hr1. split; [apply valid_expressible, Hr1; exact Hi|].
    split; [|apply known_name]; (eapply known_all; [eassumption | first [exact (proj1 Hr3) | exact (proj2 Hr3)] | eassumption]). }
  { exact Hs. }
  rewrite Es2 in Es3. injection Es3 as <-.
  pose proof (list_run _ _ _ _ _ Eg) as El. cbn [gen_new g_mappings] in El.
  pose proof (Hr2 _ _ (valid_held _ _ _ _ _ Hr1 El Ea) Hc3) as Hnear.
  destruct (Hg1 Hnear) as [Hg2 _].
  assert (s2 = s). { rewrite Hj in Es. cbn in Es. congruence. } subst s2.
  unfold read_json in Erd. rewrite Esrc, Enm, Es in Erd.
  destruct (decode_mappings s) as [raws|] eqn:Ed; [|discriminate].
  exists g, j, g', s, raws, r. split; [exact Eg|]. split; [exact Ej|]. split; [exact Es|].
  split; [exact Hg2|]. split; [exists n; split; assumption|]. split; [|split; [exact Ed|]; split; [exact Erd | exact Hin]].
  rewrite Hcount. destruct Hn as [_ [[_ ->]|[m [Hm <-]]]]; [reflexivity|].
  rewrite Forall_forall in He1. destruct (He1 _ Hm) as [Hw _].
  change (2^32) with 4294967296. destruct Hw as [[Hw _] _]. unfold i32_max in *. change (2^31 - 1) with 2147483647 in *. lia.
Qed.

(** Whatever the root and the contents are, if the calls return. *)
Lemma shortest_any_root : forall md U file root skip ops g j g', readable_run ops ->
  gen_run md U (gen_new file root skip) ops = Ok g -> gen_as_json md U g = Ok (j, g') ->
  exists s raws r, smj_mappings j = Some s /\ good_text shortest_field s
    /\ (exists n, is_last_line (added_mappings ops) n /\ Z.of_nat (count_occ N.eq_dec s (ch ";")) = n - 1)
    /\ Z.of_nat (count_occ N.eq_dec s (ch ";")) < 2^32
    /\ decode_mappings s = Some raws
    /\ resolve (distinct (present (map m_source (added_mappings ops))))
               (distinct (present (map m_name (added_mappings ops)))) raws = Some r
    /\ (forall x, In x r <-> exists m, In m (added_mappings ops) /\ x = written m).
Proof.
  intros md U file root skip ops g j g' Hr Eg Ej.
  destruct (contents_independent _ _ _ _ _ _ _ _ _ Eg Ej) as [g2 [j2 [g2' [Eg2 [Ej2 [_ [_ [_ [Em _]]]]]]]]].
  destruct (generate_shortest md U file root skip (without_content ops)) as [g3 [j3 [g3' [s [raws [r [Eg3 [Ej3 H]]]]]]]].
  - unfold readable_run, steps_fit. rewrite added_without_content, list_without_content. exact Hr.
  - right. apply no_content_without.
  - rewrite Eg2 in Eg3. injection Eg3 as <-. rewrite Ej2 in Ej3. injection Ej3 as <- <-.
    rewrite added_without_content, Em in H. exists s, raws, r. exact H.
Qed.

Lemma canonical_any_root : forall md U file root skip ops g j g', readable_run ops ->
  gen_run md U (gen_new file root skip) ops = Ok g -> gen_as_json md U g = Ok (j, g') ->
  exists s raws r, smj_mappings j = Some s /\ good_text canonical_field s
    /\ Z.of_nat (count_occ N.eq_dec s (ch ";")) < 2^32
    /\ decode_mappings s = Some raws
    /\ resolve (distinct (present (map m_source (added_mappings ops))))
               (distinct (present (map m_name (added_mappings ops)))) raws = Some r
    /\ (forall x, In x r <-> exists m, In m (added_mappings ops) /\ x = written m).
Proof.
  intros md U file root skip ops g j g' Hr Eg Ej.
  destruct (shortest_any_root md U file root skip ops g j g' Hr Eg Ej) as [s [raws [r [H1 [H2 [_ H3]]]]]].
  exists s, raws, r. split; [exact H1|]. split; [|exact H3]. eapply good_text_impl; [|exact H2]. intros t [H _]. exact H.
Qed.

(** ** resolve *)
Lemma resolve_strip_mapping : forall src nm m, resolve_mapping src nm (strip m) = resolve_mapping src nm m.
Proof. reflexivity. Qed.

Lemma resolve_strip : forall src nm l, resolve src nm (map strip l) = resolve src nm l.
Proof. intros src nm l. unfold resolve. rewrite map_map. reflexivity. Qed.

Lemma all_some_Forall2 : forall A (l : list (option A)) r, all_some l = Some r <-> l = map Some r.
Proof.
  intros A. induction l as [|[x|] l IH]; intros r; cbn.
  - split; intros H; [inv H; reflexivity | destruct r; [reflexivity | discriminate]].
  - split.
    + intros H. destruct (all_some l) as [r'|] eqn:E; [|discriminate]. inv H. cbn. f_equal. apply IH. reflexivity.
    + intros H. destruct r as [|y r]; [discriminate|]. cbn in H. inv H. rewrite (proj2 (IH r) eq_refl). reflexivity.
  - split; intros H; [discriminate | destruct r; discriminate].
Qed.

Lemma resolve_perm : forall src nm l l' r, Permutation l l' -> resolve src nm l = Some r ->
  exists r', resolve src nm l' = Some r' /\ Permutation r r'.
Proof.
  intros src nm l l' r Hp H. unfold resolve in *. apply all_some_Forall2 in H.
  pose proof (Permutation_map (resolve_mapping src nm) Hp) as Hq. rewrite H in Hq.
  apply Permutation_sym, Permutation_map_inv in Hq. destruct Hq as [r' [E Hr]]. exists r'. split; [|exact Hr].
  apply all_some_Forall2. exact E.
Qed.

Lemma resolve_place : forall src nm m x, resolve_mapping src nm m = Some x ->
  m_generated x = mkPos (rm_line m + 1) (rm_column m).
Proof.
  intros src nm m x H. unfold resolve_mapping in H. destruct (rm_original m) as [o|]; [|inv H; reflexivity].
  destruct (lookup src (ol_source o)); [|discriminate].
  destruct (ol_name o) as [i|]; [|inv H; reflexivity].
  destruct (lookup nm i); [inv H; reflexivity | discriminate].
Qed.

Lemma resolve_sorted : forall src nm l r, resolve src nm l = Some r -> StronglySorted raw_le l ->
  gen_sorted r.
Proof.
  intros src nm. induction l as [|m l IH]; intros r H Hs; cbn in H.
  - inv H. constructor.
  - unfold resolve in H. cbn in H. destruct (resolve_mapping src nm m) as [x|] eqn:Em; [|discriminate].
    fold (resolve src nm l) in H. destruct (resolve src nm l) as [r'|] eqn:Er; [|discriminate]. inv H.
    inv Hs. constructor; [apply IH; auto|].
    rewrite Forall_forall in *. intros y Hy.
    unfold resolve in Er. apply all_some_Forall2 in Er.
    assert (Hy' : In (Some y) (map (resolve_mapping src nm) l)) by (rewrite Er; apply in_map; exact Hy).
    apply in_map_iff in Hy'. destruct Hy' as [m' [Em' Hm']].
    specialize (H2 _ Hm'). unfold gen_le. rewrite (resolve_place _ _ _ _ Em), (resolve_place _ _ _ _ Em'). cbn.
    unfold raw_le, gen_loc, loc_le, loc_lt, pos_le, pos_lt in *. cbn in *.
    destruct H2 as [H2|H2]; [lia | inv H2; lia].
Qed.

(** ** Opening *)
Lemma as_json_shape : forall md U g j g', gen_as_json md U g = Ok (j, g') ->
  smj_version j = 3 /\ smj_sections j = None.
Proof.
  intros md U g j g' H. destruct (as_json_inv _ _ _ _ _ H) as [a [ml [s [sc [_ [_ [_ [-> _]]]]]]]].
  split; reflexivity.
Qed.

Lemma reopen : forall j, smj_version j = 3 -> smj_sections j = None -> smj_from_str (smj_to_string j) = Some j.
Proof.
  intros j Hv Hs. rewrite json_roundtrip.
  - assert (E : (nesting j <=? 127)%nat = true).
    { destruct j as [v so na ma fi ro co se]. cbn in Hs. subst se.
      destruct so, na, co; reflexivity. }
    rewrite E. reflexivity.
  - constructor; [lia|]. intros l H. congruence.
Qed.

Section EndToEnd.
  Context (md : mode) (L : MapLib) (U : UrlLib) (HL : MapLibOk L).

  Lemma opened_on_inv : forall g url c lk, opened_on md L U g url c lk ->
    opened md L U c /\ exists j g' abs, gen_as_json md U g = Ok (j, g')
      /\ compute_absolute_sources md U j url = Ok abs /\ c = mkBC j [] abs lk None false.
  Proof.
    intros g url c lk H. unfold opened_on, bc_from_source_map, gen_as_string, create_consumer in H.
    destruct (gen_as_json md U g) as [[j g1]|p] eqn:Ej.
    2: { destruct H as [[g' [H _]]|[g' [s [order [H _]]]]]; discriminate. }
    destruct (as_json_shape _ _ _ _ _ Ej) as [Hv Hs]. pose proof (reopen _ Hv Hs) as Hj.
    destruct H as [[g' [H ->]]|[g' [s [order [H1 [H ->]]]]]].
    - cbn [bind] in H. destruct (bc_new md L U (smj_to_string j) url) as [c1|p] eqn:E1; [|discriminate].
      cbn [bind] in H. inv H. split; [left; eauto|]. unfold bc_new in E1. rewrite Hj in E1. cbn [unwrap_ok bind] in E1.
      destruct (compute_absolute_sources md U j url) as [abs|p] eqn:Ea; [|discriminate]. cbn in E1. inv E1. eauto 8.
    - cbn [bind] in H1. inv H1. rewrite Hj, Hs in H. cbn [is_some] in H.
      destruct (bc_from_source_map_json md L U j url) as [c1|p] eqn:E1; [|discriminate]. cbn [bind] in H. inv H.
      split; [right; eauto|]. unfold bc_from_source_map_json in E1.
      destruct (compute_absolute_sources md U j url) as [abs|p] eqn:Ea; [|discriminate]. cbn in E1. inv E1. eauto 8.
  Qed.

  Lemma end_to_end : forall file root skip ops g url c0 lk qs c,
    Forall valid_mapping (added_mappings ops) -> steps_fit ops ->
    few_names (2^30) (added_mappings ops) ->
    gen_run md U (gen_new file root skip) ops = Ok g ->
    opened_on md L U g url c0 lk -> asked md L U c0 qs = Ok c ->
    exists l sources names r r0, reports L c l
      /\ smj_sources (bc_source_map c0) = Some sources /\ smj_names (bc_source_map c0) = Some names
      /\ resolve sources names l = Some r
      /\ (forall x, In x r <-> exists m, In m (added_mappings ops) /\ x = written m)
      /\ gen_sorted r
      /\ read_json (bc_source_map c0) = Some r0 /\ Permutation r r0.
  Proof.
    intros file root skip ops g url c0 lk qs c H1 H2 H3 Eg Eo Ha.
    pose proof (conj H1 (conj H2 H3) : readable_run ops) as Hr.
    destruct (opened_on_inv _ _ _ _ Eo) as [Ho [j1 [g' [abs [Ej [_ X]]]]]].
    assert (Ec0 : bc_source_map c0 = j1) by (subst c0; reflexivity). clear X.
    destruct (canonical_any_root md U file root skip ops g j1 g' Hr Eg Ej)
      as [s [raws [r [Es [Hgood [Hcount [Ed [Er Hin]]]]]]]].
    destruct (generate_arrays md U file root skip ops g j1 g' Eg Ej) as [_ [Esrc [Enm _]]].
    destruct (mo_parse L HL s raws Hgood Hcount Ed) as [t0 [Et0 Hp]].
    destruct (history md L U _ _ _ Ho Ha) as [Hf Hc].
    destruct (ensure_cases md L U _ _ Hc) as [[s1 [t [E [Es1 Hs]]]]|[E [Hn Em]]].
    2: { exfalso. apply Hn. exists s, t0. rewrite Ec0. auto. }
    rewrite Ec0 in Es1. rewrite Es in Es1. injection Es1 as <-.
    exists (lm_by_generated L t). 
    pose proof (mo_same L HL _ _ _ _ Hs Et0) as Hsame.
    pose proof (proj1 (mo_sorted L HL _ _ _ Hs)) as Hsorted.
    destruct (resolve_perm _ _ _ _ _ Hp Er) as [r' [Er' Hpr]].
    eexists _, _, r', r. split; [apply (proj2 (reports_iff md L U _ _ _ _ _ Hc E)); reflexivity|].
    rewrite Ec0. split; [exact Esrc|]. split; [exact Enm|].
    assert (Er2 : resolve (distinct (present (map m_source (added_mappings ops))))
               (distinct (present (map m_name (added_mappings ops)))) (lm_by_generated L t) = Some r').
    { rewrite <- resolve_strip, Hsame, resolve_strip. exact Er'. }
    split; [exact Er2|]. split.
    { intros x. rewrite <- Hin. split; apply Permutation_in; [symmetry|]; exact Hpr. }
    split; [eapply resolve_sorted; eassumption|].
    split; [|symmetry; exact Hpr]. unfold read_json. rewrite Esrc, Enm, Es, Ed. exact Er.
  Qed.

  (** Opening fails only at a source whose URL cannot be made. *)
  Lemma opens_on : forall file root skip ops url g j g',
    gen_run md U (gen_new file root skip) ops = Ok g -> gen_as_json md U g = Ok (j, g') ->
    gen_as_string md U g = Ok (smj_to_string j, g') /\
    match mapM (fun s => compute_source_url md U root s url)
               (distinct (present (map m_source (added_mappings ops)))) with
    | Panic p => bc_from_source_map md L U g url = Panic p
                 /\ forall order, create_consumer md L U order (smj_to_string j) url = Panic p
    | Ok urls => (exists c, bc_from_source_map md L U g url = Ok (c, g') /\ bc_get_sources L c = urls)
                 /\ exists c, bc_get_sources L c = urls
                    /\ forall order, create_consumer md L U order (smj_to_string j) url = Ok (Some (CBasic c))
    end.
  Proof.
    intros file root skip ops url g j g' Eg Ej.
    destruct (generate_arrays md U file root skip ops g j g' Eg Ej) as [Hv [Esrc [_ [_ [Eroot Hs]]]]].
    unfold bc_from_source_map, gen_as_string. rewrite Ej. cbn [bind]. split; [reflexivity|].
    unfold bc_new, create_consumer. rewrite (reopen _ Hv Hs), Hs. cbn [unwrap_ok bind is_some].
    unfold bc_from_source_map_json, compute_absolute_sources. rewrite Esrc, Eroot. cbn [unwrap bind].
    destruct (mapM _ _) as [urls|p]; cbn [bind]; [|split; reflexivity].
    assert (E : forall ar u m b, bc_get_sources L (mkBC j ar (as_from_array urls true) u m b) = urls).
    { intros ar u m b. unfold bc_get_sources, as_to_vec. cbn [bc_absolute_sources]. apply as_from_array_vec. }
    split; eexists; (split; [reflexivity | apply E]) || (split; [apply E | intros; reflexivity]).
  Qed.

  Lemma end_to_end_opens : forall file root skip ops url,
    Forall encodable (added_mappings ops) ->
    few_names 2147483648 (added_mappings ops) -> (root = None \/ no_content ops) ->
    exists g s g', gen_run md U (gen_new file root skip) ops = Ok g /\ gen_as_string md U g = Ok (s, g') /\
    match mapM (fun s => compute_source_url md U root s url)
               (distinct (present (map m_source (added_mappings ops)))) with
    | Panic p => bc_from_source_map md L U g url = Panic p
                 /\ forall order, create_consumer md L U order s url = Panic p
    | Ok urls => (exists c, bc_from_source_map md L U g url = Ok (c, g') /\ bc_get_sources L c = urls)
                 /\ exists c, bc_get_sources L c = urls
                    /\ forall order, create_consumer md L U order s url = Ok (Some (CBasic c))
    end.
  Proof.
    intros file root skip ops url H1 H2 Hroot.
    destruct (generate_total md U file root skip ops H1 H2 Hroot) as [g [j [g' [Eg Ej]]]].
    exists g, (smj_to_string j), g'. split; [exact Eg|]. exact (opens_on _ _ _ _ _ _ _ _ Eg Ej).
  Qed.
End EndToEnd.

(** * Lemmas for consume and the views of a consumer (C79) *)
From Verif Require Import Base F_Base M_ArraySet M_Mapping M_Util M_SourceMap M_Json M_MapLib M_Consumer M_Indexed
  S_Json S_Consumer F_Json F_Dispatch F_Consumer F_ConsumerProps.

Lemma views : forall md L U order s url m c, map_text s m -> create_consumer md L U order s url = Ok (Some c) ->
  (smj_sections m = None ->
     exists b, as_basic_consumer L c = Ok b /\ try_as_basic_consumer L c = Some b /\ bc_source_map b = m
       /\ as_indexed_consumer L c = Panic PNotThatConsumer /\ try_as_indexed_consumer L c = None)
  /\ (smj_sections m <> None ->
     exists i, as_indexed_consumer L c = Ok i /\ try_as_indexed_consumer L c = Some i /\ ic_source_map i = m
       /\ as_basic_consumer L c = Panic PNotThatConsumer /\ try_as_basic_consumer L c = None).
Proof.
  intros md L U order s url m c Hm Hc. destruct (create_dispatch md L U order s url) as [_ H].
  destruct (H m Hm) as [H1 _]. destruct (H1 c Hc) as [[E [b [-> Eb]]]|[E [i [-> Ei]]]]; split; intros E2; try contradiction.
  - exists b. repeat split; assumption.
  - exists i. repeat split; assumption.
Qed.

Lemma consume_basic : forall md L U s url,
  (~ (exists m, map_text s m) -> bc_consume md L U s url = Panic PUnwrapErr)
  /\ (forall m, map_text s m ->
      (smj_sources m = None -> bc_consume md L U s url = Panic PUnwrapNone)
      /\ (forall srcs, smj_sources m = Some srcs ->
          ((exists c, bc_consume md L U s url = Ok c)
           <-> Forall (fun x => exists u, compute_source_url md U (smj_source_root m) x (Some url) = Ok u) srcs))
      /\ (forall c, bc_consume md L U s url = Ok c -> smj_sections m = None -> forall order,
          exists b, create_consumer md L U order s (Some url) = Ok (Some (CBasic b))
            /\ bc_source_map c = m /\ bc_source_map b = m /\ bc_get_sources L c = bc_get_sources L b
            /\ (forall g bias, answer (bc_original_position_for md L c g bias) = answer (bc_original_position_for md L b g bias))
            /\ (forall o, answer (bc_each_mapping L c o) = answer (bc_each_mapping L b o)))).
Proof.
  intros md L U s url. unfold bc_consume, bc_new. split.
  - intros H. destruct (smj_from_str s) as [m|] eqn:E; [|reflexivity]. exfalso. apply H. exists m. apply smj_from_str_iff. exact E.
  - intros m Hm. apply smj_from_str_iff in Hm. rewrite Hm. cbn [unwrap_ok bind]. split; [|split].
    + intros H. unfold compute_absolute_sources. rewrite H. reflexivity.
    + intros srcs H. rewrite <- (bc_from_json_ok md L U m (Some url) srcs H). unfold bc_from_source_map_json.
      destruct (compute_absolute_sources md U m (Some url)) as [a|]; cbn [bind]; split; intros [c Hc]; try discriminate; eauto.
    + intros c Hc Hs order. unfold create_consumer, bc_from_source_map_json. rewrite Hm, Hs. cbn [is_some].
      destruct (compute_absolute_sources md U m (Some url)) as [a|]; cbn [bind] in *; [|discriminate]. inv Hc.
      eexists. split; [reflexivity|]. split; [reflexivity|]. split; [reflexivity|]. split; [reflexivity|]. split.
      * intros g bias. unfold bc_original_position_for. cbv zeta. destruct (_ <? 1); [reflexivity|]. destruct (_ <? 0); [reflexivity|].
        unfold bc_ensure_mappings. cbn [bc_mappings]. unfold bc_parse_mappings. cbn [bc_source_map].
        destruct (unwrap (smj_mappings m)) as [t|]; [|reflexivity]. cbn [bind].
        destruct (lm_parse L t) as [r|]; cbn [bind bc_set_mappings bc_mappings unwrap]; [|reflexivity].
        destruct (i32_sub md (p_line g) 1) as [l|]; [|reflexivity]. cbn [bind].
        destruct (lm_original_for L r _ _ _) as [mp|]; [|reflexivity]. destruct (_ =? _); [|reflexivity].
        destruct (rm_original mp) as [ol|]; [|reflexivity]. cbn [option_map_res]. unfold bc_original_answer, bc_name_at. cbn.
        match goal with |- context [bind ?x _] => destruct x; reflexivity end.
      * intros o. unfold bc_each_mapping, bc_parse_mappings. cbn [bc_mappings bc_source_map].
        destruct (unwrap (smj_mappings m)) as [t|]; [|reflexivity]. cbn [bind].
        destruct (lm_parse L t) as [r|]; [|reflexivity]. destruct o; [reflexivity|]. destruct (lm_by_original L r). reflexivity.
Qed.

Lemma consume_indexed : forall md L U order s url,
  (~ (exists m, map_text s m) -> ic_consume md L U order s url = Panic PUnwrapErr)
  /\ (forall m, map_text s m ->
      (smj_sections m = None -> smj_version m = 3 -> ic_consume md L U order s url = Panic PUnwrapNone)
      /\ (smj_version m <> 3 -> ic_consume md L U order s url = Panic PVersion)
      /\ (smj_sections m <> None -> forall c,
          ic_consume md L U order s url = Ok c <-> create_consumer md L U order s (Some url) = Ok (Some (CIndexed c)))).
Proof.
  intros md L U order s url. unfold ic_consume, ic_new. split.
  - intros H. destruct (smj_from_str s) as [m|] eqn:E; [|reflexivity]. exfalso. apply H. exists m. apply smj_from_str_iff. exact E.
  - intros m Hm. apply smj_from_str_iff in Hm. rewrite Hm. cbn [unwrap_ok bind]. split; [|split].
    + intros E V. unfold ic_from_source_map_json. rewrite V, E. reflexivity.
    + intros V. unfold ic_from_source_map_json. apply Z.eqb_neq in V. unfold SUPPORTED_SOURCE_MAP_VERSION. rewrite V. reflexivity.
    + intros E c. unfold create_consumer. rewrite Hm. destruct (smj_sections m); [|contradiction]. cbn [is_some].
      destruct (ic_from_source_map_json md L U order m (Some url)) as [x|]; cbn [bind]; split; intros H; inv H; reflexivity.
Qed.

(** ** C39 *)
Lemma created_lookup : forall md L U order s url m c, map_text s m -> smj_sections m = None -> bc_new md L U s url = Ok c ->
  exists c', create_consumer md L U order s url = Ok (Some (CBasic c'))
    /\ bc_source_map c' = m /\ bc_get_sources L c' = bc_get_sources L c
    /\ (len (bc_get_sources L c) < 2^31 -> forall src,
        let find (u : option str) := match index_of_source md U (smj_source_root m) u (bc_get_sources L c) src with
                                     | Ok r => Ok (option_map Z.of_nat r)
                                     | Panic p => Panic p
                                     end in
        answer (bc_find_source_index md L U c src) = find url
        /\ answer (bc_find_source_index md L U c' src) = find None).
Proof.
  intros md L U order s url m c T S N. apply smj_from_str_iff in T. pose proof N as N'. unfold bc_new in N. rewrite T in N.
  cbn [unwrap_ok bind] in N. destruct (compute_absolute_sources md U m url) as [a|] eqn:A; [|discriminate]. cbn [bind] in N.
  assert (F : bc_from_source_map_json md L U m url = Ok (mkBC m [] a None None false)).
  { unfold bc_from_source_map_json. rewrite A. reflexivity. }
  exists (mkBC m [] a None None false). split; [unfold create_consumer; rewrite T, S; cbn [is_some]; rewrite F; reflexivity|].
  inv N. split; [reflexivity|]. split; [reflexivity|]. intros Hl src. cbv zeta. split.
  - apply (source_lookup_stable md L U _ [] _ src (or_introl (ex_intro _ s (ex_intro _ url N'))) eq_refl Hl).
  - apply (source_lookup_stable md L U _ [] _ src (or_intror (ex_intro _ m (ex_intro _ url F))) eq_refl Hl).
Qed.

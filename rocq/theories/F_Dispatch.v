(** * create_consumer: which consumer comes out *)
From Verif Require Import Base F_Base M_ArraySet M_Mapping M_Util M_SourceMap M_Json M_MapLib M_Consumer
  M_Indexed S_Json F_Json.

Lemma mapM_ok_iff : forall A B (f : A -> res B) l,
  (exists r, mapM f l = Ok r) <-> Forall (fun x => exists y, f x = Ok y) l.
Proof.
  intros A B f. induction l as [|x l IH]; cbn; split.
  - constructor.
  - eauto.
  - intros [r H]. bind_inv H. bind_inv H. constructor; [eauto|]. apply IH. eauto.
  - intros H. inv H. destruct H2 as [y ->]. apply IH in H3. destruct H3 as [r ->]. cbn. eauto.
Qed.

Lemma bc_from_json_ok : forall md L U m url srcs, smj_sources m = Some srcs ->
  (exists c, bc_from_source_map_json md L U m url = Ok c)
  <-> Forall (fun s => exists u, compute_source_url md U (smj_source_root m) s url = Ok u) srcs.
Proof.
  intros md L U m url srcs E. rewrite <- mapM_ok_iff.
  unfold bc_from_source_map_json, compute_absolute_sources. rewrite E. cbn. split.
  - intros [c H]. bind_inv H. bind_inv H0. eauto.
  - intros [r ->]. cbn. eauto.
Qed.

Lemma create_dispatch : forall md L U order s url,
  (create_consumer md L U order s url = Ok None <-> ~ exists m, map_text s m)
  /\ (forall m, map_text s m ->
      (forall c, create_consumer md L U order s url = Ok (Some c) ->
         (smj_sections m = None /\ (exists b, c = CBasic b /\ bc_source_map b = m))
         \/ (smj_sections m <> None /\ (exists i, c = CIndexed i /\ ic_source_map i = m)))
      /\ (smj_sections m = None -> smj_sources m = None ->
          create_consumer md L U order s url = Panic PUnwrapNone)
      /\ (forall srcs, smj_sections m = None -> smj_sources m = Some srcs ->
          ((exists b, create_consumer md L U order s url = Ok (Some (CBasic b)))
           <-> Forall (fun x => exists u, compute_source_url md U (smj_source_root m) x url = Ok u) srcs))).
Proof.
  intros md L U order s url. unfold create_consumer. split.
  - destruct (smj_from_str s) as [m|] eqn:E; split; intros H.
    + exfalso. destruct (is_some (smj_sections m)); bind_inv H; discriminate.
    + exfalso. apply H. exists m. apply smj_from_str_iff. exact E.
    + intros [m Hm]. apply smj_from_str_iff in Hm. congruence.
    + reflexivity.
  - intros m Hm. apply smj_from_str_iff in Hm. rewrite Hm.
    destruct (smj_sections m) as [secs|] eqn:Es; cbn [is_some].
    + split; [|split; intros; discriminate].
      intros c H. bind_inv H. inv H. right. split; [congruence|]. exists x. split; [reflexivity|].
      unfold ic_from_source_map_json in H0.
      destruct (negb _); [discriminate|]. rewrite Es in H0. bind_inv H0. bind_inv H0. bind_inv H0.
      inv H0. reflexivity.
    + split; [|split].
      * intros c H. bind_inv H. inv H. left. split; [reflexivity|]. exists x. split; [reflexivity|].
        unfold bc_from_source_map_json in H0. bind_inv H0. inv H0. reflexivity.
      * intros _ H. unfold bc_from_source_map_json, compute_absolute_sources. rewrite H. reflexivity.
      * intros srcs _ H. rewrite <- (bc_from_json_ok md L U m url srcs H). split.
        -- intros [b Hb]. bind_inv Hb. eauto.
        -- intros [b ->]. cbn. eauto.
Qed.

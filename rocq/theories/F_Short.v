(** * Maps with too short URLs are not opened *)
From Verif Require Import Base F_Base M_ArraySet M_Mapping M_Util M_SourceMap M_Json M_MapLib M_Consumer
  M_Indexed S_Json F_Json F_Dispatch F_UrlProps.

Definition short_part (m : SourceMapJson) (srcs : list str) (url : option str) : Prop :=
  (exists x, In x srcs /\ len x < 2)
  \/ (srcs <> [] /\ ((exists r, smj_source_root m = Some r /\ len r < 2)
                     \/ (exists u, url = Some u /\ len u < 2))).

Lemma short_not_computed : forall md U m srcs url, short_part m srcs url ->
  ~ Forall (fun x => exists u, compute_source_url md U (smj_source_root m) x url = Ok u) srcs.
Proof.
  intros md U m srcs url [[x [Hx L]]|[N S]] F; rewrite Forall_forall in F.
  - destruct (F x Hx) as [u H]. rewrite short_source in H by exact L. discriminate.
  - destruct srcs as [|x srcs]; [congruence|]. destruct (F x (or_introl eq_refl)) as [u H].
    destruct S as [[r [E L]]|[v [E L]]].
    + rewrite E in H. exact (short_root md U r x url u L H).
    + rewrite E in H. exact (short_map md U _ x v u L H).
Qed.

Lemma short_not_opened : forall md L U order s url m srcs, map_text s m ->
  smj_sections m = None -> smj_sources m = Some srcs -> short_part m srcs url ->
  is_panic (create_consumer md L U order s url).
Proof.
  intros md L U order s url m srcs T S E H.
  destruct (create_dispatch md L U order s url) as [D1 D2]. destruct (D2 m T) as [D3 [_ D5]].
  destruct (create_consumer md L U order s url) as [[c|]|p] eqn:C.
  - exfalso. destruct (D3 c eq_refl) as [[_ [b [-> _]]]|[N _]]; [|congruence].
    apply (short_not_computed md U m srcs url H). apply (D5 srcs S E). exists b. reflexivity.
  - exfalso. apply (proj1 D1 eq_refl). exists m. exact T.
  - exists p. reflexivity.
Qed.

Lemma short_not_new : forall md L U s url m srcs, map_text s m ->
  smj_sources m = Some srcs -> short_part m srcs url -> is_panic (bc_new md L U s url).
Proof.
  intros md L U s url m srcs T E H. apply smj_from_str_iff in T. unfold bc_new. rewrite T.
  cbn [unwrap_ok bind]. unfold compute_absolute_sources. rewrite E. cbn.
  destruct (mapM _ srcs) as [r|p] eqn:M; [|exists p; reflexivity].
  exfalso. apply (short_not_computed md U m srcs url H). apply mapM_ok_iff. exists r. exact M.
Qed.

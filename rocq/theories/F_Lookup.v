(** * What a name finds: lemmas *)
From Verif Require Import Base F_Base M_ArraySet M_Mapping M_Util M_SourceMap M_Json M_MapLib M_Consumer M_Indexed
  S_List S_Url S_MapLib S_Consumer S_EndToEnd S_Refs S_MapUrl S_Opens S_OpensAt S_DataMap S_Lookup
  F_ArraySet F_UrlText F_UrlPath F_UrlOps F_UrlSource F_Refs F_ConsumerProps F_Listed F_Opens F_OpensAt F_DataMap.

Lemma first_index_at : forall u l k, first_index u l = Some k -> first_at l u k.
Proof.
  intros u l k E. destruct (first_index_some _ _ _ E) as [H1 H2]. split; [exact H1|].
  intros i Hi. destruct (Nat.le_gt_cases k i) as [H|H]; [exact H|]. exfalso. exact (H2 i H Hi).
Qed.

Lemma first_at_in : forall l u k, first_at l u k -> In u l.
Proof. intros l u k [H _]. exact (nth_error_In _ _ H). Qed.

Lemma first_at_fun : forall l u k k', first_at l u k -> first_at l u k' -> k = k'.
Proof. intros l u k k' [H1 H2] [H3 H4]. apply Nat.le_antisymm; auto. Qed.

Lemma found_fun : forall e root l q a b, found e root l q a -> found e root l q b -> a = b.
Proof.
  intros e root l q a b Ha Hb. destruct Ha, Hb; try reflexivity; try contradiction;
    try (exfalso; match goal with H : first_at _ _ _, N : ~ In _ _ |- _ => exact (N (first_at_in _ _ _ H)) end).
  - rewrite (first_at_fun _ _ _ _ H0 H2). reflexivity.
  - rewrite (first_at_fun _ _ _ _ H2 H6). reflexivity.
Qed.

Section Lookup.
  Context (md : mode) (L : MapLib) (U : UrlLib) (C : UrlContract U).

  Lemma url_leads : forall m d, url_at m d -> leads md U m d.
  Proof.
    intros m d [[r [-> M]]|[u [d' [-> [-> M]]]]]; [apply (map_leads md U C); exact M|apply (data_leads md U C); exact M].
  Qed.

  Lemma finds : forall j url c0 lk qs c root e q, opened_map md L U j url c0 lk -> asked md L U c0 qs = Ok c ->
    smj_source_root j = option_map ref_text root -> len (bc_get_sources L c0) < 2^31 ->
    leads md U lk e -> root_ref root -> source_ref q -> short_enough e None q -> short_enough e root q ->
    bc_get_sources L c = bc_get_sources L c0
    /\ found e root (bc_get_sources L c) q (answer (bc_find_source_index md L U c (ref_text q))).
  Proof.
    intros j url c0 lk qs c root e q O H ER Hl M Hr Hq B1 B2.
    destruct (opened_map_urls md L U j url c0 lk O) as [Ho [E1 [E2 _]]].
    destruct (source_lookup_stable md L U c0 qs c (ref_text q) Ho H Hl) as [S1 [S2 _]].
    split; [exact S1|]. rewrite S2, S1. unfold source_lookup, index_of_source. rewrite E1, E2, ER.
    destruct (one_source_at md U C lk e None q M I Hq B1) as [N1 N2]. cbn [option_map] in N1, N2.
    destruct (one_source_at md U C lk e root q M Hr Hq B2) as [R1 R2].
    destruct (acceptable_at_dec e None q) as [Y|N]; [rewrite N1 by exact Y|rewrite N2 by exact N; apply found_refused; exact N].
    cbn [bind]. destruct (first_index (ref_text (location_at e None q)) (bc_get_sources L c0)) as [k|] eqn:F.
    { apply found_outside; [exact Y|apply first_index_at; exact F]. }
    apply first_index_none in F.
    destruct (acceptable_at_dec e root q) as [Y'|N'];
      [rewrite R1 by exact Y'|rewrite R2 by exact N'; apply found_root_refused; assumption].
    cbn [bind]. destruct (first_index (ref_text (location_at e root q)) (bc_get_sources L c0)) as [k|] eqn:F'.
    - apply found_in_root; try assumption. apply first_index_at; exact F'.
    - apply found_nothing; try assumption. apply first_index_none; exact F'.
  Qed.

  Lemma finds_exactly : forall (j : SourceMapJson) (url : option str) (c0 : BasicConsumer L) (lookup : option str)
      (qs : list query) (c : BasicConsumer L) (root e : option ref) (q : ref),
    opened_map md L U j url c0 lookup -> asked md L U c0 qs = Ok c ->
    smj_source_root j = option_map ref_text root -> len (bc_get_sources L c0) < 2^31 ->
    url_at lookup e -> root_ref root -> source_ref q -> short_enough e None q -> short_enough e root q ->
    bc_get_sources L c = bc_get_sources L c0
    /\ forall r, answer (bc_find_source_index md L U c (ref_text q)) = r <-> found e root (bc_get_sources L c) q r.
  Proof.
    intros j url c0 lk qs c root e q O H ER Hl M Hr Hq B1 B2.
    destruct (finds j url c0 lk qs c root e q O H ER Hl (url_leads _ _ M) Hr Hq B1 B2) as [S F].
    split; [exact S|]. intros r. split; [intros <-; exact F|]. intros F'. exact (found_fun _ _ _ _ _ _ F F').
  Qed.

  (** the sources of an opened map *)
  Lemma listed_at : forall j m d c0 lk root ss, opened_map md L U j m c0 lk ->
    smj_sources j = Some (map ref_text ss) -> smj_source_root j = option_map ref_text root ->
    leads md U m d -> root_ref root -> Forall source_ref ss -> Forall (short_enough d root) ss ->
    Forall (acceptable_at d root) ss /\ bc_get_sources L c0 = map (fun s => ref_text (location_at d root s)) ss.
  Proof.
    intros j m d c0 lk root ss O ES ER M Hr Hs B.
    destruct (opened_map_urls md L U j m c0 lk O) as [_ [_ [_ [sources [E1 E2]]]]].
    rewrite ES in E1. injection E1 as <-. rewrite ER in E2.
    destruct (all_sources_at md U C m d root ss M Hr Hs B) as [A1 A2].
    assert (D : {Forall (acceptable_at d root) ss} + {~ Forall (acceptable_at d root) ss}).
    { apply Forall_dec. apply acceptable_at_dec. }
    destruct D as [D|D]; [|rewrite A2 in E2 by exact D; discriminate].
    rewrite A1 in E2 by exact D. injection E2 as E2. split; [exact D|]. symmetry. exact E2.
  Qed.

  Lemma lookup_leads : forall j m c0 lk d, opened_map md L U j m c0 lk -> url_at m d -> url_at lk (looks_in lk d).
  Proof.
    intros j m c0 lk d [[s [_ [_ ->]]]|[s [order [_ [_ ->]]]]] M.
    - destruct m as [m|]; [exact M|]. cbn. left. exists None. split; [reflexivity|exact I].
    - cbn. left. exists None. split; [reflexivity|exact I].
  Qed.

  Lemma written_found : forall (j : SourceMapJson) (m : option str) (d : option ref) (c0 : BasicConsumer L)
      (qs : list query) (c : BasicConsumer L) (root : option ref) (ss : list ref),
    opened_map md L U j m c0 m -> asked md L U c0 qs = Ok c ->
    smj_sources j = Some (map ref_text ss) -> smj_source_root j = option_map ref_text root -> len ss < 2^31 ->
    url_at m d -> root_ref root -> Forall source_ref ss -> Forall (short_enough d root) ss ->
    bc_get_sources L c = map (fun s => ref_text (location_at d root s)) ss
    /\ forall s, In s ss -> short_enough d None s ->
       (acceptable_at d None s -> exists k, answer (bc_find_source_index md L U c (ref_text s)) = Ok (Some (Z.of_nat k))
          /\ (first_at (bc_get_sources L c) (ref_text (location_at d None s)) k
              \/ ~ In (ref_text (location_at d None s)) (bc_get_sources L c)
                 /\ first_at (bc_get_sources L c) (ref_text (location_at d root s)) k))
       /\ (~ acceptable_at d None s -> answer (bc_find_source_index md L U c (ref_text s)) = Panic PUnwrapNone).
  Proof.
    intros j m d c0 qs c root ss O H ES ER Hl M Hr Hs B.
    destruct (listed_at j m d c0 m root ss O ES ER (url_leads _ _ M) Hr Hs B) as [A E].
    assert (Hl' : len (bc_get_sources L c0) < 2^31) by (rewrite E; unfold len in *; rewrite map_length; exact Hl).
    assert (Ec : bc_get_sources L c = bc_get_sources L c0).
    { destruct (opened_map_urls md L U j m c0 m O) as [Ho _].
      exact (proj1 (source_lookup_stable md L U c0 qs c [] Ho H Hl')). }
    split; [rewrite Ec; exact E|]. intros s Is Bs.
    assert (Hs1 : source_ref s) by (rewrite Forall_forall in Hs; apply Hs; exact Is).
    assert (B1 : short_enough d root s) by (rewrite Forall_forall in B; apply B; exact Is).
    assert (A1 : acceptable_at d root s) by (rewrite Forall_forall in A; apply A; exact Is).
    assert (I1 : In (ref_text (location_at d root s)) (bc_get_sources L c)).
    { rewrite Ec, E. apply in_map_iff. exists s. split; [reflexivity|exact Is]. }
    destruct (finds j m c0 m qs c root d s O H ER Hl' (url_leads _ _ M) Hr Hs1 Bs B1) as [_ F].
    split; intros Q; inversion F as [N Er|k Y K Er|Y N N' Er|k Y N Y' K Er|Y N Y' N' Er]; try contradiction; try reflexivity.
    - exists k. split; [reflexivity|left; exact K].
    - exists k. split; [reflexivity|right; split; assumption].
  Qed.

  (** what can be resolved and looked up again *)
  Definition again (s : ref) : Prop :=
    source_ref s /\ match s with
                    | RRel p q f => q = None /\ f = None
                    | RAbs p q f => path_text (resolve_from [] p) <> [] \/ q = None /\ f = None
                    | _ => True
                    end.

  Lemma bare_source : forall p, plain_path p -> again (RRel p None None).
  Proof.
    intros p Hp. split; [split; [exact Hp|]; split; [exact I|]; split; [exact I|right; split; reflexivity]|split; reflexivity].
  Qed.

  Lemma resolve_again : forall p q f, plain_path p -> plain_opt q -> plain_opt f ->
    path_text (resolve_from [] p) <> [] \/ q = None /\ f = None -> again (RAbs (resolve_from [] p) q f).
  Proof.
    intros p q f Hp Hq Hf M. split.
    - split; [apply plain_resolve; exact Hp|]. split; [exact Hq|]. split; [exact Hf|exact M].
    - rewrite resolve_twice by exact Hp. exact M.
  Qed.

  Lemma resolved_source : forall d s, (2 <= len (ref_text d) -> plain_ref d) -> 2 <= len (ref_text d) ->
    again s -> again (resolved d s).
  Proof.
    intros d s P L2 [Hs M]. destruct (P L2) as [Hd _].
    destruct s as [p q f|p q f|h p q f|o p q f]; cbn [source_ref] in Hs.
    - destruct Hs as [Hp _]. destruct M as [-> ->]. destruct d as [a b c|a b c|h a b c|o a b c]; cbn [resolved].
      + apply bare_source. apply plain_normal, plain_below; [apply Hd|exact Hp].
      + apply resolve_again; [apply plain_below; [apply Hd|exact Hp]|exact I|exact I|right; split; reflexivity].
      + destruct Hd as [H1 [H2 _]]. split; [|exact I]. split; [exact H1|]. split; [apply plain_resolve, plain_below; assumption|]. split; exact I.
      + destruct Hd as [H1 [H2 _]]. split; [|exact I]. split; [exact H1|]. split; [apply plain_resolve, plain_below; assumption|]. split; exact I.
    - destruct Hs as [Hp [Hq [Hf _]]]. destruct d as [a b c|a b c|h a b c|o a b c]; cbn [resolved].
      + apply resolve_again; assumption.
      + apply resolve_again; assumption.
      + destruct Hd as [H1 _]. split; [|exact I]. split; [exact H1|]. split; [apply plain_resolve; exact Hp|]. split; assumption.
      + destruct Hd as [H1 _]. split; [|exact I]. split; [exact H1|]. split; [apply plain_resolve; exact Hp|]. split; assumption.
    - destruct Hs as [H1 [H2 [H3 H4]]]. destruct d as [a b c|a b c|h' a b c|o a b c]; cbn [resolved]; (split; [|exact I]).
      1-3: (split; [exact H1|]; split; [apply plain_resolve; exact H2|]; split; assumption).
      split; [apply net_plain; [apply Hd|exact H1]|]. split; [apply plain_resolve; exact H2|]. split; assumption.
    - split; [exact Hs|exact I].
  Qed.

  Lemma in_order_source : forall s, again s -> again (in_order s).
  Proof.
    intros [p q f|p q f|h p q f|o p q f] [H M]; cbn [source_ref in_order] in *.
    - destruct M as [-> ->]. apply bare_source, plain_normal, H.
    - destruct H as [H1 [H2 [H3 _]]]. apply resolve_again; assumption.
    - destruct H as [H1 [H2 H3]]. split; [|exact I]. split; [exact H1|]. split; [apply plain_resolve; exact H2|exact H3].
    - destruct H as [H1 [H2 H3]]. split; [|exact I]. split; [exact H1|]. split; [apply plain_resolve; exact H2|exact H3].
  Qed.

  Lemma location_source : forall root s, root_ref root -> source_ref s -> plain_markers s -> again (location root s).
  Proof.
    intros [r|] s Hr Hs M; cbn [location].
    - destruct Hr as [P _].
      assert (G : forall x, again x -> again (resolved r x)).
      { intros x Hx. apply resolved_source; [intros _; exact P|apply P|exact Hx]. }
      destruct s as [p q f|p q f|h p q f|o p q f].
      + apply G, bare_source, unmarked_plain; apply Hs.
      + apply G, bare_source, unmarked_plain; apply Hs.
      + apply in_order_source, G. split; [exact Hs|exact I].
      + apply in_order_source, G. split; [exact Hs|exact I].
    - destruct s as [p q f|p q f|h p q f|o p q f].
      + apply bare_source, unmarked_plain; apply Hs.
      + apply in_order_source. split; [exact Hs|exact M].
      + apply in_order_source. split; [exact Hs|exact I].
      + apply in_order_source. split; [exact Hs|exact I].
  Qed.

  (** already in order *)
  Lemma in_order_twice : forall s, again s -> in_order (in_order s) = in_order s.
  Proof.
    intros [p q f|p q f|h p q f|o p q f] [H _]; cbn [source_ref in_order] in *.
    - rewrite normal_idem. reflexivity.
    - rewrite resolve_twice by apply H. reflexivity.
    - rewrite resolve_twice by apply H. reflexivity.
    - rewrite resolve_twice by apply H. reflexivity.
  Qed.

  Lemma in_order_resolved : forall d s, (2 <= len (ref_text d) -> plain_ref d) -> 2 <= len (ref_text d) ->
    again s -> (is_path s \/ in_order s = s) -> in_order (resolved d s) = resolved d s.
  Proof.
    intros d s P L2 [Hs _] Es. destruct (P L2) as [Hd _].
    destruct s as [p q f|p q f|h p q f|o p q f]; cbn [source_ref] in Hs.
    - destruct Hs as [Hp _]. destruct d as [a b c|a b c|h a b c|o a b c]; cbn [resolved in_order].
      + rewrite normal_idem. reflexivity.
      + rewrite resolve_twice; [reflexivity|]. apply plain_below; [apply Hd|exact Hp].
      + rewrite resolve_twice; [reflexivity|]. apply plain_below; [apply Hd|exact Hp].
      + rewrite resolve_twice; [reflexivity|]. apply plain_below; [apply Hd|exact Hp].
    - destruct Hs as [Hp _]. destruct d; cbn [resolved in_order]; rewrite resolve_twice by exact Hp; reflexivity.
    - destruct Hs as [_ [Hp _]]. destruct d; cbn [resolved in_order]; rewrite resolve_twice by exact Hp; reflexivity.
    - destruct Es as [[]|Es]. exact Es.
  Qed.

  Lemma normal_proper : forall p q f, proper (file (unmarked p q f)) -> normal (unmarked p q f) = unmarked p q f.
  Proof.
    intros p q f G. unfold unmarked in *. cbn [file] in G. set (g := file (normal p) ++ glue q ++ glue f) in *.
    rewrite normal_eq. rewrite (normal_eq p) at 3. cbn [rel_path dirs].
    assert (E : rel_of (mkPath (dirs (normal p)) g) = rel_of p).
    { rewrite rel_of_fold. unfold file_dirs. cbn [file dirs]. destruct (is_dot_proper _ G) as [-> ->].
      rewrite app_nil_r, normal_eq. cbn [rel_path dirs].
      rewrite fold_left_app, fold_rel_dotdots, fold_rel_proper by apply rel_of_proper. cbn [ups downs app].
      destruct (rel_of p). reflexivity. }
    rewrite E. unfold file_of. cbn [file]. destruct (is_dot_proper _ G) as [-> ->]. reflexivity.
  Qed.

  Lemma location_order : forall root s, root_ref root -> source_ref s -> plain_markers s ->
    in_order (location root s) = location root s.
  Proof.
    intros [r|] s Hr Hs M; cbn [location].
    - destruct Hr as [P _].
      assert (G : forall x, again x -> is_path x -> in_order (resolved r x) = resolved r x).
      { intros x Hx Px. apply in_order_resolved; [intros _; exact P|apply P|exact Hx|left; exact Px]. }
      assert (K : ~ is_path s -> in_order (in_order (resolved r s)) = in_order (resolved r s)).
      { intros N. apply in_order_twice. apply resolved_source; [intros _; exact P|apply P|].
        split; [exact Hs|]. destruct s; try exact I; exfalso; apply N; exact I. }
      destruct s as [p q f|p q f|h p q f|o p q f]; try (apply K; intros []).
      + apply G; [apply bare_source, unmarked_plain; apply Hs|exact I].
      + apply G; [apply bare_source, unmarked_plain; apply Hs|exact I].
    - destruct s as [p q f|p q f|h p q f|o p q f]; cbn [in_order source_ref plain_markers] in *.
      + rewrite normal_proper by exact M. reflexivity.
      + rewrite resolve_twice by apply Hs. reflexivity.
      + rewrite resolve_twice by apply Hs. reflexivity.
      + rewrite resolve_twice by apply Hs. reflexivity.
  Qed.

  Lemma location_fixed : forall x, again x -> in_order x = x -> location None x = x.
  Proof.
    intros [p q f|p q f|h p q f|o p q f] [_ M] E; try exact E. destruct M as [-> ->].
    cbn [location in_order] in *. rewrite unmarked_none. exact E.
  Qed.

  (** a URL in its place is not moved by its directory *)
  Lemma settled : forall d s, ~ is_relative (resolved d s) -> in_order s = s ->
    in_order (resolved d s) = resolved d s -> resolved d (resolved d s) = resolved d s.
  Proof.
    intros d s N Es E. destruct s as [p q f|p q f|h p q f|o p q f]; destruct d as [a b c|a b c|h' a b c|o' a b c];
      cbn [resolved in_order is_relative] in *; try (exfalso; apply N; exact I); try reflexivity; exact E.
  Qed.

  Lemma listed_found : forall (j : SourceMapJson) (m : option str) (d : option ref) (c0 : BasicConsumer L) (lookup : option str)
      (qs : list query) (c : BasicConsumer L) (root : option ref) (ss : list ref),
    opened_map md L U j m c0 lookup -> asked md L U c0 qs = Ok c ->
    smj_sources j = Some (map ref_text ss) -> smj_source_root j = option_map ref_text root -> len ss < 2^31 ->
    url_at m d -> root_ref root -> Forall source_ref ss -> Forall (short_enough d root) ss ->
    forall s, In s ss -> plain_markers s -> let x := location_at d root s in
      2 <= len (ref_text x) -> lookup = None \/ ~ is_relative x ->
      short_enough (looks_in lookup d) None x -> short_enough (looks_in lookup d) root x ->
      exists k, answer (bc_find_source_index md L U c (ref_text x)) = Ok (Some (Z.of_nat k))
        /\ first_at (bc_get_sources L c) (ref_text x) k.
  Proof.
    intros j m d c0 lk qs c root ss O H ES ER Hl M Hr Hs B s Is Pm x L2 W B1 B2.
    pose proof (url_leads _ _ M) as Md.
    destruct (listed_at j m d c0 lk root ss O ES ER Md Hr Hs B) as [A E].
    assert (Hl' : len (bc_get_sources L c0) < 2^31) by (rewrite E; unfold len in *; rewrite map_length; exact Hl).
    assert (Hs1 : source_ref s) by (rewrite Forall_forall in Hs; apply Hs; exact Is).
    assert (A1 : acceptable_at d root s) by (rewrite Forall_forall in A; apply A; exact Is).
    pose proof (location_source root s Hr Hs1 Pm) as Hy. pose proof (location_order root s Hr Hs1 Pm) as Ey.
    assert (Hx : again x /\ in_order x = x).
    { unfold x, location_at. destruct d as [d|]; [|split; assumption].
      assert (P : 2 <= len (ref_text d) -> plain_ref d).
      { destruct m as [m|]; [|contradiction]. exact (proj1 (proj2 Md)). }
      destruct A1 as [_ [_ A2]]. split; [apply resolved_source; assumption|apply in_order_resolved; [assumption..|right; exact Ey]]. }
    destruct Hx as [Ax Ex]. pose proof (location_fixed x Ax Ex) as Fx. destruct Ax as [Hx _].
    assert (X : acceptable_at (looks_in lk d) None x /\ location_at (looks_in lk d) None x = x).
    { unfold acceptable_at, location_at. rewrite Fx.
      assert (Ac : acceptable None x) by (destruct x; exact L2).
      destruct lk as [lk|]; [|split; [split; [exact Ac|exact I]|reflexivity]].
      destruct W as [W|W]; [discriminate|]. cbn [looks_in].
      destruct d as [d|]; [|split; [split; [exact Ac|exact I]|reflexivity]].
      destruct A1 as [_ [_ A2]]. split; [split; [exact Ac|split; assumption]|].
      unfold x, location_at. unfold x, location_at in W, Ex. apply settled; assumption. }
    destruct X as [X1 X2].
    assert (Ml : leads md U lk (looks_in lk d)) by exact (url_leads _ _ (lookup_leads j m c0 lk d O M)).
    destruct (finds j m c0 lk qs c root (looks_in lk d) x O H ER Hl' Ml Hr Hx B1 B2) as [S F].
    assert (I1 : In (ref_text x) (bc_get_sources L c)).
    { rewrite S, E. apply in_map_iff. exists s. split; [reflexivity|exact Is]. }
    rewrite <- X2 in I1.
    inversion F as [N Er|k Y K Er|Y N N' Er|k Y N Y' K Er|Y N Y' N' Er]; try contradiction.
    exists k. split; [reflexivity|]. rewrite X2 in K. exact K.
  Qed.
End Lookup.

(** * Which maps open under a map URL: lemmas *)
From Verif Require Import Base F_Base M_ArraySet F_ArraySet M_Util M_SourceMap M_Json M_MapLib M_Consumer M_Indexed
  S_Url S_Refs S_MapUrl S_Opens S_OpensAt F_UrlText F_UrlKind F_UrlPath F_UrlOps F_UrlSource F_Url F_UrlProps F_Refs F_MapUrl F_Opens.

Section OpensAt.
  Context (md : mode) (U : UrlLib) (C : UrlContract U).

  Lemma plain_below : forall r p, plain_path r -> plain_path p -> plain_path (below r p).
  Proof.
    intros [ds f] [es g] [H1 H2] [H3 H4]. unfold below. cbn [dirs file] in *. split; cbn [dirs file]; [|exact H4].
    apply Forall_app. split; [|exact H3].
    destruct f as [|c f]; cbn; [rewrite app_nil_r; exact H1|].
    apply Forall_app. split; [exact H1|]. constructor; [|constructor]. split; [discriminate|exact H2].
  Qed.

  Lemma plain_resolve : forall p, plain_path p -> plain_path (resolve_from [] p).
  Proof. intros p Hp. apply clean_plain, clean_resolve; try constructor; apply Hp. Qed.

  Lemma location_plain : forall root s, root_ref root -> source_ref s ->
    2 <= len (ref_text (location root s)) -> plain_ref (location root s).
  Proof.
    intros root s Hr Hs L2. split; [|exact L2]. destruct root as [r|]; cbn [root_ref location] in *.
    - destruct Hr as [[Hr _] _].
      assert (G : forall p, plain_path p -> 2 <= len (ref_text (resolved r (RRel p None None))) ->
        match resolved r (RRel p None None) with
        | RRel p q f => plain_path p /\ plain_opt q /\ plain_opt f /\ path_text p <> []
        | RAbs p q f => plain_path p /\ plain_opt q /\ plain_opt f
        | RNet h p q f => plain_host h /\ plain_path p /\ plain_opt q /\ plain_opt f
        | RUrl o p q f => plain_origin o /\ plain_path p /\ plain_opt q /\ plain_opt f
        end).
      { intros p Hp L3. destruct r as [a b c|a b c|h a b c|o a b c]; cbn [resolved ref_text] in L3 |- *.
        * split; [apply plain_normal, plain_below; [apply Hr|exact Hp]|]. split; [exact I|]. split; [exact I|].
          rewrite tail_none in L3. apply len_nonempty. lia.
        * split; [apply plain_resolve, plain_below; [apply Hr|exact Hp]|]. split; exact I.
        * destruct Hr as [H1 [H2 _]]. split; [exact H1|]. split; [apply plain_resolve, plain_below; [exact H2|exact Hp]|]. split; exact I.
        * destruct Hr as [H1 [H2 _]]. split; [exact H1|]. split; [apply plain_resolve, plain_below; [exact H2|exact Hp]|]. split; exact I. }
      destruct s as [p q f|p q f|h p q f|o p q f]; cbn [source_ref] in Hs.
      + destruct Hs as [Hp [Hq [Hf _]]]. apply G; [apply unmarked_plain; assumption|exact L2].
      + destruct Hs as [Hp [Hq [Hf _]]]. apply G; [apply unmarked_plain; assumption|exact L2].
      + destruct Hs as [H1 [H2 [H3 H4]]]. destruct r as [a b c|a b c|h' a b c|o a b c]; cbn [resolved in_order].
        1-3: (split; [exact H1|]; split; [apply plain_resolve, plain_resolve; exact H2|]; split; assumption).
        split; [apply net_plain; [apply Hr|exact H1]|]. split; [apply plain_resolve, plain_resolve; exact H2|]. split; assumption.
      + destruct Hs as [H1 [H2 [H3 H4]]]. cbn [resolved in_order].
        split; [exact H1|]. split; [apply plain_resolve; exact H2|]. split; assumption.
    - destruct s as [p q f|p q f|h p q f|o p q f]; cbn [source_ref in_order] in *.
      + destruct Hs as [Hp [Hq [Hf _]]]. split; [apply unmarked_plain; assumption|]. split; [exact I|]. split; [exact I|].
        cbn [ref_text] in L2. rewrite tail_none in L2. apply len_nonempty. lia.
      + destruct Hs as [Hp [Hq [Hf _]]]. split; [apply plain_resolve; exact Hp|]. split; assumption.
      + destruct Hs as [H1 [H2 [H3 H4]]]. split; [exact H1|]. split; [apply plain_resolve; exact H2|]. split; assumption.
      + destruct Hs as [H1 [H2 [H3 H4]]]. split; [exact H1|]. split; [apply plain_resolve; exact H2|]. split; assumption.
  Qed.

  Lemma location_bare : forall root s p q f, location root s = RRel p q f -> q = None /\ f = None.
  Proof.
    intros root s p q f E. destruct root as [r|]; cbn [location] in E.
    - destruct s as [p' q' f'|p' q' f'|h p' q' f'|o p' q' f'].
      + destruct r; inversion E; split; reflexivity.
      + destruct r; inversion E; split; reflexivity.
      + destruct r; inversion E.
      + inversion E.
    - destruct s as [p' q' f'|p' q' f'|h p' q' f'|o p' q' f']; inversion E; subst. split; reflexivity.
  Qed.

  (** the directory of the map URL *)
  Lemma directory_trim : forall m d, plain_ref m -> len (ref_text m) <= 2147483645 -> directory_of m d ->
    (exists t, TRIM_FILENAME md U (ref_text m) = Ok t /\ same_root md U t (ref_text d))
    /\ (2 <= len (ref_text d) -> plain_ref d) /\ harmless_markers d.
  Proof.
    intros m d Pm L D.
    assert (N : ~ is_relative m -> directory_of m d ->
      (exists t, TRIM_FILENAME md U (ref_text m) = Ok t /\ same_root md U t (ref_text d))
      /\ (2 <= len (ref_text d) -> plain_ref d) /\ harmless_markers d).
    { intros N E. assert (d = map_ref (in_order m)) as -> by (destruct m; [exfalso; apply N; exact I|exact E..]).
      split; [apply (trim_ref md U C); assumption|]. split; [apply map_ref_plain; assumption|].
      destruct m; [exfalso; apply N; exact I|exact I..]. }
    destruct m as [p q f|p q f|h p q f|o p q f]; [|apply N; [intros []|exact D]..]. clear N.
    destruct D as [n [name [Hn [Hi ->]]]]. destruct Pm as [[P1 [P2 [P3 P4]]] L2].
    cbn [ref_text] in *. rewrite !tail_none.
    split; [eexists; split; [apply (TRIM_any md U C); try eassumption; lia|intros path; reflexivity]|]. split.
    - intros L3. split; [|cbn [ref_text]; rewrite tail_none; exact L3].
      split; [|split; [exact I|split; [exact I|apply len_nonempty; lia]]].
      apply directory_plain; [apply (internal_plain _ _ Hi)|exact P1|apply glue_plain; assumption].
    - cbn [harmless_markers glue app]. apply proper_nil.
  Qed.

  (** Where the sources lie only depends on the directory taken for the map URL. *)
  Definition leads (m : option str) (d : option ref) : Prop :=
    match m, d with
    | None, None => True
    | Some m, Some d => (exists t, TRIM_FILENAME md U m = Ok t /\ same_root md U t (ref_text d)) /\ (2 <= len (ref_text d) -> plain_ref d) /\ harmless_markers d
    | _, _ => False
    end.

  Lemma map_leads : forall m d, map_at m d -> leads (option_map ref_text m) d.
  Proof.
    intros [m|] [d|]; cbn [map_at leads option_map]; try tauto. intros [M1 [M2 M3]]. apply directory_trim; assumption.
  Qed.

  Lemma one_source_at : forall m d root s, leads m d -> root_ref root -> source_ref s -> short_enough d root s ->
    (acceptable_at d root s ->
     compute_source_url md U (option_map ref_text root) (ref_text s) m
     = Ok (ref_text (location_at d root s)))
    /\ (~ acceptable_at d root s ->
        compute_source_url md U (option_map ref_text root) (ref_text s) m = Panic PUnwrapNone).
  Proof.
    intros m d root s M Hr Hs [B1 B2]. destruct (one_source md U C root s Hr Hs B1) as [O1 O2].
    unfold acceptable_at, location_at.
    destruct m as [m|], d as [d|]; cbn [leads] in M; try contradiction.
    - destruct M as [[t [T J]] [Pd Hd]].
      rewrite source_map. destruct (acceptable_dec root s) as [Y|N].
      + rewrite O1 by exact Y. cbn [bind]. rewrite T. cbn [bind]. rewrite J. split.
        * intros [_ [L1 L2]]. pose proof (location_plain root s Hr Hs L1) as Pl.
          rewrite (join_refs md U C); [|apply Pd; exact L2|exact Pl|left; exact Hd|exact B2]. f_equal.
          remember (location root s) as u eqn:Eu. symmetry in Eu.
          destruct u as [p q f|p q f|h p q f|o p q f]; destruct d; try reflexivity.
          destruct (location_bare _ _ _ _ _ Eu) as [-> ->]. cbn [resolved given_text ref_text glue app tail_text]. reflexivity.
        * intros F. apply short_join. destruct (Z_lt_dec (len (ref_text d)) 2) as [A|A]; [left; exact A|]. right.
          destruct (Z_lt_dec (len (ref_text (location root s))) 2) as [A'|A']; [exact A'|]. exfalso. apply F.
          split; [exact Y|lia].
      + rewrite O2 by exact N. cbn [bind]. split; [|reflexivity]. intros [Y _]. contradiction.
    - split; intros H; [apply O1; apply H|]. apply O2. intros A. apply H. split; [exact A|exact I].
  Qed.

  Lemma acceptable_at_dec : forall d root s, {acceptable_at d root s} + {~ acceptable_at d root s}.
  Proof.
    intros d root s. unfold acceptable_at. destruct (acceptable_dec root s) as [Y|N]; [|right; intros [H _]; contradiction].
    destruct d as [d|]; [|left; split; [exact Y|exact I]].
    destruct (Z_le_dec 2 (len (ref_text (location root s)))); [|right; intros [_ [H _]]; contradiction].
    destruct (Z_le_dec 2 (len (ref_text d))); [left; repeat split; assumption|right; intros [_ [_ H]]; contradiction].
  Qed.

  Lemma all_sources_at : forall m d root ss, leads m d -> root_ref root -> Forall source_ref ss -> Forall (short_enough d root) ss ->
    (Forall (acceptable_at d root) ss ->
     mapM (fun it => compute_source_url md U (option_map ref_text root) it m) (map ref_text ss)
     = Ok (map (fun s => ref_text (location_at d root s)) ss))
    /\ (~ Forall (acceptable_at d root) ss ->
        mapM (fun it => compute_source_url md U (option_map ref_text root) it m) (map ref_text ss)
        = Panic PUnwrapNone).
  Proof.
    intros m d root ss M Hr. induction ss as [|s ss IH]; intros Hs L.
    - split; [reflexivity|]. intros N. exfalso. apply N. constructor.
    - inversion Hs as [|a b Hs1 Hs2 Ea]. inversion L as [|a' b' L1 L2 Ea']. subst.
      destruct (IH Hs2 L2) as [I1 I2]. destruct (one_source_at m d root s M Hr Hs1 L1) as [O1 O2]. cbn [map mapM].
      split.
      + intros A. inversion A as [|a b A1 A2 Ea]. subst. rewrite O1 by exact A1. cbn [bind]. rewrite I1 by exact A2. reflexivity.
      + intros A. destruct (acceptable_at_dec d root s) as [Y|N].
        * rewrite O1 by exact Y. cbn [bind]. rewrite I2; [reflexivity|]. intros F. apply A. constructor; assumption.
        * rewrite O2 by exact N. reflexivity.
  Qed.

  (** There is always just one such directory. *)
  Lemma directory_exists : forall m, len (ref_text m) <= 2147483645 -> exists d, forall d', directory_of m d' <-> d' = d.
  Proof.
    intros m L. destruct m as [p q f|p q f|h p q f|o p q f]; [|eexists; intros d'; cbn; reflexivity..].
    destruct (internal_one (ref_text (RRel p q f)) L) as [a Ha].
    exists (RRel (map_directory (count_dotdot (ref_text (RRel p q f))) a p (glue q ++ glue f)) None None).
    intros d'. split.
    - intros [n [name [Hn [Hi ->]]]]. apply Ha in Hi. subst name.
      rewrite (max_dotdots_fun _ _ _ Hn (count_max _)). reflexivity.
    - intros ->. do 2 eexists. split; [apply count_max|]. split; [apply Ha; reflexivity|reflexivity].
  Qed.

  Context (L : MapLib) (order : list nat) (t : str) (j : SourceMapJson) (m : option str) (d root : option ref) (ss : list ref).
  Context (R : smj_from_str t = Some j) (NS : smj_sections j = None)
    (ES : smj_sources j = Some (map ref_text ss)) (ER : smj_source_root j = option_map ref_text root)
    (MA : leads m d) (HR : root_ref root) (HS : Forall source_ref ss) (B : Forall (short_enough d root) ss).

  Lemma opens_in :
    (Forall (acceptable_at d root) ss ->
     exists c c', create_consumer md L U order t m = Ok (Some (CBasic c))
       /\ bc_new md L U t m = Ok c'
       /\ bc_get_sources L c = map (fun s => ref_text (location_at d root s)) ss
       /\ bc_get_sources L c' = map (fun s => ref_text (location_at d root s)) ss)
    /\ (~ Forall (acceptable_at d root) ss ->
        create_consumer md L U order t m = Panic PUnwrapNone
        /\ bc_new md L U t m = Panic PUnwrapNone).
  Proof.
    destruct (all_sources_at m d root ss MA HR HS B) as [A1 A2].
    unfold create_consumer, bc_new, bc_from_source_map_json, compute_absolute_sources.
    rewrite R. cbn [unwrap_ok bind]. rewrite NS, ES, ER. cbn [is_some unwrap bind]. split; intros H.
    - rewrite A1 by exact H. cbn [bind]. do 2 eexists. split; [reflexivity|]. split; [reflexivity|].
      unfold bc_get_sources. cbn [bc_absolute_sources]. split; apply as_from_array_vec.
    - rewrite A2 by exact H. split; reflexivity.
  Qed.
End OpensAt.

Lemma opens_at : forall (md : mode) (U : UrlLib) (C : UrlContract U) (L : MapLib)
    (order : list nat) (t : str) (j : SourceMapJson) (m d root : option ref) (ss : list ref),
  smj_from_str t = Some j -> smj_sections j = None -> smj_sources j = Some (map ref_text ss) ->
  smj_source_root j = option_map ref_text root -> map_at m d -> root_ref root -> Forall source_ref ss ->
  Forall (short_enough d root) ss ->
  (Forall (acceptable_at d root) ss ->
   exists c c', create_consumer md L U order t (option_map ref_text m) = Ok (Some (CBasic c))
     /\ bc_new md L U t (option_map ref_text m) = Ok c'
     /\ bc_get_sources L c = map (fun s => ref_text (location_at d root s)) ss
     /\ bc_get_sources L c' = map (fun s => ref_text (location_at d root s)) ss)
  /\ (~ Forall (acceptable_at d root) ss ->
      create_consumer md L U order t (option_map ref_text m) = Panic PUnwrapNone
      /\ bc_new md L U t (option_map ref_text m) = Panic PUnwrapNone).
Proof. intros. eapply opens_in; try eassumption. apply map_leads; assumption. Qed.

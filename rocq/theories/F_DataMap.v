(** * Maps whose URL has a scheme but no "//": lemmas *)
From Verif Require Import Base F_Base M_Mapping M_ArraySet F_ArraySet M_Util M_SourceMap M_Json M_MapLib M_Consumer M_Indexed
  S_Url S_Refs S_MapUrl S_Opens S_OpensAt S_Mapping S_Consumer S_Indexed S_OpensIndexed S_DataMap
  F_UrlText F_UrlKind F_UrlPath F_UrlOps F_UrlSource F_Url F_UrlProps F_Refs F_MapUrl F_Opens F_OpensAt F_OpensIndexed F_UrlRef F_Opaque.

Lemma split_filter : forall a, concat (split_char c_slash a) = filter not_slash a.
Proof.
  induction a as [|x a IH]; [reflexivity|]. cbn [split_char filter]. unfold not_slash at 1. change (ch "/") with c_slash.
  destruct (N.eqb_spec x c_slash) as [->|N]; cbn [negb]; [exact IH|].
  pose proof (split_nonempty c_slash a) as NE. destruct (split_char c_slash a) as [|w ws]; [contradiction|]. cbn in *. rewrite IH. reflexivity.
Qed.

Lemma split_last : forall a b, ~ In c_slash b -> split_char c_slash (a ++ lit "/" ++ b) = split_char c_slash a ++ [b].
Proof.
  intros a b Hb. assert (E : split_char c_slash b = [b]).
  { induction b as [|x b IH]; [reflexivity|]. cbn [split_char]. destruct (N.eqb_spec x c_slash) as [->|N]; [exfalso; apply Hb; left; reflexivity|].
    rewrite IH; [reflexivity|]. intros H. apply Hb. right. exact H. }
  induction a as [|x a IH]; cbn [app split_char lit].
  - change (N.eqb (N_of_ascii "/") c_slash) with true. cbn iota. rewrite E. reflexivity.
  - destruct (N.eqb_spec x c_slash) as [->|N]; [cbn [lit app] in IH; rewrite IH; reflexivity|].
    cbn [lit app] in IH. rewrite IH. pose proof (split_nonempty c_slash a) as NE.
    destruct (split_char c_slash a) as [|w ws]; [contradiction|]. reflexivity.
Qed.

Lemma join_nil : forall l : list str, join_str [] l = concat l.
Proof.
  induction l as [|x [|y l] IH]; [reflexivity|cbn; rewrite app_nil_r; reflexivity|].
  rewrite join_cons by discriminate. rewrite IH. reflexivity.
Qed.

Section DataMap.
  Context (md : mode) (U : UrlLib) (C : UrlContract U).

  Lemma trim_path : forall (u : ul_t U) a b, ~ In c_slash b -> ul_path U u = a ++ lit "/" ++ b ->
    trim_filename_cb U u = ul_set_path U u (filter not_slash a).
  Proof.
    intros u a b Hb E. unfold trim_filename_cb. rewrite E, split_last by exact Hb. rewrite rev_app_distr. cbn [rev app].
    destruct b as [|x b]; rewrite join_nil.
    - rewrite concat_app, split_filter. cbn [concat app]. rewrite !app_nil_r. reflexivity.
    - rewrite rev_involutive, split_filter. reflexivity.
  Qed.

  Lemma trim_opaque : forall a b t, opaque_text t -> t = a ++ lit "/" ++ b -> opaque_text (filter not_slash a).
  Proof.
    intros a b t [Tn [Th Tc]] ->. destruct a as [|x a]; [exfalso; apply Th; reflexivity|]. cbn [app hd] in Th.
    assert (E : filter not_slash (x :: a) = x :: filter not_slash a).
    { cbn [filter]. unfold not_slash at 1. destruct (N.eqb_spec x (ch "/")); [contradiction|reflexivity]. }
    rewrite E. split; [discriminate|]. split; [exact Th|]. rewrite <- E.
    rewrite Forall_app in Tc. destruct Tc as [Tc _]. rewrite Forall_forall in *. intros c Hc. apply filter_In in Hc. apply Tc, Hc.
  Qed.

  Lemma relative_empty : forall input base seg k u tu s q f,
    base_of md U input base seg k u -> shows_opaque U tu s [] q f ->
    relative_path_of U u tu = ref_text (RRel (match k with
      | O => mkPath [] (glue q ++ glue f)
      | S j => mkPath (repeat dotdot j) (dotdot ++ glue q ++ glue f) end) None None).
  Proof.
    intros input base seg k u tu s q f B [_ [S2 [S3 S4]]]. unfold relative_path_of.
    destruct (b_shows _ _ _ _ _ _ _ B) as [_ [-> _]]. rewrite S2, S3, S4.
    rewrite (no_slash_abs (mkPath (repeat seg k) [])) by (apply clean_plain; apply (b_clean _ _ _ _ _ _ _ B)).
    cbn [dirs file]. rewrite pop_empty_snoc. cbn [split_char].
    replace (strip_common [[]] ([] :: repeat seg k)) with (@nil str, repeat seg k) by (destruct k; reflexivity).
    rewrite app_nil_r, map_repeat'. cbn [ref_text]. rewrite tail_none.
    destruct k as [|k].
    - cbn [repeat join_str]. unfold path_text. cbn [dirs file dirs_text map concat app].
      destruct q as [q|], f as [f|]; cbn [glue]; rewrite ?app_nil_r; reflexivity.
    - change (lit "..") with dotdot. rewrite F_MapUrl.join_dotdots. unfold path_text. cbn [dirs file].
      destruct q as [q|], f as [f|]; cbn [glue]; rewrite <- ?app_assoc, ?app_nil_r; reflexivity.
  Qed.

  Lemma trim_empty : forall (u : ul_t U), ul_path U u <> [] -> ~ In c_slash (ul_path U u) -> trim_filename_cb U u = ul_set_path U u [].
  Proof.
    intros u N Hb. unfold trim_filename_cb. rewrite split_no_slash by exact Hb. cbn [rev app].
    destruct (ul_path U u) as [|x b]; [contradiction|]. reflexivity.
  Qed.

  Lemma TRIM_opaque : forall s t q f d, any_scheme s -> opaque_text t -> plain_opt q -> plain_opt f ->
    len (opaque_url s t q f) <= 2147483645 -> data_directory s t q f d ->
    TRIM_FILENAME md U (opaque_url s t q f) = Ok (ref_text d).
  Proof.
    intros s t q f d Hs Ht Hq Hf L [k [Hk D]]. unfold TRIM_FILENAME, safe_handler.
    rewrite type_opaque by assumption. cbn [bind].
    destruct (base_ok md U C (opaque_url s t q f) L) as [base [seg [n [u B]]]].
    assert (n = k) as ->.
    { rewrite (b_count _ _ _ _ _ _ _ B). eapply max_dotdots_fun; [apply count_max|exact Hk]. }
    rewrite (b_ok _ _ _ _ _ _ _ B). cbn [bind]. rewrite (b_parse _ _ _ _ _ _ _ B). cbn [bind unwrap_ok].
    destruct (uc_join_opaque U C u host_origin _ None None s t q f host_plain (b_clean _ _ _ _ _ _ _ B)
                (b_shows _ _ _ _ _ _ _ B) Hs Ht Hq Hf) as [u' [E S]].
    rewrite E. cbn [bind unwrap_ok]. destruct D as [[a [b [E0 [Hb ->]]]]|[Hb ->]].
    - pose proof (trim_opaque a b t Ht E0) as Ht'.
      assert (P : ul_path U u' = a ++ lit "/" ++ b) by (rewrite <- E0; apply S).
      rewrite (trim_path u' a b Hb P).
      pose proof (uc_set_path_opaque U C u' (map to_lower s) t q f (filter not_slash a) Hs Ht S (or_introl Ht')) as [S1 _].
      rewrite S1.
      destruct (uc_parse_opaque U C (map to_lower s) (filter not_slash a) q f (any_lower s Hs) (or_introl Ht') Hq Hf) as [tu [E' S']].
      rewrite (other_lower _ Hs) in S'. unfold compute_relative_url.
      rewrite (b_parse _ _ _ _ _ _ _ B), E'. cbn [bind unwrap_ok]. f_equal.
      rewrite (relative_opaque md U _ _ _ _ _ _ _ _ _ _ B Ht' S').
      cbn [ref_text]. rewrite tail_none. unfold path_text. cbn [dirs file]. reflexivity.
    - assert (P : ul_path U u' = t) by apply S.
      rewrite trim_empty; [|rewrite P; apply Ht|rewrite P; exact Hb].
      pose proof (uc_set_path_opaque U C u' (map to_lower s) t q f [] Hs Ht S (or_intror eq_refl)) as [S1 _].
      rewrite S1.
      destruct (uc_parse_opaque U C (map to_lower s) [] q f (any_lower s Hs) (or_intror eq_refl) Hq Hf) as [tu [E' S']].
      unfold compute_relative_url. rewrite (b_parse _ _ _ _ _ _ _ B), E'. cbn [bind unwrap_ok]. f_equal.
      exact (relative_empty _ _ _ _ _ _ _ _ _ B S').
  Qed.

  Lemma data_leads : forall m d, data_map m d -> leads md U (Some m) (Some d).
  Proof.
    intros m d [s [t [q [f [-> [Hs [Ht [Hq [Hf [L [D P]]]]]]]]]]]. cbn [leads].
    split; [exists (ref_text d); split; [apply (TRIM_opaque s t q f d); assumption|intros path; reflexivity]|]. split; [exact P|].
    destruct D as [k [_ [[a [b [_ [_ ->]]]]|[_ ->]]]]; cbn [harmless_markers glue app]; apply proper_nil.
  Qed.

  Lemma data_source : forall m d root s, data_map m d -> root_ref root -> source_ref s -> short_enough (Some d) root s ->
    (acceptable_at (Some d) root s ->
     compute_source_url md U (option_map ref_text root) (ref_text s) (Some m) = Ok (ref_text (location_at (Some d) root s)))
    /\ (~ acceptable_at (Some d) root s ->
        compute_source_url md U (option_map ref_text root) (ref_text s) (Some m) = Panic PUnwrapNone).
  Proof.
    intros m d root s M Hr Hs B. exact (one_source_at md U C (Some m) (Some d) root s (data_leads m d M) Hr Hs B).
  Qed.

  Lemma data_opens : forall (L : MapLib) (order : list nat) (t : str) (j : SourceMapJson) m d (root : option ref) (ss : list ref),
    smj_from_str t = Some j -> smj_sections j = None -> smj_sources j = Some (map ref_text ss) ->
    smj_source_root j = option_map ref_text root -> data_map m d -> root_ref root -> Forall source_ref ss ->
    Forall (short_enough (Some d) root) ss ->
    (Forall (acceptable_at (Some d) root) ss ->
     exists c c', create_consumer md L U order t (Some m) = Ok (Some (CBasic c)) /\ bc_new md L U t (Some m) = Ok c'
       /\ bc_get_sources L c = map (fun s => ref_text (location_at (Some d) root s)) ss
       /\ bc_get_sources L c' = map (fun s => ref_text (location_at (Some d) root s)) ss)
    /\ (~ Forall (acceptable_at (Some d) root) ss ->
        create_consumer md L U order t (Some m) = Panic PUnwrapNone /\ bc_new md L U t (Some m) = Panic PUnwrapNone).
  Proof. intros. eapply opens_in; try eassumption. apply (data_leads m d). assumption. Qed.

  Lemma data_opens_indexed : forall (L : MapLib) m d, data_map m d ->
    forall (order : list nat) (t : str) (j : SourceMapJson) (l : list JSection) (ds : list piece),
    smj_from_str t = Some j -> smj_sections j = Some l -> Forall2 section_of l ds -> Forall (written_piece (Some d)) ds ->
    schedule order (length ds) ->
    (smj_version j = 3 /\ Forall (usable md (Some d)) ds /\ well_timed ds order ->
     exists c, create_consumer md L U order t (Some m) = Ok (Some (CIndexed c)) /\ ic_new md L U order t (Some m) = Ok c
       /\ map sec_generated_offset (sections_of L c)
          = map (fun d => mkPos (next_i32 (p_line (pc_offset d))) (next_i32 (p_column (pc_offset d)))) ds
       /\ map (fun s => bc_get_sources L (sec_consumer s)) (sections_of L c)
          = map (fun p => map (fun r => ref_text (location_at (Some d) (pc_root p) r)) (piece_sources p)) ds
       /\ answer (ic_get_sources L c) = Ok (concat (map (fun p => map ref_text (piece_sources p)) ds)))
    /\ (~ (smj_version j = 3 /\ Forall (usable md (Some d)) ds /\ well_timed ds order) ->
        exists p, create_consumer md L U order t (Some m) = Panic p /\ ic_new md L U order t (Some m) = Panic p).
  Proof. intros. eapply opens_indexed_in; try eassumption. apply (data_leads m d). assumption. Qed.

  Lemma last_slash : forall t : str, In (ch "/") t -> exists a b, t = a ++ lit "/" ++ b /\ ~ In (ch "/") b.
  Proof.
    induction t as [|x t IH]; intros H; [contradiction|]. destruct (in_dec N.eq_dec (ch "/") t) as [Y|N].
    - destruct (IH Y) as [a [b [-> Hb]]]. exists (x :: a), b. split; [reflexivity|exact Hb].
    - destruct H as [->|H]; [|contradiction]. exists [], t. split; [reflexivity|exact N].
  Qed.

  Lemma data_exists : forall s t q f, exists d, forall d', data_directory s t q f d' <-> d' = d.
  Proof.
    intros s t q f. destruct (in_dec N.eq_dec (ch "/") t) as [H|H].
    - destruct (last_slash t H) as [a [b [E Hb]]].
      exists (RRel (mkPath (repeat dotdot (S (count_dotdot (opaque_url s t q f)))) (filter not_slash a ++ glue q ++ glue f)) None None).
      intros d'. split.
      + intros [k [Hk [[a' [b' [E' [Hb' ->]]]]|[N _]]]]; [|contradiction].
        rewrite (max_dotdots_fun _ _ _ Hk (count_max _)).
        assert (F : split_char c_slash a ++ [b] = split_char c_slash a' ++ [b']).
        { rewrite <- !split_last by assumption. congruence. }
        apply app_inj_tail in F. destruct F as [F _]. rewrite <- !split_filter, F. reflexivity.
      + intros ->. exists (count_dotdot (opaque_url s t q f)). split; [apply count_max|]. left. exists a, b. repeat split; assumption.
    - eexists. intros d'. split.
      + intros [k [Hk [[a' [b' [E' _]]]|[_ ->]]]].
        * exfalso. apply H. rewrite E'. apply in_or_app. right. left. reflexivity.
        * rewrite (max_dotdots_fun _ _ _ Hk (count_max _)). reflexivity.
      + intros ->. exists (count_dotdot (opaque_url s t q f)). split; [apply count_max|]. right. split; [exact H|reflexivity].
  Qed.
End DataMap.

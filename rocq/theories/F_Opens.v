(** * Which plain maps open: lemmas *)
From Verif Require Import Base F_Base M_ArraySet F_ArraySet M_Util M_SourceMap M_Json M_MapLib M_Consumer M_Indexed
  S_Url S_Refs S_Opens F_UrlText F_UrlKind F_UrlPath F_UrlOps F_UrlSource F_Url F_UrlProps F_Refs F_Dispatch.

Section Opens.
  Context (md : mode) (U : UrlLib) (C : UrlContract U).

  Lemma tail_none : forall t, t ++ tail_text None None = t.
  Proof. intros t. cbn. apply app_nil_r. Qed.

  Lemma unmarked_text : forall p q f, path_text (unmarked p q f) = path_text (normal p) ++ glue q ++ glue f.
  Proof. intros p q f. unfold unmarked, path_text. cbn [dirs file]. rewrite app_assoc. reflexivity. Qed.

  Lemma unmarked_plain : forall p q f, plain_path p -> plain_opt q -> plain_opt f -> plain_path (unmarked p q f).
  Proof. intros p q f Hp Hq Hf. exact (glued_plain (normal p) q f (plain_normal p Hp) Hq Hf). Qed.

  Lemma unmarked_none : forall p, unmarked p None None = normal p.
  Proof. intros p. unfold unmarked. cbn [glue app]. rewrite app_nil_r. destruct (normal p); reflexivity. Qed.

  Lemma len_unmarked : forall p q f, len (path_text (unmarked p q f)) <= len (path_text p ++ tail_text q f) + 1.
  Proof.
    intros p q f. rewrite unmarked_text, !len_app. pose proof (len_normal p). pose proof (len_tail q f) as T.
    rewrite len_app in T. lia.
  Qed.

  (** markers only behind a path *)
  Lemma marked_nonempty : forall p q f, path_text p <> [] \/ q = None /\ f = None ->
    1 <= len (path_text p ++ tail_text q f) -> path_text p <> [].
  Proof. intros p q f [H|[-> ->]] L; [exact H|]. rewrite tail_none in L. apply len_nonempty. exact L. Qed.

  Lemma joined_rel : forall r p, plain_ref r -> harmless_markers r -> plain_path p -> 2 <= len (path_text p) ->
    len (ref_text r) + len (path_text p) <= 2147483644 ->
    url_join md U (ref_text r) (path_text p) = Ok (ref_text (resolved r (RRel p None None))).
  Proof.
    intros r p Hr Hm Hp L2 L.
    pose proof (join_refs md U C r (RRel p None None) Hr) as J. cbn [ref_text] in J.
    rewrite !tail_none in J. rewrite J; [| |left; exact Hm|exact L].
    - f_equal. destruct r as [a q f|a q f|h a q f|o a q f]; cbn [resolved given_text ref_text]; reflexivity.
    - split; [|cbn [ref_text]; rewrite tail_none; exact L2].
      split; [exact Hp|]. split; [exact I|]. split; [exact I|]. apply len_nonempty; lia.
  Qed.

  Lemma rooted_path : forall r p q f (slash : bool), plain_ref r -> harmless_markers r -> plain_path p ->
    plain_opt q -> plain_opt f -> path_text p <> [] \/ q = None /\ f = None ->
    len (ref_text r) + len (path_text p ++ tail_text q f) <= 2147483643 ->
    2 <= len (path_text p ++ tail_text q f) ->
    (2 <= len (path_text (unmarked p q f)) ->
     compute_source_url md U (Some (ref_text r)) ((if slash then lit "/" else []) ++ path_text p ++ tail_text q f) None
     = Ok (ref_text (resolved r (RRel (unmarked p q f) None None))))
    /\ (len (path_text (unmarked p q f)) < 2 ->
        compute_source_url md U (Some (ref_text r)) ((if slash then lit "/" else []) ++ path_text p ++ tail_text q f) None
        = Panic PUnwrapNone).
  Proof.
    intros r p q f slash Hr Hm Hp Hq Hf M L L1. pose proof (len_nonneg _ (ref_text r)). pose proof (len_unmarked p q f).
    pose proof (marked_nonempty p q f M ltac:(lia)) as Hn.
    assert (L2 : 2 <= len (path_text p ++ tail_text q f) <= 2147483645) by lia.
    rewrite (source_root_rel md U C (ref_text r) p q f slash Hp Hn Hq Hf L2).
    change (glued (normal p) q f) with (unmarked p q f). split; intros A.
    - apply joined_rel; [exact Hr|exact Hm|apply unmarked_plain; assumption|exact A|lia].
    - apply short_join_path. exact A.
  Qed.

  Lemma one_source : forall root s, root_ref root -> source_ref s ->
    root_length root + len (ref_text s) <= 2147483643 ->
    (acceptable root s ->
     compute_source_url md U (option_map ref_text root) (ref_text s) None = Ok (ref_text (location root s)))
    /\ (~ acceptable root s -> compute_source_url md U (option_map ref_text root) (ref_text s) None = Panic PUnwrapNone).
  Proof.
    intros root s Hr Hs L.
    assert (X : forall p q f, ref_text (RAbs p q f) = lit "/" ++ path_text p ++ tail_text q f).
    { intros p q f. cbn [ref_text]. unfold abs_text. rewrite <- app_assoc. reflexivity. }
    assert (X1 : forall p q f, len (ref_text (RAbs p q f)) = 1 + len (path_text p ++ tail_text q f)).
    { intros p q f. rewrite X, len_app. reflexivity. }
    destruct (Z_lt_ge_dec (len (ref_text s)) 2) as [Sh|Ln].
    { split; [|intros _; apply short_source; exact Sh]. intros A. exfalso.
      destruct root as [r|]; [|unfold acceptable in A; destruct s; lia].
      destruct s as [p q f|p q f|h p q f|o p q f]; cbn [acceptable] in A; try lia.
      - cbn [ref_text] in Sh. lia.
      - rewrite X1 in Sh. lia. }
    destruct root as [r|]; cbn [option_map root_length root_ref] in *.
    - destruct Hr as [Hr Hm]. pose proof (len_nonneg _ (ref_text r)).
      destruct s as [p q f|p q f|h p q f|o p q f]; cbn [acceptable location].
      + destruct Hs as [Hp [Hq [Hf M]]]. cbn [ref_text] in L, Ln |- *.
        destruct (rooted_path r p q f false Hr Hm Hp Hq Hf M L ltac:(lia)) as [R1 R2]. cbn [app] in R1, R2. split; intros A.
        * apply R1. apply A.
        * apply R2. lia.
      + destruct Hs as [Hp [Hq [Hf M]]]. rewrite X1 in L, Ln.
        destruct (Z_lt_dec (len (path_text p ++ tail_text q f)) 2) as [Sh|L2].
        { split; [intros A; exfalso; lia|]. intros _. rewrite X. rewrite source_root_abs; [rewrite normalize_short by exact Sh; reflexivity|].
          rewrite <- X. apply type_abs_path; try assumption. lia. }
        rewrite X. destruct (rooted_path r p q f true Hr Hm Hp Hq Hf M ltac:(lia) ltac:(lia)) as [R1 R2]. split; intros A.
        * apply R1. apply A.
        * apply R2. lia.
      + split; intros A; [|exfalso; apply A; cbn [ref_text] in *; lia].
        apply (root_refs md U C); [exact Hr|split; [exact Hs|exact A]|intros []|lia].
      + split; intros A; [|exfalso; apply A; cbn [ref_text] in *; lia].
        apply (root_refs md U C); [exact Hr|split; [exact Hs|exact A]|intros []|lia].
    - split; intros A; [|exfalso; apply A; cbn [acceptable]; destruct s; lia].
      destruct s as [p q f|p q f|h p q f|o p q f]; cbn [location in_order].
      + destruct Hs as [Hp [Hq [Hf M]]]. cbn [ref_text] in *. rewrite tail_none, unmarked_text.
        apply (source_rel md U C); try assumption; [apply (marked_nonempty p q f M); lia|lia].
      + destruct Hs as [Hp [Hq [Hf M]]]. cbn [ref_text] in *.
        apply (source_abs md U C); [exact Hp|exact Hq|exact Hf|apply long_abs; lia|lia].
      + destruct Hs as [H1 [H2 [H3 H4]]]. cbn [ref_text] in *. apply (source_net md U C); [exact H1|exact H2|exact H3|exact H4|lia].
      + destruct Hs as [H1 [H2 [H3 H4]]]. cbn [ref_text] in *. apply (source_url md U C); [exact H1|exact H2|exact H3|exact H4|lia].
  Qed.

  Lemma acceptable_dec : forall root s, {acceptable root s} + {~ acceptable root s}.
  Proof.
    intros [r|] [p q f|p q f|h p q f|o p q f]; cbn [acceptable]; try apply Z_le_dec;
      destruct (Z_le_dec 2 (len (path_text p ++ tail_text q f))); destruct (Z_le_dec 2 (len (path_text (unmarked p q f))));
      try (left; split; assumption); right; intros [X Y]; contradiction.
  Qed.

  Lemma all_sources : forall root ss, root_ref root -> Forall source_ref ss ->
    Forall (fun s => root_length root + len (ref_text s) <= 2147483643) ss ->
    (Forall (acceptable root) ss ->
     mapM (fun it => compute_source_url md U (option_map ref_text root) it None) (map ref_text ss)
     = Ok (map (fun s => ref_text (location root s)) ss))
    /\ (~ Forall (acceptable root) ss ->
        mapM (fun it => compute_source_url md U (option_map ref_text root) it None) (map ref_text ss) = Panic PUnwrapNone).
  Proof.
    intros root ss Hr. induction ss as [|s ss IH]; intros Hs L.
    - split; [reflexivity|]. intros N. exfalso. apply N. constructor.
    - inversion Hs as [|a b Hs1 Hs2 Ea]. inversion L as [|a' b' L1 L2 Ea']. subst.
      destruct (IH Hs2 L2) as [I1 I2]. destruct (one_source root s Hr Hs1 L1) as [O1 O2]. cbn [map mapM].
      split.
      + intros A. inversion A as [|a b A1 A2 Ea]. subst. rewrite O1 by exact A1. cbn [bind]. rewrite I1 by exact A2. reflexivity.
      + intros A. destruct (acceptable_dec root s) as [Y|N].
        * rewrite O1 by exact Y. cbn [bind]. rewrite I2; [reflexivity|]. intros F. apply A. constructor; assumption.
        * rewrite O2 by exact N. reflexivity.
  Qed.

  Context (L : MapLib) (order : list nat) (t : str) (j : SourceMapJson) (root : option ref) (ss : list ref).
  Context (R : smj_from_str t = Some j) (NS : smj_sections j = None)
    (ES : smj_sources j = Some (map ref_text ss)) (ER : smj_source_root j = option_map ref_text root)
    (HR : root_ref root) (HS : Forall source_ref ss)
    (B : Forall (fun s => root_length root + len (ref_text s) <= 2147483643) ss).

  Lemma opens_exactly :
    (Forall (acceptable root) ss ->
     exists c c', create_consumer md L U order t None = Ok (Some (CBasic c)) /\ bc_new md L U t None = Ok c'
       /\ bc_get_sources L c = map (fun s => ref_text (location root s)) ss
       /\ bc_get_sources L c' = map (fun s => ref_text (location root s)) ss)
    /\ (~ Forall (acceptable root) ss ->
        create_consumer md L U order t None = Panic PUnwrapNone /\ bc_new md L U t None = Panic PUnwrapNone).
  Proof.
    destruct (all_sources root ss HR HS B) as [A1 A2].
    unfold create_consumer, bc_new, bc_from_source_map_json, compute_absolute_sources.
    rewrite R. cbn [unwrap_ok bind]. rewrite NS, ES, ER. cbn [is_some unwrap bind]. split; intros H.
    - rewrite A1 by exact H. cbn [bind]. do 2 eexists. split; [reflexivity|]. split; [reflexivity|].
      unfold bc_get_sources. cbn [bc_absolute_sources]. split; apply as_from_array_vec.
    - rewrite A2 by exact H. split; reflexivity.
  Qed.
End Opens.

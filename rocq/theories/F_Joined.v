(** * Lemmas about indexed maps put one behind the other (C116) *)
From Verif Require Import F_Base M_ArraySet M_BinarySearch M_Mapping M_SourceMap M_Json M_MapLib M_Util M_Generator M_Consumer M_Indexed
  S_Mapping S_Consumer S_Indexed S_Quiet S_Joined F_MappingList F_Indexed F_IndexedProps.
From Coq Require Import Sorting.Sorted.

Lemma sorted_app : forall A (R : A -> A -> Prop) l l', StronglySorted R (l ++ l') <->
  StronglySorted R l /\ StronglySorted R l' /\ (forall a b, In a l -> In b l' -> R a b).
Proof.
  intros A R l l'. induction l as [|x l IH]; cbn [app].
  - split; [intros H; split; [constructor|split; [exact H|intros a b []]] | intros [_ [H _]]; exact H].
  - split.
    + intros H. inversion H as [|? ? H1 H2]; subst. apply IH in H1. destruct H1 as [A1 [A2 A3]]. apply Forall_app in H2. destruct H2 as [B1 B2].
      split; [constructor; assumption|]. split; [assumption|]. intros a b [<-|I] J; [|auto]. rewrite Forall_forall in B2. auto.
    + intros [H [H2 H3]]. inversion H as [|? ? H4 H5]; subst. constructor; [apply IH; split; [assumption|split; [assumption|intros; apply H3; [right|]; assumption]]|].
      apply Forall_app. split; [assumption|]. apply Forall_forall. intros b J. apply H3; [left; reflexivity|assumption].
Qed.

Lemma in_order_app : forall l l', in_order (l ++ l') <-> in_order l /\ in_order l' /\ (forall a b, In a l -> In b l' -> pos_le a b).
Proof.
  intros l l'. unfold in_order. change (mkPos (-1) 0 :: l ++ l') with ((mkPos (-1) 0 :: l) ++ l'). rewrite sorted_app. split.
  - intros [A [B C]]. split; [exact A|]. split; [constructor; [exact B|]; apply Forall_forall; intros; apply C; [left; reflexivity|assumption]|].
    intros; apply C; [right|]; assumption.
  - intros [A [B C]]. inversion B as [|? ? B1 B2]; subst. split; [exact A|]. split; [exact B1|].
    intros a b [<-|I] J; [rewrite Forall_forall in B2; auto|auto].
Qed.

Section Joined.
  Context (md : mode) (L : MapLib) (U : UrlLib).

  Lemma opens_spec : forall url l c, opens_in_order md L U url l c ->
    iopened md L U c /\ in_order (map js_offset l) /\ Forall2 (section_opens md L U url) l (sections_of L c) /\ Forall i32_offset l.
  Proof.
    intros url l c [j [Es [Ho H]]]. split.
    - exists (seq 0 (length l)), j, url, l. split; [exact Es|]. split; [unfold schedule; reflexivity|]. split; assumption.
    - apply opening_in_order in H; [|intros x Ex; congruence|intros x Ex; congruence].
      destruct H as [_ [l1 [secs [E1 [Or [F ->]]]]]]. assert (l1 = l) by congruence. subst l1. auto.
  Qed.
  Lemma opens_make : forall url l secs, in_order (map js_offset l) -> Forall2 (section_opens md L U url) l secs -> Forall i32_offset l ->
    forall j, smj_version j = 3 -> smj_sections j = Some l ->
    ic_from_source_map_json md L U (seq 0 (length l)) j url = Ok (mkIC j (mkCell 0 secs)).
  Proof.
    intros url l secs Or F Ho j Ev Es. apply opening_in_order; [intros x Ex; congruence|intros x Ex; congruence|].
    split; [exact Ev|]. exists l, secs. auto.
  Qed.

  Lemma plus_one_fun : forall o p q, plus_one md o p -> plus_one md o q -> p = q.
  Proof.
    intros [ol oc] [pl pc] [ql qc] H K. unfold plus_one in *. cbn in *. destruct md; intuition congruence.
  Qed.
  Lemma opens_fun : forall url l s s', Forall2 (section_opens md L U url) l s -> Forall2 (section_opens md L U url) l s' -> s = s'.
  Proof.
    intros url l s s' H. revert s'. induction H as [|x y l s [_ [A B]] H IH]; intros s' K; inversion K as [|? y' ? s2 [_ [A' B']] K2]; subst; [reflexivity|].
    f_equal; [|auto]. destruct y as [o c]; destruct y' as [o' c']; cbn in *. f_equal; [eapply plus_one_fun; eassumption|congruence].
  Qed.

  (** ** opening *)
  Lemma joined_opens : forall url l l' j j' j'', Forall i32_offset (l ++ l') ->
    smj_version j = 3 -> smj_version j' = 3 -> smj_version j'' = 3 ->
    smj_sections j = Some l -> smj_sections j' = Some l' -> smj_sections j'' = Some (l ++ l') ->
    ((exists c, ic_from_source_map_json md L U (seq 0 (length (l ++ l'))) j'' url = Ok c)
     <-> (exists c, ic_from_source_map_json md L U (seq 0 (length l)) j url = Ok c)
         /\ (exists c, ic_from_source_map_json md L U (seq 0 (length l')) j' url = Ok c)
         /\ (forall s s', In s l -> In s' l' -> pos_le (js_offset s) (js_offset s'))).
  Proof.
    intros url l l' j j' j'' Ho V V' V'' S S' S''. pose proof Ho as Ho2. apply Forall_app in Ho2. destruct Ho2 as [H1 H2]. split.
    - intros [c H]. destruct (opens_spec url (l ++ l') c) as [_ [Or [F _]]]; [exists j''; auto|].
      rewrite map_app in Or. apply in_order_app in Or. destruct Or as [O1 [O2 O3]].
      apply Forall2_app_inv_l in F. destruct F as [s1 [s2 [F1 [F2 _]]]].
      split; [eexists; eapply opens_make; eassumption|]. split; [eexists; eapply opens_make; eassumption|].
      intros s s' I I'. apply O3; apply in_map; assumption.
    - intros [[c A] [[c' B] C]]. destruct (opens_spec url l c) as [_ [O1 [F1 _]]]; [exists j; auto|].
      destruct (opens_spec url l' c') as [_ [O2 [F2 _]]]; [exists j'; auto|].
      eexists. eapply opens_make; [|apply Forall2_app; eassumption|exact Ho|exact V''|exact S''].
      rewrite map_app. apply in_order_app. split; [exact O1|]. split; [exact O2|].
      intros a b I J. apply in_map_iff in I. apply in_map_iff in J. destruct I as [x [<- I]]. destruct J as [y [<- J]]. auto.
  Qed.

  Lemma joined_sections : forall url l l' c c' c'', opens_in_order md L U url l c -> opens_in_order md L U url l' c' -> opens_in_order md L U url (l ++ l') c'' ->
    sections_of L c'' = sections_of L c ++ sections_of L c'.
  Proof.
    intros url l l' c c' c'' H H' H''. destruct (opens_spec _ _ _ H) as [_ [_ [F _]]]. destruct (opens_spec _ _ _ H') as [_ [_ [F' _]]].
    destruct (opens_spec _ _ _ H'') as [_ [_ [F'' _]]]. eapply opens_fun; [exact F''|]. apply Forall2_app; assumption.
  Qed.

  Lemma first_app : forall l l', first_answer (l ++ l') = match first_answer l with Ok None => first_answer l' | r => r end.
  Proof. intros l l'. induction l as [|[[t|]|p] l IH]; cbn; auto. Qed.

  Lemma joined_answers : forall url l l' c0 c0' c0'' qs qs' qs'' c c' c'',
    opens_in_order md L U url l c0 -> opens_in_order md L U url l' c0' -> opens_in_order md L U url (l ++ l') c0'' ->
    iasked md L U c0 qs = Ok c -> iasked md L U c0' qs' = Ok c' -> iasked md L U c0'' qs'' = Ok c'' ->
    Forall (fun s => len (bc_get_sources L (sec_consumer s)) < 2 ^ 31) (sections_of L c0'') ->
    (exists s s', answer (ic_get_sources L c) = Ok s /\ answer (ic_get_sources L c') = Ok s' /\ answer (ic_get_sources L c'') = Ok (s ++ s'))
    /\ (exists b b', answer (ic_has_contents_of_all_sources L c) = Ok b /\ answer (ic_has_contents_of_all_sources L c') = Ok b'
          /\ answer (ic_has_contents_of_all_sources L c'') = Ok (b && b'))
    /\ (forall src, answer (ic_source_content_for md L U c'' src (Some false))
          = match answer (ic_source_content_for md L U c src (Some false)) with
            | Ok None => answer (ic_source_content_for md L U c' src (Some false))
            | r => r
            end)
    /\ (forall src p text, answer (ic_source_content_for md L U c src p) = Ok (Some text) ->
          answer (ic_source_content_for md L U c'' src p) = Ok (Some text)).
  Proof.
    intros url l l' c0 c0' c0'' qs qs' qs'' c c' c'' O O' O'' H H' H'' Few.
    pose proof (joined_sections _ _ _ _ _ _ O O' O'') as E.
    destruct (opens_spec _ _ _ O) as [I _]. destruct (opens_spec _ _ _ O') as [I' _]. destruct (opens_spec _ _ _ O'') as [I'' _].
    pose proof Few as Few2. rewrite E in Few2. apply Forall_app in Few2. destruct Few2 as [Fa Fb].
    split; [|split; [|split]].
    - do 2 eexists. split; [exact (indexed_sources md L U _ _ _ I H)|]. split; [exact (indexed_sources md L U _ _ _ I' H')|].
      rewrite (indexed_sources md L U _ _ _ I'' H''), E, map_app, concat_app. reflexivity.
    - destruct (indexed_has_contents md L U _ _ _ I H Fa) as [b [A B]]. destruct (indexed_has_contents md L U _ _ _ I' H' Fb) as [b' [A' B']].
      destruct (indexed_has_contents md L U _ _ _ I'' H'' Few) as [b'' [A'' B'']]. exists b, b'. split; [exact A|]. split; [exact A'|].
      rewrite A''. f_equal. apply Bool.eq_true_iff_eq. rewrite Bool.andb_true_iff, B, B', B'', E. split.
      + intros K. split; intros s J; apply K, in_or_app; auto.
      + intros [K1 K2] s J. apply in_app_or in J. destruct J; auto.
    - intros src. rewrite (indexed_content md L U _ _ _ src (Some false) I H Fa), (indexed_content md L U _ _ _ src (Some false) I' H' Fb),
        (indexed_content md L U _ _ _ src (Some false) I'' H'' Few), E, map_app, first_app.
      destruct (first_answer (map _ (sections_of L c0))) as [[t|]|p]; reflexivity.
    - intros src p text K. rewrite (indexed_content md L U _ _ _ src p I H Fa) in K.
      rewrite (indexed_content md L U _ _ _ src p I'' H'' Few), E, map_app, first_app.
      destruct (first_answer (map _ (sections_of L c0))) as [[t|]|p']; [exact K| |discriminate].
      destruct (match p with Some b => b | None => true end); discriminate.
  Qed.
End Joined.

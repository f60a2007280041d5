(** * Lemmas about consumers of a map and of the same map with more mappings (C113) *)
From Verif Require Import F_Base M_Mapping M_SourceMap M_MapLib M_Util M_Generator M_Consumer M_Indexed
  S_Decode S_List S_Mapping S_Generator S_Far S_MapLib S_Consumer S_EndToEnd S_Redo F_ArraySet F_MappingList F_Generator F_Queries F_OrderQueries.
From Verif Require F_Append.
From Coq Require Import Sorting.Permutation.

Lemma nearest_sub : forall A (l l' : list (A * loc)) q b r r', (forall x, In x l -> In x l') ->
  (forall a a' p, In (a, p) l' -> In (a', p) l' -> a = a') -> nearest l q b r -> nearest l' q b r' ->
  r = r' \/ exists a p, r' = Some a /\ In (a, p) l' /\ ~ In (a, p) l.
Proof.
  intros A l l' q b r r' I D H H'.
  destruct r' as [a'|].
  - destruct H' as [p' [Hin K]].
    assert (X : In (a', p') l \/ ~ In (a', p') l).
    { destruct r as [a|].
      - destruct H as [p [Hp Kp]]. unfold loc_le, loc_lt in *. destruct q as [q1 q2]. destruct p as [p1 p2]. destruct p' as [p1' p2'].
        cbn [fst snd] in *.
        assert (Y : (p1, p2) = (p1', p2') \/ (p1, p2) <> (p1', p2')).
        { destruct (Z.eq_dec p1 p1'); [|right; congruence]. destruct (Z.eq_dec p2 p2'); [left|right]; congruence. }
        destruct Y as [Y|Y].
        + left. inv Y. rewrite (D _ _ _ Hin (I _ Hp)). exact Hp.
        + right. intros Hl. apply Y. destruct Kp as [Kp|[Kp Kb]]; destruct K as [K|[K Kb']].
          * congruence.
          * exfalso. inv Kp. exact (K _ _ (I _ Hp) eq_refl).
          * exfalso. inv K. exact (Kp _ _ Hl eq_refl).
          * destruct b; destruct Kb as [Kb1 Kb2]; destruct Kb' as [Kb1' Kb2'];
              pose proof (Kb2 _ _ Hl Kb1') as Z1; pose proof (Kb2' _ _ (I _ Hp) Kb1) as Z2; cbn [fst snd] in *;
              destruct Z1 as [Z1|Z1]; try (symmetry; exact Z1); try exact Z1; destruct Z2 as [Z2|Z2]; try exact Z2; try (symmetry; exact Z2); exfalso; lia.
      - right. intros Hl. pose proof (H _ _ Hl) as Z. unfold loc_le, loc_lt in *. destruct q as [q1 q2]. destruct p' as [p1' p2']. cbn [fst snd] in *.
        destruct K as [K|[_ K]]; [inv K; destruct b; lia|]. destruct b; destruct K as [K _]; cbn [fst snd] in *; lia. }
    destruct X as [X|X]; [left|right; exists a', p'; auto].
    eapply (nearest_det A l l q b); [auto|auto| |exact H|].
    + intros a a0 p Ha Ha0. eapply D; apply I; eassumption.
    + exists p'. split; [exact X|]. destruct K as [K|[K Kb]]; [left; exact K|right].
      split; [intros a0 p0 H0; apply (K a0); apply I; exact H0|].
      destruct b; destruct Kb as [Kb1 Kb2]; (split; [exact Kb1|]); intros a0 p0 H0 H1; (eapply Kb2; [apply I; exact H0|exact H1]).
  - left. eapply (nearest_det A l l q b); [auto|auto| |exact H|].
    + intros a a0 p Ha Ha0. eapply D; apply I; eassumption.
    + intros a p Ha. apply (H' a). apply I. exact Ha.
Qed.

Section Answers.
  Context (md : mode) (L : MapLib) (U : UrlLib) (HL : MapLibOk L).

  Lemma more_parts : forall ms new ms', Permutation (ms ++ new) ms' -> Forall valid_mapping ms' -> few_names (2^30) ms' ->
    Forall valid_mapping ms /\ few_names (2^30) ms /\ (forall m, In m ms -> In m ms')
    /\ (forall m, In m ms' -> In m ms \/ In m new).
  Proof.
    intros ms new ms' P V F.
    assert (I : forall m, In m ms -> In m ms').
    { intros m H. eapply Permutation_in; [exact P|]. apply in_app_iff. auto. }
    split; [apply Forall_forall; intros m H; rewrite Forall_forall in V; auto|].
    split; [eapply few_incl; [|exact F]; exact I|]. split; [exact I|].
    intros m H. apply in_app_iff. eapply Permutation_in; [symmetry; exact P | exact H].
  Qed.

  Lemma more_original : forall file file' root skip skip' ops ops' new g g' url c0 c0' lk lk' qs qs' c c' line column b,
    Forall valid_mapping (added_mappings ops') -> steps_fit ops -> steps_fit ops' -> few_names (2^30) (added_mappings ops') ->
    NoDup (map m_generated (added_mappings ops')) -> Permutation (added_mappings ops ++ new) (added_mappings ops') ->
    gen_run md U (gen_new file root skip) ops = Ok g -> gen_run md U (gen_new file' root skip') ops' = Ok g' ->
    opened_on md L U g url c0 lk -> opened_on md L U g' url c0' lk' ->
    asked md L U c0 qs = Ok c -> asked md L U c0' qs' = Ok c' -> position_ok line column ->
    (exists m, In m new /\ nearest (by_generated (added_mappings ops')) (line, column) (default_bias b) (Some m))
    \/ answered_lower 0 (answer (bc_original_position_for md L c (mkPos line column) b))
       = answered_lower 0 (answer (bc_original_position_for md L c' (mkPos line column) b)).
  Proof.
    intros file file' root skip skip' ops ops' new g g' url c0 c0' lk lk' qs qs' c c' line column b V' N N' F' D P Eg Eg' Eo Eo' Ha Ha' Hp.
    destruct (more_parts _ _ _ P V' F') as [V [F [I J]]].
    destruct (original_end md L U HL _ _ _ _ _ _ _ _ _ _ line column b V N F Eg Eo Ha Hp) as [found [H1 H2]].
    destruct (original_end md L U HL _ _ _ _ _ _ _ _ _ _ line column b V' N' F' Eg' Eo' Ha' Hp) as [found' [H1' H2']].
    destruct (nearest_sub _ (by_generated (added_mappings ops)) (by_generated (added_mappings ops')) (line, column) (default_bias b) found found')
      as [<-|[m [p [-> [Hm Hn]]]]]; try assumption.
    - intros [m p] H. rewrite by_generated_In in *. destruct H as [H ->]. auto.
    - intros a a' p Ha1 Ha2. rewrite by_generated_In in *. destruct Ha1 as [Ha1 ->]. destruct Ha2 as [Ha2 E].
      apply (distinct_positions_eq (added_mappings ops')); auto. apply place_inj. exact E.
    - right. unfold original_reply in H2, H2'. destruct found as [m|]; [|rewrite H2, H2'; auto].
      destruct (p_line (m_generated m) =? line + 1); [|rewrite H2, H2'; auto].
      destruct (m_source m) as [s|]; [|rewrite H2, H2'; auto].
      destruct H2 as [u [last [Eu [_ ->]]]]. destruct H2' as [u' [last' [Eu' [_ ->]]]].
      rewrite Eu in Eu'. inv Eu'. reflexivity.
    - left. rewrite by_generated_In in *. destruct Hm as [Hm ->]. exists m. split; [|exact H1'].
      destruct (J _ Hm) as [X|X]; [exfalso; apply Hn; auto | exact X].
  Qed.

  Lemma of_file_In : forall s ms m p, In (m, p) (of_file s ms) <->
    In m ms /\ m_source m = Some s /\ exists o, m_original m = Some o /\ p = place o.
  Proof.
    intros s. induction ms as [|x ms IH]; intros m p; cbn [of_file]; [cbn; tauto|].
    assert (G : forall m, In m (x :: ms) <-> x = m \/ In m ms) by (intros; reflexivity).
    destruct (m_source x) as [sx|] eqn:Es; [destruct (m_original x) as [ox|] eqn:Eo; [destruct (str_eqb s sx) eqn:E|]|].
    - apply str_eqb_eq in E. subst sx. rewrite G. cbn [In]. rewrite IH. split.
      + intros [H|H]; [inv H; eauto 8 | tauto].
      + intros [[->|H] [H1 [o [H2 ->]]]]; [left; congruence | right; eauto 6].
    - apply str_eqb_neq in E. rewrite IH, G. split; [tauto|].
      intros [[->|H] [H1 H2]]; [exfalso; congruence | tauto].
    - rewrite IH, G. split; [tauto|]. intros [[->|H] [H1 [o [H2 H3]]]]; [exfalso; congruence | eauto 6].
    - rewrite IH, G. split; [tauto|]. intros [[->|H] [H1 H2]]; [exfalso; congruence | tauto].
  Qed.

  Lemma more_of_file : forall s ms new ms', Permutation (ms ++ new) ms' ->
    (forall x, In x (of_file s ms) -> In x (of_file s ms'))
    /\ (forall m p, In (m, p) (of_file s ms') -> ~ In (m, p) (of_file s ms) -> In m new).
  Proof.
    intros s ms new ms' P. split.
    - intros [m p] H. rewrite of_file_In in *. destruct H as [H K]. split; [|exact K].
      eapply Permutation_in; [exact P|]. apply in_app_iff. auto.
    - intros m p H Hn. rewrite of_file_In in *. destruct H as [H K].
      apply (Permutation_in m (Permutation_sym P)), in_app_iff in H. destruct H as [H|H]; [exfalso; apply Hn; auto | exact H].
  Qed.

  Lemma more_generated : forall file file' root skip skip' ops ops' new g g' url c0 c0' lk lk' qs qs' c c' src i i' s line column b a a',
    Forall valid_mapping (added_mappings ops') -> steps_fit ops -> steps_fit ops' -> few_names (2^30) (added_mappings ops') ->
    NoDup (map snd (of_file s (added_mappings ops'))) -> Permutation (added_mappings ops ++ new) (added_mappings ops') ->
    gen_run md U (gen_new file root skip) ops = Ok g -> gen_run md U (gen_new file' root skip') ops' = Ok g' ->
    opened_on md L U g url c0 lk -> opened_on md L U g' url c0' lk' ->
    asked md L U c0 qs = Ok c -> asked md L U c0' qs' = Ok c' ->
    source_lookup md L U c0 src = Ok (Some i) -> nth_error (source_names ops) i = Some s ->
    source_lookup md L U c0' src = Ok (Some i') -> nth_error (source_names ops') i' = Some s ->
    position_ok line column ->
    answer (bc_generated_position_for md L U c src line column b) = Ok a ->
    answer (bc_generated_position_for md L U c' src line column b) = Ok a' ->
    (exists m, In m new /\ nearest (of_file s (added_mappings ops')) (line, column) (default_bias b) (Some m))
    \/ option_map (fun m => (m_generated m, m_original m, m_source m)) a
       = option_map (fun m => (m_generated m, m_original m, m_source m)) a'.
  Proof.
    intros file file' root skip skip' ops ops' new g g' url c0 c0' lk lk' qs qs' c c' src i i' s line column b a a'
      V' N N' F' D P Eg Eg' Eo Eo' Ha Ha' K Es K' Es' Hp A A'.
    destruct (more_parts _ _ _ P V' F') as [V [F _]]. destruct (more_of_file s _ _ _ P) as [I J].
    destruct (generated_end md L U HL _ _ _ _ _ _ _ _ _ _ src i line column b V N F Eg Eo Ha K Hp)
      as [s1 [u [found [H1 [[H2 _] [H3 H4]]]]]].
    destruct (generated_end md L U HL _ _ _ _ _ _ _ _ _ _ src i' line column b V' N' F' Eg' Eo' Ha' K' Hp)
      as [s1' [u' [found' [H1' [[H2' _] [H3' H4']]]]]].
    rewrite Es in H1. injection H1 as <-. rewrite Es' in H1'. injection H1' as <-.
    rewrite H2 in H2'. injection H2' as <-.
    destruct (nearest_sub _ (of_file s (added_mappings ops)) (of_file s (added_mappings ops')) (line, column) (default_bias b) found found')
      as [<-|[m [p [-> [Hm Hn]]]]]; try assumption.
    - intros x x' p Hx Hx'. eapply nodup_snd; eassumption.
    - right. unfold generated_reply in H4, H4'. rewrite A in H4. rewrite A' in H4'.
      destruct found as [m|]; [|congruence].
      destruct (nth_error (symbol_names ops) i) as [n|]; [|discriminate].
      destruct (nth_error (symbol_names ops') i') as [n'|]; [|discriminate].
      destruct (m_original m) as [p|]; [|destruct H4]. destruct H4 as [e [_ E]]. destruct H4' as [e' [_ E']].
      injection E as ->. injection E' as ->. reflexivity.
    - left. exists m. split; [eapply J; eassumption | exact H3'].
  Qed.

  (** More calls of add_mapping at the end: also the name, and no more panics *)
  Lemma names_grow : forall ops more, (exists k, source_names (ops ++ more) = source_names ops ++ k)
    /\ exists k, symbol_names (ops ++ more) = symbol_names ops ++ k.
  Proof.
    intros ops more. unfold source_names, symbol_names. rewrite added_mappings_app, !map_app, !present_app.
    split; apply F_Append.distinct_from_app.
  Qed.

  Lemma more_appended : forall file file' root skip skip' ops more g g' url c0 c0' lk lk' qs qs' c c' src i i' s line column b a,
    Forall valid_mapping (added_mappings (ops ++ more)) -> steps_fit ops -> steps_fit (ops ++ more) ->
    few_names (2^30) (added_mappings (ops ++ more)) ->
    NoDup (map snd (of_file s (added_mappings (ops ++ more)))) ->
    gen_run md U (gen_new file root skip) ops = Ok g -> gen_run md U (gen_new file' root skip') (ops ++ more) = Ok g' ->
    opened_on md L U g url c0 lk -> opened_on md L U g' url c0' lk' ->
    asked md L U c0 qs = Ok c -> asked md L U c0' qs' = Ok c' ->
    source_lookup md L U c0 src = Ok (Some i) -> nth_error (source_names ops) i = Some s ->
    source_lookup md L U c0' src = Ok (Some i') -> nth_error (source_names (ops ++ more)) i' = Some s ->
    position_ok line column ->
    answer (bc_generated_position_for md L U c src line column b) = Ok a ->
    (exists m, In m (added_mappings more)
       /\ nearest (of_file s (added_mappings (ops ++ more))) (line, column) (default_bias b) (Some m))
    \/ exists a', answer (bc_generated_position_for md L U c' src line column b) = Ok a'
       /\ option_map written a = option_map written a'.
  Proof.
    intros file file' root skip skip' ops more g g' url c0 c0' lk lk' qs qs' c c' src i i' s line column b a
      V' N N' F' D Eg Eg' Eo Eo' Ha Ha' K Es K' Es' Hp A.
    assert (P : Permutation (added_mappings ops ++ added_mappings more) (added_mappings (ops ++ more))).
    { rewrite added_mappings_app. reflexivity. }
    destruct (more_parts _ _ _ P V' F') as [V [F _]]. destruct (more_of_file s _ _ _ P) as [I J].
    destruct (names_grow ops more) as [[k Ek] [k2 Ek2]].
    assert (i' = i).
    { assert (ND : NoDup (source_names (ops ++ more))) by apply distinct_NoDup.
      assert (Hi : nth_error (source_names (ops ++ more)) i = Some s).
      { rewrite Ek, nth_error_app1; [exact Es|]. apply nth_error_Some. congruence. }
      rewrite NoDup_nth_error in ND. apply ND; [apply nth_error_Some; congruence | congruence]. }
    subst i'.
    destruct (generated_end md L U HL _ _ _ _ _ _ _ _ _ _ src i line column b V N F Eg Eo Ha K Hp)
      as [s1 [u [found [H1 [[H2 _] [H3 H4]]]]]].
    destruct (generated_end md L U HL _ _ _ _ _ _ _ _ _ _ src i line column b V' N' F' Eg' Eo' Ha' K' Hp)
      as [s1' [u' [found' [H1' [[H2' _] [H3' H4']]]]]].
    rewrite Es in H1. injection H1 as <-. rewrite Es' in H1'. injection H1' as <-.
    rewrite H2 in H2'. injection H2' as <-.
    destruct (nearest_sub _ (of_file s (added_mappings ops)) (of_file s (added_mappings (ops ++ more))) (line, column) (default_bias b) found found')
      as [<-|[m [p [-> [Hm Hn]]]]]; try assumption.
    - intros x x' p Hx Hx'. eapply nodup_snd; eassumption.
    - right. unfold generated_reply in H4, H4'. rewrite A in H4.
      destruct found as [m|]; [|exists None; inv H4; auto].
      destruct (nth_error (symbol_names ops) i) as [n|] eqn:En; [|discriminate].
      rewrite Ek2, nth_error_app1, En in H4' by (apply nth_error_Some; congruence).
      destruct (m_original m) as [p|]; [|destruct H4]. destruct H4 as [e [_ E]]. destruct H4' as [e' [_ E']].
      injection E as ->. eexists. split; [exact E'|]. reflexivity.
    - left. exists m. split; [eapply J; eassumption | exact H3'].
  Qed.

  Lemma more_all_generated : forall file file' root skip skip' ops ops' new g g' url c0 c0' lk lk' qs qs' c c' src i i' s line column,
    Forall valid_mapping (added_mappings ops') -> steps_fit ops -> steps_fit ops' -> few_names (2^30) (added_mappings ops') ->
    Permutation (added_mappings ops ++ new) (added_mappings ops') ->
    gen_run md U (gen_new file root skip) ops = Ok g -> gen_run md U (gen_new file' root skip') ops' = Ok g' ->
    opened_on md L U g url c0 lk -> opened_on md L U g' url c0' lk' ->
    asked md L U c0 qs = Ok c -> asked md L U c0' qs' = Ok c' ->
    source_lookup md L U c0 src = Ok (Some i) -> nth_error (source_names ops) i = Some s ->
    source_lookup md L U c0' src = Ok (Some i') -> nth_error (source_names ops') i' = Some s ->
    let col := match column with Some z => z | None => 0 end in
    position_ok line col -> (exists m, In (m, (line + 1, col)) (of_file s (added_mappings ops))) ->
    exists l l' r r',
      answer (bc_all_generated_position_for md L U c src line column) = Ok l
      /\ answer (bc_all_generated_position_for md L U c' src line column) = Ok l'
      /\ resolve (source_names ops) (symbol_names ops) l = Some r
      /\ resolve (source_names ops') (symbol_names ops') l' = Some r'
      /\ forall x, In x r' <-> In x r \/ exists m, In (m, (line + 1, col)) (of_file s new) /\ x = written m.
  Proof.
    intros file file' root skip skip' ops ops' new g g' url c0 c0' lk lk' qs qs' c c' src i i' s line column
      V' N N' F' P Eg Eg' Eo Eo' Ha Ha' K Es K' Es' col Hp Hm.
    destruct (more_parts _ _ _ P V' F') as [V [F _]].
    assert (I : forall m p, In (m, p) (of_file s (added_mappings ops'))
              <-> In (m, p) (of_file s (added_mappings ops)) \/ In (m, p) (of_file s new)).
    { intros m p. rewrite !of_file_In.
      assert (X : In m (added_mappings ops') <-> In m (added_mappings ops) \/ In m new).
      { rewrite <- in_app_iff. split; intros H; eapply Permutation_in; try exact H; [symmetry; exact P | exact P]. }
      tauto. }
    destruct (all_generated_end md L U HL _ _ _ _ _ _ _ _ _ _ src i line column V N F Eg Eo Ha K Hp)
      as [s1 [u [l [H1 [_ [H3 H4]]]]]].
    destruct (all_generated_end md L U HL _ _ _ _ _ _ _ _ _ _ src i' line column V' N' F' Eg' Eo' Ha' K' Hp)
      as [s1' [u' [l' [H1' [_ [H3' H4']]]]]].
    rewrite Es in H1. injection H1 as <-. rewrite Es' in H1'. injection H1' as <-.
    destruct (H4 Hm) as [r [R HR]].
    destruct H4' as [r' [R' HR']]; [destruct Hm as [m Hm]; exists m; apply I; auto|].
    exists l, l', r, r'. do 4 (split; [assumption|]). intros x. rewrite HR, HR'. split.
    - intros [m [Hx ->]]. apply I in Hx. destruct Hx as [Hx|Hx]; [left; eauto | right; eauto].
    - intros [[m [Hx ->]]|[m [Hx ->]]]; exists m; (split; [apply I; auto | reflexivity]).
  Qed.
End Answers.

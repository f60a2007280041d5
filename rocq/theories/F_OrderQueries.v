(** * Lemmas about consumers of maps whose mappings were added in another order (C112) *)
From Verif Require Import F_Base M_Mapping M_SourceMap M_MapLib M_Util M_Generator M_Consumer M_Indexed
  S_Decode S_List S_Mapping S_Generator S_Far S_MapLib S_Consumer S_EndToEnd S_Redo S_Order F_MappingList F_Generator F_Queries.
From Coq Require Import Sorting.Permutation.

Lemma nearest_det : forall A (l l' : list (A * loc)) q b r r', (forall x, In x l -> In x l') -> (forall x, In x l' -> In x l) ->
  (forall a a' p, In (a, p) l -> In (a', p) l -> a = a') -> nearest l q b r -> nearest l' q b r' -> r = r'.
Proof.
  intros A l l' [q1 q2] b r r' I I' D H H'. unfold nearest, loc_le, loc_lt in *. cbn [fst snd] in *.
  destruct r as [a|]; destruct r' as [a'|]; [| | |reflexivity].
  - destruct H as [[p1 p2] [Hin H]]. destruct H' as [[p1' p2'] [Hin' H']]. apply I' in Hin'. f_equal.
    destruct H as [H|[H H1]]; destruct H' as [H'|[H' H1']].
    + inv H. inv H'. eapply D; eassumption.
    + exfalso. inv H. eapply H'; [apply I; exact Hin | reflexivity].
    + exfalso. inv H'. eapply H; [exact Hin' | reflexivity].
    + assert (E : (p1, p2) = (p1', p2')).
      { destruct b; destruct H1 as [K1 K2]; destruct H1' as [K1' K2'];
          pose proof (K2 _ _ Hin' K1') as Z1; pose proof (K2' _ _ (I _ Hin) K1) as Z2; cbn [fst snd] in *;
          destruct Z1 as [Z1|Z1]; try (symmetry; exact Z1); try exact Z1; destruct Z2 as [Z2|Z2]; try exact Z2; try (symmetry; exact Z2); exfalso; lia. }
      inv E. eapply D; eassumption.
  - exfalso. destruct H as [[p1 p2] [Hin H]]. pose proof (H' _ _ (I _ Hin)) as K. cbn [fst snd] in K.
    destruct H as [H|[_ H]]; [inv H; destruct b; lia|]. destruct b; destruct H as [H _]; cbn [fst snd] in *; lia.
  - exfalso. destruct H' as [[p1 p2] [Hin H']]. pose proof (H _ _ (I' _ Hin)) as K. cbn [fst snd] in K.
    destruct H' as [H'|[_ H']]; [inv H'; destruct b; lia|]. destruct b; destruct H' as [H' _]; cbn [fst snd] in *; lia.
Qed.

Lemma by_generated_In : forall ms m p, In (m, p) (by_generated ms) <-> In m ms /\ p = place (m_generated m).
Proof.
  intros ms m p. unfold by_generated. rewrite in_map_iff. split.
  - intros [m' [E H]]. inv E. auto.
  - intros [H ->]. exists m. auto.
Qed.

Lemma place_inj : forall p q, place p = place q -> p = q.
Proof. intros [l c] [l' c'] H. unfold place in H. cbn in H. congruence. Qed.

Lemma alone_at_place : forall ms m, NoDup (map m_generated ms) -> In m ms -> only_at_its_place ms m.
Proof.
  intros ms m D H. destruct (in_split _ _ H) as [a [b ->]]. exists a, b. split; [reflexivity|].
  intros m' H' E. rewrite map_app in D. cbn [map] in D. apply NoDup_remove_2 in D. apply D. rewrite <- map_app, <- E.
  apply in_map. exact H'.
Qed.

Lemma column_end_det : forall ms ms' m last last', (forall x, In x ms <-> In x ms') ->
  NoDup (map m_generated ms) -> NoDup (map m_generated ms') -> In m ms ->
  column_end ms m last -> column_end ms' m last' -> last = last'.
Proof.
  intros ms ms' m last last' I D D' Hm H H'. pose proof (alone_at_place _ _ D Hm) as O.
  pose proof (alone_at_place _ _ D' (proj1 (I m) Hm)) as O'. unfold column_end in *.
  destruct last as [e|]; destruct last' as [e'|]; [| | |reflexivity].
  - destruct H as [_ [[x [Hx Ex]] [K Lt]]]. destruct H' as [_ [[x' [Hx' Ex']] [K' Lt']]]. specialize (Lt O). specialize (Lt' O').
    f_equal. apply I in Hx'. apply I in Hx.
    assert (e <= e') by (specialize (K _ Hx'); rewrite Ex' in K; cbn in K; apply K; [reflexivity | exact Lt']).
    assert (e' <= e) by (specialize (K' _ Hx); rewrite Ex in K'; cbn in K'; apply K'; [reflexivity | exact Lt]). lia.
  - exfalso. destruct H as [_ [[x [Hx Ex]] [_ Lt]]]. specialize (Lt O). apply I in Hx. specialize (H' _ Hx).
    rewrite Ex in H'. cbn in H'. specialize (H' eq_refl). lia.
  - exfalso. destruct H' as [_ [[x [Hx Ex]] [_ Lt]]]. specialize (Lt O'). apply I in Hx. specialize (H _ Hx).
    rewrite Ex in H. cbn in H. specialize (H eq_refl). lia.
Qed.

Section Answers.
  Context (md : mode) (L : MapLib) (U : UrlLib) (HL : MapLibOk L).

  Lemma same_original : forall file file' root skip skip' ops ops' g g' url c0 c0' lk lk' qs qs' c c' line column b,
    Forall valid_mapping (added_mappings ops) -> steps_fit ops -> steps_fit ops' -> few_names (2^30) (added_mappings ops) ->
    NoDup (map m_generated (added_mappings ops)) -> Permutation (added_mappings ops) (added_mappings ops') ->
    gen_run md U (gen_new file root skip) ops = Ok g -> gen_run md U (gen_new file' root skip') ops' = Ok g' ->
    opened_on md L U g url c0 lk -> opened_on md L U g' url c0' lk' ->
    asked md L U c0 qs = Ok c -> asked md L U c0' qs' = Ok c' -> position_ok line column ->
    answered_lower 0 (answer (bc_original_position_for md L c (mkPos line column) b))
    = answered_lower 0 (answer (bc_original_position_for md L c' (mkPos line column) b))
    /\ (In QSpans qs -> In QSpans qs' ->
        answer (bc_original_position_for md L c (mkPos line column) b)
        = answer (bc_original_position_for md L c' (mkPos line column) b)).
  Proof.
    intros file file' root skip skip' ops ops' g g' url c0 c0' lk lk' qs qs' c c' line column b V N N' F D P Eg Eg' Eo Eo' Ha Ha' Hp.
    assert (V' : Forall valid_mapping (added_mappings ops')) by (eapply Permutation_Forall; eassumption).
    assert (I : forall m, In m (added_mappings ops) <-> In m (added_mappings ops')).
    { intros m. split; intros H; eapply Permutation_in; try exact H; [exact P | symmetry; exact P]. }
    assert (F' : few_names (2^30) (added_mappings ops')).
    { eapply few_incl; [|exact F]. intros x Hx. apply I. exact Hx. }
    destruct (original_end md L U HL _ _ _ _ _ _ _ _ _ _ line column b V N F Eg Eo Ha Hp) as [found [H1 H2]].
    destruct (original_end md L U HL _ _ _ _ _ _ _ _ _ _ line column b V' N' F' Eg' Eo' Ha' Hp) as [found' [H1' H2']].
    assert (found = found').
    { eapply nearest_det; [| | |exact H1 | exact H1'].
      - intros [m p] H. rewrite by_generated_In in *. rewrite <- I. exact H.
      - intros [m p] H. rewrite by_generated_In in *. rewrite I. exact H.
      - intros a a' p Ha1 Ha2. rewrite by_generated_In in *. destruct Ha1 as [Ha1 ->]. destruct Ha2 as [Ha2 E].
        apply (distinct_positions_eq (added_mappings ops)); auto. apply place_inj. exact E. }
    subst found'. unfold original_reply in H2, H2'. destruct found as [m|]; [|rewrite H2, H2'; auto].
    destruct (p_line (m_generated m) =? line + 1); [|rewrite H2, H2'; auto].
    destruct (m_source m) as [s|]; [|rewrite H2, H2'; auto].
    destruct H2 as [u [last [Eu [[_ En] ->]]]]. destruct H2' as [u' [last' [Eu' [[_ En'] ->]]]].
    rewrite Eu in Eu'. inv Eu'. split; [reflexivity|]. intros Q Q'. specialize (En Q). specialize (En' Q').
    assert (Hm : In m (added_mappings ops)).
    { destruct H1 as [p [H1 _]]. rewrite by_generated_In in H1. tauto. }
    do 3 f_equal. exact (column_end_det (added_mappings ops) (added_mappings ops') m last last' I D
      (Permutation_NoDup (Permutation_map m_generated P) D) Hm En En').
  Qed.

  Lemma of_file_perm : forall s ms ms', Permutation ms ms' -> Permutation (of_file s ms) (of_file s ms').
  Proof.
    intros s ms ms' P. induction P as [|x a b _ IH|x y a|a b d _ IH1 _ IH2]; cbn [of_file].
    - constructor.
    - destruct (m_source x) as [sx|]; [|exact IH]. destruct (m_original x) as [px|]; [|exact IH].
      destruct (str_eqb s sx); [constructor; exact IH | exact IH].
    - destruct (m_source x) as [sx|]; destruct (m_source y) as [sy|]; try reflexivity;
        destruct (m_original x) as [px|]; destruct (m_original y) as [py|]; try reflexivity;
        try (destruct (str_eqb s sx)); try (destruct (str_eqb s sy)); try reflexivity. apply perm_swap.
    - etransitivity; eassumption.
  Qed.

  Lemma nodup_snd : forall A B (l : list (A * B)) a a' p, NoDup (map snd l) -> In (a, p) l -> In (a', p) l -> a = a'.
  Proof.
    intros A B l a a' p D. induction l as [|[x q] l IH]; intros H H'; [destruct H|]. cbn [map snd] in D. inv D.
    destruct H as [H|H]; destruct H' as [H'|H'].
    - congruence.
    - exfalso. inv H. apply H2. apply (in_map snd) in H'. exact H'.
    - exfalso. inv H'. apply H2. apply (in_map snd) in H. exact H.
    - auto.
  Qed.

  Lemma same_generated : forall file file' root skip skip' ops ops' g g' url c0 c0' lk lk' qs qs' c c' src i i' s line column b a a',
    Forall valid_mapping (added_mappings ops) -> steps_fit ops -> steps_fit ops' -> few_names (2^30) (added_mappings ops) ->
    NoDup (map snd (of_file s (added_mappings ops))) -> Permutation (added_mappings ops) (added_mappings ops') ->
    gen_run md U (gen_new file root skip) ops = Ok g -> gen_run md U (gen_new file' root skip') ops' = Ok g' ->
    opened_on md L U g url c0 lk -> opened_on md L U g' url c0' lk' ->
    asked md L U c0 qs = Ok c -> asked md L U c0' qs' = Ok c' ->
    source_lookup md L U c0 src = Ok (Some i) -> nth_error (source_names ops) i = Some s ->
    source_lookup md L U c0' src = Ok (Some i') -> nth_error (source_names ops') i' = Some s ->
    position_ok line column ->
    answer (bc_generated_position_for md L U c src line column b) = Ok a ->
    answer (bc_generated_position_for md L U c' src line column b) = Ok a' ->
    option_map (fun m => (m_generated m, m_original m, m_source m)) a
    = option_map (fun m => (m_generated m, m_original m, m_source m)) a'.
  Proof.
    intros file file' root skip skip' ops ops' g g' url c0 c0' lk lk' qs qs' c c' src i i' s line column b a a'
      V N N' F D P Eg Eg' Eo Eo' Ha Ha' K Es K' Es' Hp A A'.
    assert (V' : Forall valid_mapping (added_mappings ops')) by (eapply Permutation_Forall; eassumption).
    assert (F' : few_names (2^30) (added_mappings ops')).
    { eapply few_incl; [|exact F]. intros x Hx. eapply Permutation_in; [symmetry; exact P | exact Hx]. }
    destruct (generated_end md L U HL _ _ _ _ _ _ _ _ _ _ src i line column b V N F Eg Eo Ha K Hp)
      as [s1 [u [found [H1 [[H2 _] [H3 H4]]]]]].
    destruct (generated_end md L U HL _ _ _ _ _ _ _ _ _ _ src i' line column b V' N' F' Eg' Eo' Ha' K' Hp)
      as [s1' [u' [found' [H1' [[H2' _] [H3' H4']]]]]].
    rewrite Es in H1. injection H1 as <-. rewrite Es' in H1'. injection H1' as <-.
    rewrite H2 in H2'. injection H2' as <-.
    pose proof (of_file_perm s _ _ P) as PF.
    assert (found = found').
    { eapply nearest_det; [| | |exact H3 | exact H3'].
      - intros x H. eapply Permutation_in; [exact PF | exact H].
      - intros x H. eapply Permutation_in; [symmetry; exact PF | exact H].
      - intros x x' p Hx Hx'. eapply nodup_snd; eassumption. }
    subst found'. unfold generated_reply in H4, H4'. rewrite A in H4. rewrite A' in H4'.
    destruct found as [m|]; [|congruence].
    destruct (nth_error (symbol_names ops) i) as [n|]; [|discriminate].
    destruct (nth_error (symbol_names ops') i') as [n'|]; [|discriminate].
    destruct (m_original m) as [p|]; [|destruct H4]. destruct H4 as [e [_ E]]. destruct H4' as [e' [_ E']].
    injection E as ->. injection E' as ->. reflexivity.
  Qed.

  Lemma same_all_generated : forall file file' root skip skip' ops ops' g g' url c0 c0' lk lk' qs qs' c c' src i i' s line column,
    Forall valid_mapping (added_mappings ops) -> steps_fit ops -> steps_fit ops' -> few_names (2^30) (added_mappings ops) ->
    Permutation (added_mappings ops) (added_mappings ops') ->
    gen_run md U (gen_new file root skip) ops = Ok g -> gen_run md U (gen_new file' root skip') ops' = Ok g' ->
    opened_on md L U g url c0 lk -> opened_on md L U g' url c0' lk' ->
    asked md L U c0 qs = Ok c -> asked md L U c0' qs' = Ok c' ->
    source_lookup md L U c0 src = Ok (Some i) -> nth_error (source_names ops) i = Some s ->
    source_lookup md L U c0' src = Ok (Some i') -> nth_error (source_names ops') i' = Some s ->
    let col := match column with Some z => z | None => 0 end in
    position_ok line col -> (exists m, In (m, (line + 1, col)) (of_file s (added_mappings ops))) ->
    exists l l' r r',
      answer (bc_all_generated_position_for md L U c src line column) = Ok l
      /\ answer (bc_all_generated_position_for md L U c' src line column) = Ok l'
      /\ resolve (source_names ops) (symbol_names ops) l = Some r
      /\ resolve (source_names ops') (symbol_names ops') l' = Some r'
      /\ forall x, In x r <-> In x r'.
  Proof.
    intros file file' root skip skip' ops ops' g g' url c0 c0' lk lk' qs qs' c c' src i i' s line column
      V N N' F P Eg Eg' Eo Eo' Ha Ha' K Es K' Es' col Hp Hm.
    assert (V' : Forall valid_mapping (added_mappings ops')) by (eapply Permutation_Forall; eassumption).
    assert (F' : few_names (2^30) (added_mappings ops')).
    { eapply few_incl; [|exact F]. intros x Hx. eapply Permutation_in; [symmetry; exact P | exact Hx]. }
    pose proof (of_file_perm s _ _ P) as PF.
    assert (I : forall x, In x (of_file s (added_mappings ops)) <-> In x (of_file s (added_mappings ops'))).
    { intros x. split; intros H; eapply Permutation_in; try exact H; [exact PF | symmetry; exact PF]. }
    destruct (all_generated_end md L U HL _ _ _ _ _ _ _ _ _ _ src i line column V N F Eg Eo Ha K Hp)
      as [s1 [u [l [H1 [_ [H3 H4]]]]]].
    destruct (all_generated_end md L U HL _ _ _ _ _ _ _ _ _ _ src i' line column V' N' F' Eg' Eo' Ha' K' Hp)
      as [s1' [u' [l' [H1' [_ [H3' H4']]]]]].
    rewrite Es in H1. injection H1 as <-. rewrite Es' in H1'. injection H1' as <-.
    destruct (H4 Hm) as [r [R HR]].
    destruct H4' as [r' [R' HR']]; [destruct Hm as [m Hm]; exists m; apply I; exact Hm|].
    exists l, l', r, r'. do 4 (split; [assumption|]). intros x. rewrite HR, HR'.
    split; intros [m [Hx ->]]; exists m; (split; [apply I; exact Hx | reflexivity]).
  Qed.
End Answers.

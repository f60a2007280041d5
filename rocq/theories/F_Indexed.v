(** * IndexedConsumer *)
From Verif Require Import F_Base M_ArraySet M_BinarySearch M_Mapping M_Util M_SourceMap M_Generator M_Json M_MapLib
  M_Consumer M_Indexed S_List S_Search S_Mapping S_MapLib S_Consumer S_Indexed F_ArraySet F_Search F_Consumer F_ConsumerProps.
From Coq Require Import Sorting.Sorted Sorting.Permutation.

Lemma pos_le_trans : forall a b c, pos_le a b -> pos_le b c -> pos_le a c.
Proof. unfold pos_le. intros. lia. Qed.

Lemma sorted_cons_chain : forall a b l, pos_le a b -> StronglySorted pos_le (b :: l) -> StronglySorted pos_le (a :: b :: l).
Proof.
  intros a b l H Hs. constructor; [exact Hs|]. inv Hs. constructor; [exact H|].
  eapply Forall_impl; [|eassumption]. intros x Hx. eapply pos_le_trans; eassumption.
Qed.

Lemma Forall2_nth_l : forall A B (R : A -> B -> Prop) l l' n a, Forall2 R l l' -> nth_error l n = Some a ->
  exists b, nth_error l' n = Some b /\ R a b.
Proof.
  intros A B R l l' n a H. revert n. induction H; intros [|n] E; cbn in *; try discriminate.
  - inv E. eauto.
  - eauto.
Qed.
Lemma Forall2_nth_r : forall A B (R : A -> B -> Prop) l l' n b, Forall2 R l l' -> nth_error l' n = Some b ->
  exists a, nth_error l n = Some a /\ R a b.
Proof.
  intros A B R l l' n b H. revert n. induction H; intros [|n] E; cbn in *; try discriminate.
  - inv E. eauto.
  - eauto.
Qed.
Lemma Forall2_len : forall A B (R : A -> B -> Prop) l l', Forall2 R l l' -> length l = length l'.
Proof. intros A B R l l' H. induction H; cbn; congruence. Qed.

Section Ind.
  Context (md : mode) (L : MapLib) (U : UrlLib).
  Notation Sec := (Section L).

  (** ** Opening *)
  Lemma next_small : forall x, i32_min <= x < i32_max -> next_i32 x = x + 1.
  Proof. intros x H. unfold next_i32. replace (x =? i32_max) with false by lia. reflexivity. Qed.

  Lemma plus_one_small : forall s o, small_offset s ->
    (plus_one md (js_offset s) o <-> o = mkPos (p_line (js_offset s) + 1) (p_column (js_offset s) + 1)).
  Proof.
    intros s o [H1 H2]. unfold plus_one. rewrite !next_small by assumption. split; [intros [E _]; exact E|].
    intros E. split; [exact E|]. intros _. lia.
  Qed.

  Lemma add_next : forall x, i32_min <= x <= i32_max ->
    (i32_add md x 1 = Ok (next_i32 x) /\ (md = Debug -> x < i32_max))
    \/ (i32_add md x 1 = Panic POverflow /\ md = Debug /\ x = i32_max).
  Proof.
    intros x H. unfold next_i32, i32_min, i32_max in *. change (2 ^ 31) with 2147483648 in *.
    destruct (Z.eqb_spec x 2147483647) as [->|N].
    - destruct md; [right|left]; (split; [reflexivity|]); [auto|discriminate].
    - left. rewrite i32_add_ok by lia. split; [|intros _; lia].
      replace (x =? 2147483648 - 1) with false by lia. reflexivity.
  Qed.

  Lemma job_iff : forall url last s sec o, i32_offset s ->
    (section_job md L U url last s = Ok (sec, o)
     <-> pos_le last (js_offset s) /\ section_opens md L U url s sec /\ o = js_offset s).
  Proof.
    intros url last s sec o [Hl Hc]. unfold section_job, section_opens, plus_one.
    destruct (js_url s) as [u|]; cbn [is_some].
    { split; [discriminate | intros [_ [[X _] _]]; discriminate]. }
    destruct (_ || _) eqn:E.
    - split; [discriminate|]. intros [H _]. unfold pos_le in H. lia.
    - assert (Hp : pos_le last (js_offset s)) by (unfold pos_le; lia).
      destruct (add_next _ Hl) as [[-> N1]|[-> [D ->]]]; cbn [bind].
      2: { split; [discriminate|]. intros [_ [[_ [[_ X] _]] _]]. destruct (X D). lia. }
      destruct (add_next _ Hc) as [[-> N2]|[-> [D ->]]]; cbn [bind].
      2: { split; [discriminate|]. intros [_ [[_ [[_ X] _]] _]]. destruct (X D). lia. }
      destruct (bc_from_source_map_json md L U (js_map s) url) as [c|p]; cbn [bind].
      + split.
        * intros H. inv H. auto 10.
        * intros [_ [[_ [[H1 _] H2]] ->]]. destruct sec as [off c']. cbn in *. congruence.
      + split; [discriminate | intros [_ [[_ [_ X]] _]]; discriminate].
  Qed.

  Lemma jobs_inv : forall url l order last r, Forall i32_offset l -> run_jobs md L U url l order last = Ok r ->
    Forall2 (fun i p => fst p = i /\ exists s, nth_error l i = Some s /\ section_opens md L U url s (snd p)) order r
    /\ exists l', arranged l order l' /\ StronglySorted pos_le (last :: map js_offset l').
  Proof.
    intros url l order last r Hl. revert last r. induction order as [|i order IH]; intros last r H; cbn in H.
    - inv H. split; [constructor|]. exists []. split; constructor; constructor.
    - destruct (vec_index l (Z.of_nat i)) as [s|p] eqn:Ev; [|discriminate]. cbn [bind] in H.
      apply vec_index_ok in Ev. rewrite vec_get_nth in Ev.
      destruct (section_job md L U url last s) as [[sec o]|p] eqn:Es; [|discriminate]. cbn [bind] in H.
      assert (Hs : i32_offset s) by (rewrite Forall_forall in Hl; apply Hl; eapply nth_error_In; eassumption).
      apply (job_iff _ _ _ _ _ Hs) in Es. destruct Es as [Hp [Hopen ->]].
      destruct (run_jobs md L U url l order (js_offset s)) as [rest|p] eqn:Er; [|discriminate]. cbn in H. inv H.
      destruct (IH _ _ Er) as [H1 [l' [H2 H3]]]. split; [constructor; cbn; eauto|].
      exists (s :: l'). split; [constructor; assumption|]. cbn [map]. apply sorted_cons_chain; assumption.
  Qed.

  Lemma jobs_run : forall url l secs order last l', Forall i32_offset l -> Forall2 (section_opens md L U url) l secs ->
    arranged l order l' -> StronglySorted pos_le (last :: map js_offset l') ->
    exists r, run_jobs md L U url l order last = Ok r
      /\ Forall2 (fun i p => fst p = i /\ nth_error secs i = Some (snd p)) order r.
  Proof.
    intros url l secs order last l' Hl Ho Ha. revert last. induction Ha as [|i s order l' Hi Ha IH]; intros last Hs.
    - exists []. split; [reflexivity | constructor].
    - cbn [map] in Hs. inversion Hs as [|? ? Hs' Hf]; subst. inversion Hf as [|? ? Hp _]; subst.
      destruct (IH _ Hs') as [r [Er Hr]].
      destruct (Forall2_nth_l _ _ _ _ _ _ _ Ho Hi) as [sec [Hsec Hopen]].
      cbn [run_jobs]. rewrite (vec_index_nth _ _ _ _ Hi). cbn [bind].
      assert (Hsm : i32_offset s) by (rewrite Forall_forall in Hl; apply Hl; eapply nth_error_In; eassumption).
      rewrite (proj2 (job_iff url last s sec (js_offset s) Hsm)) by auto. cbn [bind]. rewrite Er. cbn [bind].
      exists ((i, sec) :: r). split; [reflexivity|]. constructor; [auto | exact Hr].
  Qed.

  Lemma job_result_in : forall i (r : list (nat * Sec)) s, job_result L i r = Ok s -> In (i, s) r.
  Proof.
    intros i r s. induction r as [|[j s'] r IH]; cbn; intros H; [discriminate|].
    destruct (Nat.eqb i j) eqn:E; [|auto]. apply Nat.eqb_eq in E. inv H. auto.
  Qed.

  Lemma job_result_some : forall i (r : list (nat * Sec)), In i (map fst r) -> exists s, job_result L i r = Ok s.
  Proof.
    intros i r. induction r as [|[j s'] r IH]; cbn; intros H; [contradiction|].
    destruct (Nat.eqb i j) eqn:E; [eauto|]. apply Nat.eqb_neq in E. destruct H as [H|H]; [congruence|auto].
  Qed.

  Lemma Forall2_In_r : forall A B (R : A -> B -> Prop) l l' b, Forall2 R l l' -> In b l' -> exists a, In a l /\ R a b.
  Proof. intros A B R l l' b H. induction H; cbn; intros Hi; [contradiction|]. destruct Hi as [->|Hi]; eauto. destruct (IHForall2 Hi) as [a [? ?]]. eauto. Qed.

  Lemma collect_inv : forall n r secs, collect_jobs L n r = Ok secs ->
    length secs = n /\ forall i s, nth_error secs i = Some s -> In (i, s) r.
  Proof.
    intros n r secs H. unfold collect_jobs in H. apply mapM_inv in H.
    split; [rewrite <- (Forall2_len _ _ _ _ _ H); apply seq_length|].
    intros i s Hi. destruct (Forall2_nth_r _ _ _ _ _ _ _ H Hi) as [k [Hk Hr]].
    assert (i < length (seq 0 n))%nat by (apply nth_error_Some; congruence).
    rewrite seq_length in *. rewrite (nth_error_nth' _ O) in Hk by (rewrite seq_length; assumption).
    rewrite seq_nth in Hk by assumption. inv Hk. apply job_result_in. exact Hr.
  Qed.

  Lemma collect_ok : forall n r secs, length secs = n -> Permutation (map fst r) (seq 0 n) ->
    (forall i s, In (i, s) r -> nth_error secs i = Some s) -> collect_jobs L n r = Ok secs.
  Proof.
    intros n r secs Hn Hp Hr. unfold collect_jobs.
    assert (Hj : forall i, In i (seq 0 n) -> exists s, job_result L i r = Ok s /\ nth_error secs i = Some s).
    { intros i Hi. destruct (job_result_some i r) as [s Hs].
      - eapply Permutation_in; [symmetry; exact Hp | exact Hi].
      - exists s. split; [exact Hs|]. apply Hr, job_result_in, Hs. }
    clear Hp Hr. subst n. revert Hj.
    enough (X : forall pre suf, secs = pre ++ suf ->
      (forall i, In i (seq (length pre) (length suf)) -> exists s, job_result L i r = Ok s /\ nth_error secs i = Some s) ->
      mapM (fun i => job_result L i r) (seq (length pre) (length suf)) = Ok suf).
    { intros Hj. exact (X [] secs eq_refl Hj). }
    intros pre suf. revert pre. induction suf as [|x suf IH]; intros pre E Hj; [reflexivity|].
    cbn [length seq mapM]. destruct (Hj (length pre)) as [s [Hs Hn]]; [cbn; auto|].
    rewrite Hs. cbn [bind]. subst secs. rewrite nth_error_app2 in Hn by lia. rewrite Nat.sub_diag in Hn. cbn in Hn. inv Hn.
    specialize (IH (pre ++ [s])). rewrite app_length in IH. cbn [length] in IH.
    replace (length pre + 1)%nat with (S (length pre)) in IH by lia.
    rewrite IH; [reflexivity | rewrite <- app_assoc; reflexivity |].
    intros i Hi. apply Hj. cbn. right. exact Hi.
  Qed.

  Lemma arranged_perm : forall A (l l' : list A) order, schedule order (length l) -> arranged l order l' -> length order = length l.
  Proof. intros A l l' order H _. rewrite (Permutation_length H). apply seq_length. Qed.

  Lemma opening : forall order j url c,
    (forall l, smj_sections j = Some l -> schedule order (length l) /\ Forall i32_offset l) ->
    (ic_from_source_map_json md L U order j url = Ok c
     <-> smj_version j = 3 /\ exists l l' secs, smj_sections j = Some l
         /\ arranged l order l' /\ in_order (map js_offset l')
         /\ Forall2 (section_opens md L U url) l secs
         /\ c = mkIC j (mkCell 0 secs)).
  Proof.
    intros order j url c Hh. unfold ic_from_source_map_json, SUPPORTED_SOURCE_MAP_VERSION.
    destruct (smj_version j =? 3) eqn:Ev; cbn [negb].
    2: { split; [discriminate | intros [X _]; lia]. }
    destruct (smj_sections j) as [l|] eqn:El.
    2: { cbn. split; [discriminate | intros [_ [l [l' [secs [X _]]]]]; discriminate]. }
    destruct (Hh l eq_refl) as [Hsch Hsm]. cbn [unwrap bind]. split.
    - intros H. destruct (run_jobs md L U url l order (mkPos (-1) 0)) as [r|p] eqn:Er; [|discriminate]. cbn [bind] in H.
      destruct (collect_jobs L (length l) r) as [secs|p] eqn:Ec; [|discriminate]. cbn [bind] in H. inv H.
      destruct (jobs_inv _ _ _ _ _ Hsm Er) as [H1 [l' [H2 H3]]].
      destruct (collect_inv _ _ _ Ec) as [H4 H5].
      split; [lia|]. exists l, l', secs. split; [reflexivity|]. split; [exact H2|]. split; [exact H3|]. split; [|reflexivity].
      clear - H1 H4 H5.
      assert (Hop : forall i s sec, nth_error l i = Some s -> nth_error secs i = Some sec -> section_opens md L U url s sec).
      { intros i s sec Hi Hs. apply H5 in Hs. destruct (Forall2_In_r _ _ _ _ _ _ H1 Hs) as [k [_ [Hk [s' [Hs' Ho]]]]].
        cbn in *. subst k. congruence. }
      clear H1 H5. revert secs H4 Hop. induction l as [|s l IH]; intros [|sec secs] H4 Hop; try discriminate; constructor.
      + apply (Hop O); reflexivity.
      + apply IH; [cbn in H4; congruence|]. intros i s' sec' Hi Hs. apply (Hop (S i)); assumption.
    - intros [_ [l0 [l' [secs [E [H2 [H3 [H4 ->]]]]]]]]. inv E.
      destruct (jobs_run url l0 secs order (mkPos (-1) 0) l' Hsm H4 H2 H3) as [r [Er Hr]].
      rewrite Er. cbn [bind].
      assert (Hfst : map fst r = order).
      { clear - Hr. induction Hr as [|i p order r [<- _] _ IH]; cbn; congruence. }
      rewrite (collect_ok (length l0) r secs).
      + reflexivity.
      + symmetry. eapply Forall2_len; eassumption.
      + rewrite Hfst. exact Hsch.
      + intros i s Hi. destruct (Forall2_In_r _ _ _ _ _ _ Hr Hi) as [k [_ [Hk Hs]]]. cbn in *. subst k. exact Hs.
  Qed.

  Lemma arranged_seq : forall A (l : list A), arranged l (seq 0 (length l)) l.
  Proof.
    intros A l. unfold arranged. enough (X : forall pre suf, l = pre ++ suf ->
      Forall2 (fun i x => nth_error l i = Some x) (seq (length pre) (length suf)) suf) by exact (X [] l eq_refl).
    intros pre suf. revert pre. induction suf as [|x suf IH]; intros pre E; cbn; constructor.
    - rewrite E, nth_error_app2, Nat.sub_diag by lia. reflexivity.
    - specialize (IH (pre ++ [x])). rewrite app_length in IH. cbn [length] in IH.
      replace (length pre + 1)%nat with (S (length pre)) in IH by lia. apply IH. rewrite <- app_assoc. exact E.
  Qed.

  Lemma arranged_fun : forall A (l : list A) order a b, arranged l order a -> arranged l order b -> a = b.
  Proof.
    intros A l order a b H. revert b. induction H as [|i x order a Hi H IH]; intros b Hb; inv Hb; [reflexivity|].
    f_equal; [congruence | auto].
  Qed.

  (** sections taken in the order of the map *)
  Lemma opening_in_order : forall j url c,
    (forall l, smj_sections j = Some l -> Forall i32_offset l) ->
    forall n, (forall l, smj_sections j = Some l -> n = length l) ->
    (ic_from_source_map_json md L U (seq 0 n) j url = Ok c
     <-> smj_version j = 3 /\ exists l secs, smj_sections j = Some l
         /\ in_order (map js_offset l)
         /\ Forall2 (section_opens md L U url) l secs
         /\ c = mkIC j (mkCell 0 secs)).
  Proof.
    intros j url c Hs n Hn. rewrite opening.
    2: { intros l El. rewrite (Hn l El). split; [unfold schedule; reflexivity | auto]. }
    split; intros [Hv X]; (split; [exact Hv|]).
    - destruct X as [l [l' [secs [El [Ha [Ho [Hf ->]]]]]]]. exists l, secs.
      rewrite (Hn l El) in Ha. rewrite (arranged_fun _ _ _ _ _ Ha (arranged_seq _ l)) in Ho. auto.
    - destruct X as [l [secs [El [Ho [Hf ->]]]]]. exists l, l, secs. rewrite (Hn l El).
      repeat split; auto. apply arranged_seq.
  Qed.

  (** *** Schedules *)
  Lemma sorted_perm_unique : forall a b, StronglySorted lt a -> StronglySorted lt b -> Permutation a b -> a = b.
  Proof.
    induction a as [|x a IH]; intros b Ha Hb Hp.
    - apply Permutation_nil in Hp. congruence.
    - destruct b as [|y b]; [apply Permutation_sym, Permutation_nil in Hp; discriminate|].
      inversion Ha as [|? ? Ha' Fa]; subst. inversion Hb as [|? ? Hb' Fb]; subst.
      rewrite Forall_forall in Fa, Fb.
      assert (x = y).
      { assert (In x (y :: b)) by (eapply Permutation_in; [exact Hp | left; reflexivity]).
        assert (In y (x :: a)) by (eapply Permutation_in; [symmetry; exact Hp | left; reflexivity]).
        cbn in H, H0. destruct H as [H|H]; [congruence|]. destruct H0 as [H0|H0]; [congruence|].
        apply Fa in H0. apply Fb in H. lia. }
      subst y. f_equal. apply IH; try assumption. eapply Permutation_cons_inv. exact Hp.
  Qed.

  Lemma seq_sorted : forall n k, StronglySorted lt (seq k n).
  Proof.
    induction n as [|n IH]; intros k; cbn; constructor; [apply IH|].
    apply Forall_forall. intros x Hx. apply in_seq in Hx. lia.
  Qed.

  Lemma increasing_nth : forall l i j a b, increasing l -> (i < j)%nat -> nth_error l i = Some a -> nth_error l j = Some b ->
    pos_lt a b.
  Proof.
    intros l i j a b H. revert i j. induction H as [|x l Hs IH Hf]; intros [|i] [|j] Hij Ha Hb; cbn in *; try discriminate; try lia.
    - inv Ha. rewrite Forall_forall in Hf. apply Hf. eapply nth_error_In; eassumption.
    - eapply IH; [|eassumption|eassumption]. lia.
  Qed.

  Lemma arranged_order : forall (l l' : list JSection) order, increasing (map js_offset l) ->
    NoDup order -> arranged l order l' -> StronglySorted pos_le (map js_offset l') -> StronglySorted lt order.
  Proof.
    intros l l' order Hi Hn Ha. induction Ha as [|i x order l' Hx Ha IH]; intros Hs; [constructor|].
    cbn in Hs. inversion Hs as [|? ? Hs' Hf]; subst. inversion Hn as [|? ? Hni Hn']; subst.
    constructor; [apply IH; assumption|]. rewrite Forall_forall in *. intros k Hk.
    apply In_nth_error in Hk. destruct Hk as [m Hm].
    destruct (Forall2_nth_l _ _ _ _ _ _ _ Ha Hm) as [y [Hy Hyk]].
    assert (Hle : pos_le (js_offset x) (js_offset y)).
    { apply Hf. apply in_map. eapply nth_error_In; eassumption. }
    destruct (Nat.lt_trichotomy i k) as [X|[X|X]]; [exact X | |].
    - subst k. exfalso. apply Hni. eapply nth_error_In; eassumption.
    - exfalso. assert (Hlt : pos_lt (js_offset y) (js_offset x)).
      { eapply (increasing_nth _ k i); [exact Hi | exact X | |]; rewrite nth_error_map; [rewrite Hyk | rewrite Hx]; reflexivity. }
      unfold pos_lt, pos_le in *. lia.
  Qed.

  Lemma schedules : forall order j url l,
    smj_sections j = Some l -> schedule order (length l) -> Forall i32_offset l -> increasing (map js_offset l) ->
    (order = seq 0 (length l) \/ exists p, ic_from_source_map_json md L U order j url = Panic p).
  Proof.
    intros order j url l El Hs Hsm Hi.
    destruct (ic_from_source_map_json md L U order j url) as [c|p] eqn:E; [|right; eauto]. left.
    apply opening in E.
    2: { intros l0 E0. rewrite El in E0. inv E0. auto. }
    destruct E as [_ [l0 [l' [secs [E0 [Ha [Ho _]]]]]]]. rewrite El in E0. inv E0.
    apply sorted_perm_unique; [|apply seq_sorted | exact Hs].
    eapply arranged_order; [exact Hi | | exact Ha |].
    - eapply Permutation_NoDup; [symmetry; exact Hs | apply seq_NoDup].
    - unfold in_order in Ho. inv Ho. assumption.
  Qed.

  Lemma section_opens_fun : forall url s a b, section_opens md L U url s a -> section_opens md L U url s b -> a = b.
  Proof. intros url s [o c] [o' c'] [_ [[H1 _] H2]] [_ [[H3 _] H4]]. cbn in *. congruence. Qed.

  Lemma same_result : forall order order' j url l c c',
    smj_sections j = Some l -> schedule order (length l) -> schedule order' (length l) -> Forall i32_offset l ->
    ic_from_source_map_json md L U order j url = Ok c -> ic_from_source_map_json md L U order' j url = Ok c' -> c = c'.
  Proof.
    intros order order' j url l c c' El Hs Hs' Hsm H H'.
    apply opening in H; [|intros l0 E0; rewrite El in E0; inv E0; auto].
    apply opening in H'; [|intros l0 E0; rewrite El in E0; inv E0; auto].
    destruct H as [_ [l0 [x [secs [E0 [_ [_ [Hf ->]]]]]]]]. destruct H' as [_ [l1 [x' [secs' [E1 [_ [_ [Hf' ->]]]]]]]].
    assert (l0 = l1) by congruence. subst l1. clear - Hf Hf'. f_equal. f_equal. revert secs' Hf'.
    induction Hf as [|s a l secs Ho Hf IH]; intros secs' Hf'; inv Hf'; [reflexivity|].
    f_equal; [eapply section_opens_fun; eassumption | auto].
  Qed.

  (** ** Histories *)
  Definition sec_follows (P : Prop) (s0 s : Sec) : Prop :=
    sec_generated_offset s = sec_generated_offset s0 /\ opened md L U (sec_consumer s0)
    /\ later md L U P s0 (sec_consumer s).

  Record ifollows (P : Prop) (c0 c : IndexedConsumer L) : Prop := {
    if_map : ic_source_map c = ic_source_map c0;
    if_flag : rc_flag (ic_sections c) = 0;
    if_secs : Forall2 (sec_follows P) (sections_of L c0) (sections_of L c) }.

  Lemma asked_app : forall c0 qs c q c', asked md L U c0 qs = Ok c -> ask md L U c q = Ok c' ->
    asked md L U c0 (qs ++ [q]) = Ok c'.
  Proof.
    intros c0 qs. revert c0. induction qs as [|x qs IH]; intros c0 c q c' H Hq; cbn in *.
    - inv H. rewrite Hq. reflexivity.
    - destruct (ask md L U c0 x) as [c1|p]; [|discriminate]. cbn [bind] in *. eapply IH; eassumption.
  Qed.

  Lemma sec_step_any : forall P s0 s q c', passed_on q -> sec_follows P s0 s -> ask md L U (sec_consumer s) q = Ok c' ->
    sec_follows (P \/ q = QSpans) s0 (mkSection (sec_generated_offset s) c').
  Proof.
    intros P s0 s q c' Hp [H1 [H2 [qs [H3 [H4 H5]]]]] H. split; [exact H1|]. split; [exact H2|]. cbn.
    exists (qs ++ [q]). split; [eapply asked_app; eassumption|]. split.
    - rewrite in_app_iff, H4. cbn. tauto.
    - apply Forall_app. split; [exact H5|]. constructor; [exact Hp|constructor].
  Qed.

  Lemma sec_follows_iff : forall (P Q : Prop) s0 s, (P <-> Q) -> sec_follows P s0 s -> sec_follows Q s0 s.
  Proof.
    intros P Q s0 s E [H1 [H2 [qs [H3 [H4 H5]]]]]. split; [exact H1|]. split; [exact H2|]. exists qs.
    split; [exact H3|]. split; [tauto | exact H5].
  Qed.

  Lemma sec_step : forall P s0 s q c', q <> QSpans -> passed_on q -> sec_follows P s0 s -> ask md L U (sec_consumer s) q = Ok c' ->
    sec_follows P s0 (mkSection (sec_generated_offset s) c').
  Proof.
    intros P s0 s q c' Hq Hp Hf H. apply (sec_follows_iff (P \/ q = QSpans)); [tauto|]. apply sec_step_any; assumption.
  Qed.

  Lemma update_follows : forall P l0 l k s', Forall2 (sec_follows P) l0 l ->
    (forall s0, nth_error l0 k = Some s0 -> sec_follows P s0 s') -> Forall2 (sec_follows P) l0 (update l k s').
  Proof.
    intros P l0 l k s' H. revert k. induction H as [|a b l0 l Hab H IH]; intros k Hk; [destruct k; constructor|].
    destruct k as [|k]; cbn.
    - constructor; [apply Hk; reflexivity | exact H].
    - constructor; [exact Hab|]. apply IH. intros s0 Hs. apply Hk. exact Hs.
  Qed.

  (** what opening leaves of a section *)
  Definition good_start (s : Sec) : Prop :=
    opened md L U (sec_consumer s)
    /\ (exists z, i32_sub md (p_line (sec_generated_offset s)) 1 = Ok z)
    /\ (exists z, i32_sub md (p_column (sec_generated_offset s)) 1 = Ok z).

  Lemma sub_add : forall z y, i32_min <= z -> i32_add md z 1 = Ok y -> exists x, i32_sub md y 1 = Ok x.
  Proof.
    intros z y Hz H. unfold i32_add, i32_sub, checked_i32 in *. destruct md; [|destruct (in_i32 (y - 1)); eexists; reflexivity].
    destruct (in_i32 (z + 1)) eqn:E; [|discriminate]. inv H. apply in_i32_iff in E.
    unfold i32_min in Hz. change (- 2 ^ 31) with (-2147483648) in Hz.
    assert (X : in_i32 (z + 1 - 1) = true) by (apply in_i32_iff; lia). rewrite X. eauto.
  Qed.

  Lemma iopened_start : forall c0, iopened md L U c0 ->
    rc_flag (ic_sections c0) = 0 /\ Forall good_start (sections_of L c0).
  Proof.
    intros c0 [order [j [url [l [El [_ [Hl H]]]]]]].
    unfold ic_from_source_map_json in H. destruct (negb _); [discriminate|].
    rewrite El in H. cbn [unwrap bind] in H.
    destruct (run_jobs md L U url l order (mkPos (-1) 0)) as [r|p] eqn:Er; [|discriminate]. cbn [bind] in H.
    destruct (collect_jobs L (length l) r) as [secs|p] eqn:Ec; [|discriminate]. cbn in H. inv H. split; [reflexivity|].
    apply Forall_forall. intros s Hs. cbn in Hs. apply In_nth_error in Hs. destruct Hs as [i Hi].
    apply (proj2 (collect_inv _ _ _ Ec)) in Hi. clear Ec. revert r Er Hi. generalize (mkPos (-1) 0).
    induction order as [|k order IH]; intros last r Er Hi; cbn in Er; [inv Er; contradiction|].
    destruct (vec_index l (Z.of_nat k)) as [x|p] eqn:Ex; [|discriminate]. cbn [bind] in Er.
    destruct (section_job md L U url last x) as [[sec o]|p] eqn:Es; [|discriminate]. cbn [bind] in Er.
    destruct (run_jobs md L U url l order o) as [rest|p] eqn:E2; [|discriminate]. cbn in Er. inv Er.
    destruct Hi as [Hi|Hi]; [|eapply IH; eassumption]. inv Hi.
    apply vec_index_ok in Ex. rewrite vec_get_nth in Ex. apply nth_error_In in Ex.
    rewrite Forall_forall in Hl. destruct (Hl _ Ex) as [Hx1 Hx2].
    unfold section_job in Es. destruct (is_some (js_url x)); [discriminate|]. destruct (_ || _); [discriminate|].
    destruct (i32_add md (p_line (js_offset x)) 1) as [l1|p] eqn:E1; [|discriminate]. cbn [bind] in Es.
    destruct (i32_add md (p_column (js_offset x)) 1) as [c1|p] eqn:E3; [|discriminate]. cbn [bind] in Es.
    destruct (bc_from_source_map_json md L U (js_map x) url) as [c|p] eqn:Eb; [|discriminate]. cbn in Es. inv Es.
    split; [right; cbn; eauto|]. cbn. split; eapply sub_add; try eassumption; lia.
  Qed.

  Lemma iopened_follows : forall c0, iopened md L U c0 -> ifollows False c0 c0.
  Proof.
    intros c0 H. destruct (iopened_start _ H) as [Hf Ho]. constructor; [reflexivity | exact Hf |].
    clear Hf. induction Ho as [|s l [Hs _] Ho IH]; constructor; [|exact IH].
    split; [reflexivity|]. split; [exact Hs|]. exists []. split; [reflexivity|]. cbn. split; [tauto | constructor].
  Qed.

  Lemma get_inner : forall js v n i acc l, 0 <= n -> sources_of_section L v i = Ok l -> Forall (fun j => (j < length l)%nat) js ->
    get_sources_inner L (mkCell n v) i js acc
    = Ok (acc ++ map (fun j => nth j l []) js, mkCell n v).
  Proof.
    induction js as [|j js IH]; intros v n i acc l Hn Hl Hj; cbn [get_sources_inner map].
    - rewrite app_nil_r. reflexivity.
    - unfold rc_borrow at 1. cbn [rc_flag rc_val]. replace (n <? 0) with false by lia. cbn [bind rc_val].
      rewrite Hl. cbn [bind]. inversion Hj as [|? ? Hj1 Hj2]; subst.
      rewrite (vec_index_nth _ l j (nth j l [])) by (apply nth_error_nth'; exact Hj1). cbn [bind].
      unfold rc_release. cbn [rc_flag rc_val]. replace (n + 1 - 1) with n by lia.
      rewrite (IH v n i _ l Hn Hl Hj2). rewrite <- app_assoc. reflexivity.
  Qed.

  Lemma map_nth_seq : forall (l : list str), map (fun j => nth j l []) (seq 0 (length l)) = l.
  Proof.
    intros l. enough (X : forall pre suf, l = pre ++ suf ->
      map (fun j => nth j l []) (seq (length pre) (length suf)) = suf) by exact (X [] l eq_refl).
    intros pre suf. revert pre. induction suf as [|x suf IH]; intros pre E; cbn; [reflexivity|]. f_equal.
    - rewrite E, app_nth2, Nat.sub_diag by lia. reflexivity.
    - specialize (IH (pre ++ [x])). rewrite app_length in IH. cbn [length] in IH.
      replace (length pre + 1)%nat with (S (length pre)) in IH by lia. apply IH. rewrite <- app_assoc. exact E.
  Qed.

  Lemma get_outer : forall is v n acc ls, 0 <= n -> Forall2 (fun i l => sources_of_section L v i = Ok l) is ls ->
    get_sources_outer L (mkCell n v) is acc = Ok (acc ++ concat ls, mkCell n v).
  Proof.
    intros is v n acc ls Hn H. revert acc. induction H as [|i l is ls Hi H IH]; intros acc; cbn [get_sources_outer concat].
    - rewrite app_nil_r. reflexivity.
    - unfold rc_borrow at 1. cbn [rc_flag rc_val]. replace (n <? 0) with false by lia. cbn [bind rc_val].
      rewrite Hi. cbn [bind]. rewrite (get_inner _ v (n + 1) i acc l); [|lia|exact Hi|].
      2: { apply Forall_forall. intros x Hx. apply in_seq in Hx. lia. }
      cbn [bind]. unfold rc_release. cbn [rc_flag rc_val]. replace (n + 1 - 1) with n by lia.
      rewrite IH, map_nth_seq, <- app_assoc. reflexivity.
  Qed.

  Lemma opened_has_sources : forall c, opened md L U c -> exists l, smj_sources (bc_source_map c) = Some l.
  Proof.
    intros c [[s [url H]]|[j [url H]]].
    - unfold bc_new in H. bind_inv H. bind_inv H. inv H. cbn.
      match goal with X : compute_absolute_sources _ _ _ _ = Ok _ |- _ => unfold compute_absolute_sources in X; bind_inv X end.
      match goal with X : unwrap _ = Ok _ |- _ => apply unwrap_some in X; eauto end.
    - unfold bc_from_source_map_json in H. bind_inv H. inv H. cbn.
      match goal with X : compute_absolute_sources _ _ _ _ = Ok _ |- _ => unfold compute_absolute_sources in X; bind_inv X end.
      match goal with X : unwrap _ = Ok _ |- _ => apply unwrap_some in X; eauto end.
  Qed.

  Lemma later_map : forall P s c, opened md L U (sec_consumer s) -> later md L U P s c -> bc_source_map c = bc_source_map (sec_consumer s).
  Proof.
    intros P s c Ho [qs [H _]]. destruct (history md L U _ _ _ Ho H) as [_ Hc]. apply (fo_map _ _ _ _ _ Hc).
  Qed.

  Lemma get_sources_spec : forall P c0 c, ifollows P c0 c ->
    ic_get_sources L c = Ok (concat (map (raw_sources L) (sections_of L c0)), c).
  Proof.
    intros P c0 [j [n v]] [Hm Hf Hs]. cbn in Hf, Hs. subst n. unfold ic_get_sources. cbn [ic_sections].
    unfold rc_borrow at 1. cbn [rc_flag rc_val]. change (0 <? 0) with false. cbn [bind rc_val].
    change (0 + 1) with 1.
    assert (X : Forall2 (fun i l => sources_of_section L v i = Ok l) (seq 0 (length v)) (map (raw_sources L) (sections_of L c0))).
    { clear Hm. unfold sections_of in Hs. cbn [ic_sections rc_val] in Hs.
      enough (Y : forall pre suf l0, v = pre ++ suf -> Forall2 (sec_follows P) l0 suf ->
        Forall2 (fun i l => sources_of_section L v i = Ok l) (seq (length pre) (length suf)) (map (raw_sources L) l0))
        by exact (Y [] v _ eq_refl Hs).
      intros pre suf l0 E H. revert pre E. induction H as [|s0 s l0 suf [H1 [H2 H3]] H IH]; intros pre E; cbn [length seq map]; constructor.
      - unfold sources_of_section. rewrite (vec_index_nth _ v (length pre) s).
        2: { rewrite E, nth_error_app2, Nat.sub_diag by lia. reflexivity. }
        cbn [bind]. rewrite (later_map _ _ _ H2 H3). unfold raw_sources. destruct (opened_has_sources _ H2) as [l El].
        rewrite El. reflexivity.
      - specialize (IH (pre ++ [s])). rewrite app_length in IH. cbn [length] in IH.
        replace (length pre + 1)%nat with (S (length pre)) in IH by lia. apply IH. rewrite <- app_assoc. exact E. }
    rewrite (get_outer _ v 1 [] _ ltac:(lia) X). cbn [bind app]. unfold ic_set_sections, rc_release. cbn. reflexivity.
  Qed.

  (** *** Reverse queries *)
  Lemma find_panics : forall c src, rc_flag (ic_sections c) = 0 -> sections_of L c <> [] ->
    ic_find_source_index md L U c src = Panic PBorrowMut.
  Proof.
    intros [j [n v]] src Hf Hs. cbn in Hf, Hs. subst n. unfold ic_find_source_index, rc_borrow. cbn.
    destruct v as [|s v]; [congruence|]. reflexivity.
  Qed.

  Lemma find_empty : forall c src, rc_flag (ic_sections c) = 0 -> sections_of L c = [] ->
    ic_find_source_index md L U c src = Ok (None, c).
  Proof.
    intros [j [n v]] src Hf Hs. cbn in Hf, Hs. subst n v. reflexivity.
  Qed.

  Lemma each_panics : forall c ord s v, rc_flag (ic_sections c) = 0 -> sections_of L c = s :: v ->
    (exists z, i32_sub md (p_line (sec_generated_offset s)) 1 = Ok z) ->
    (exists z, i32_sub md (p_column (sec_generated_offset s)) 1 = Ok z) ->
    ic_each_mapping md L c ord = Panic PBorrow.
  Proof.
    intros [j [n x]] ord s v Hf Hs [z1 H1] [z2 H2]. cbn in Hf, Hs. subst n x.
    unfold ic_each_mapping, rc_borrow_mut. cbn. rewrite H1. cbn [bind]. rewrite H2. reflexivity.
  Qed.

  Lemma each_empty : forall c ord, rc_flag (ic_sections c) = 0 -> sections_of L c = [] ->
    ic_each_mapping md L c ord = Ok ([], c).
  Proof. intros [j [n v]] ord Hf Hs. cbn in Hf, Hs. subst n v. reflexivity. Qed.

  (** *** One call *)
  Lemma istate_ok : forall A (r : res (A * IndexedConsumer L)) c, istate L r = Ok c -> exists a, r = Ok (a, c).
  Proof. intros A [[a x]|p] c H; cbn in H; [inv H; eauto | discriminate]. Qed.

  Lemma set_follows_secs : forall P Q c0 c secs, ifollows P c0 c -> Forall2 (sec_follows Q) (sections_of L c0) secs ->
    ifollows Q c0 (ic_set_sections L c (mkCell 0 secs)).
  Proof. intros P Q c0 c secs [H1 H2 H3] H. constructor; [exact H1 | reflexivity | exact H]. Qed.

  Lemma content_loop_follows : forall P src p l0 l a l', Forall2 (sec_follows P) l0 l ->
    source_content_loop md L U l src p = Ok (a, l') -> Forall2 (sec_follows P) l0 l'.
  Proof.
    intros P src p l0 l a l' H. revert a l'. induction H as [|s0 s l0 l Hs H IH]; intros a l' E; cbn in E.
    - inv E. constructor.
    - destruct (bc_source_content_for md L U (sec_consumer s) src p) as [[it bc]|e] eqn:Eb; [|discriminate]. cbn [bind] in E.
      assert (Hs' : sec_follows P s0 (mkSection (sec_generated_offset s) bc)).
      { apply (sec_step P s0 s (QContent src p)); [discriminate | exact I | exact Hs |]. cbn. rewrite Eb. reflexivity. }
      destruct it as [it|].
      + inv E. constructor; assumption.
      + destruct (source_content_loop md L U l src p) as [[a' rest]|e]; [|discriminate]. cbn in E. inv E.
        constructor; [exact Hs'|]. eapply IH. reflexivity.
  Qed.

  Lemma spans_follows : forall P l0 l l', Forall2 (sec_follows P) l0 l ->
    mapM (fun ele => let* bc := bc_compute_column_spans L (sec_consumer ele) in
                     Ok (mkSection (sec_generated_offset ele) bc)) l = Ok l' -> Forall2 (sec_follows True) l0 l'.
  Proof.
    intros P l0 l l' H. revert l'. induction H as [|s0 s l0 l Hs H IH]; intros l' E; cbn in E.
    - inv E. constructor.
    - destruct (bc_compute_column_spans L (sec_consumer s)) as [bc|e] eqn:Eb; [|discriminate]. cbn [bind] in E.
      destruct (mapM _ l) as [rest|e]; [|discriminate]. cbn in E. inv E. constructor; [|apply IH; reflexivity].
      apply (sec_follows_iff (P \/ QSpans = QSpans)); [tauto|]. apply sec_step_any; [exact I | exact Hs|]. exact Eb.
  Qed.

  Lemma ifollows_iff : forall (P Q : Prop) c0 c, (P <-> Q) -> ifollows P c0 c -> ifollows Q c0 c.
  Proof.
    intros P Q c0 c E [H1 H2 H3]. constructor; [exact H1 | exact H2 |].
    induction H3; constructor; [eapply sec_follows_iff; eassumption | assumption].
  Qed.

  Lemma iask_follows_other : forall P c0 c q c', q <> ISpans -> ifollows P c0 c -> iask md L U c q = Ok c' ->
    ifollows P c0 c'.
  Proof.
    intros P c0 c q c' Hq Hc H. pose proof Hc as [Hm Hf Hs]. destruct q; cbn [iask] in H.
    - apply istate_ok in H. destruct H as [a H]. rewrite (get_sources_spec _ _ _ Hc) in H. inv H. exact Hc.
    - apply istate_ok in H. destruct H as [a H]. unfold ic_original_position_for in H.
      destruct c as [j [n v]]. cbn in Hf, Hs, Hm. subst n. cbn [ic_sections] in H.
      unfold rc_borrow at 1 in H. cbn [rc_flag rc_val] in H. change (0 <? 0) with false in H. cbn [bind rc_val] in H.
      destruct (search _ _ _ _ _ _) as [k|p]; [|discriminate]. cbn [bind] in H.
      unfold rc_release in H. cbn [rc_flag rc_val] in H. change (0 + 1 - 1) with 0 in H.
      unfold rc_borrow_mut in H. cbn [rc_flag rc_val] in H. change (0 =? 0) with true in H. cbn [bind rc_val] in H.
      unfold rc_release_mut in H.
      destruct (vec_get v (to_usize k)) as [it|] eqn:Ek.
      + bind_inv H. bind_inv H. bind_inv H. bind_inv H.
        match goal with H : context [bc_original_position_for md L ?a ?b ?c] |- _ =>
          destruct (bc_original_position_for md L a b c) as [[r bc]|p] eqn:Eb; [|discriminate] end.
        cbn [bind] in H. inv H. apply (set_follows_secs _ _ c0 _ _ Hc).
        apply update_follows; [exact Hs|]. intros s0 Hs0.
        apply vec_get_some_nth in Ek. destruct Ek as [_ Ek].
        destruct (Forall2_nth_l _ _ _ _ _ _ _ Hs Hs0) as [s [Es Hsf]]. rewrite Ek in Es. inv Es.
        match goal with H : bc_original_position_for md L _ ?g ?b = _ |- _ => apply (sec_step P s0 s (QOriginal g b)) end; [discriminate | exact I | exact Hsf |].
        cbn. match goal with H : bc_original_position_for md L _ ?g ?b = _ |- _ => rewrite H end. reflexivity.
      + inv H. apply (set_follows_secs _ _ c0 _ _ Hc). exact Hs.
    - apply istate_ok in H. destruct H as [a H]. unfold ic_has_contents_of_all_sources in H.
      destruct c as [j [n v]]. cbn in Hf, Hs, Hm. subst n. cbn [ic_sections] in H.
      unfold rc_borrow at 1 in H. cbn [rc_flag rc_val] in H. change (0 <? 0) with false in H. cbn [bind rc_val] in H.
      bind_inv H. inv H. exact Hc.
    - apply istate_ok in H. destruct H as [a H]. unfold ic_source_content_for in H.
      unfold rc_borrow_mut in H. rewrite Hf in H. cbn [Z.eqb bind rc_val] in H.
      destruct (source_content_loop md L U (rc_val (ic_sections c)) source panic_on_missing) as [[r secs]|p] eqn:El; [|discriminate].
      cbn [bind] in H. unfold rc_release_mut in H.
      pose proof (content_loop_follows _ _ _ _ _ _ _ Hs El) as Hs'.
      destruct r as [it|].
      + inv H. apply (set_follows_secs _ _ c0 _ _ Hc Hs').
      + destruct (match panic_on_missing with Some b => b | None => true end); [discriminate|]. inv H.
        apply (set_follows_secs _ _ c0 _ _ Hc Hs').
    - apply istate_ok in H. destruct H as [a H]. unfold ic_generated_position_for in H.
      destruct (sections_of L c) as [|s v] eqn:Es.
      + rewrite (find_empty c source Hf Es) in H. cbn in H. inv H. exact Hc.
      + rewrite (find_panics c source Hf) in H by congruence. discriminate.
    - apply istate_ok in H. destruct H as [a H]. unfold ic_all_generated_position_for in H.
      destruct (sections_of L c) as [|s v] eqn:Es.
      + rewrite (find_empty c source Hf Es) in H. cbn in H. inv H. exact Hc.
      + rewrite (find_panics c source Hf) in H by congruence. discriminate.
    - congruence.
    - apply istate_ok in H. destruct H as [a H].
      destruct (sections_of L c) as [|s v] eqn:Es.
      + rewrite (each_empty c ord Hf Es) in H. inv H. exact Hc.
      + exfalso. destruct c as [j [n x]]. cbn in Hf, Es. subst n x.
        unfold ic_each_mapping, rc_borrow_mut in H. cbn in H.
        destruct (i32_sub md (p_line (sec_generated_offset s)) 1); [|discriminate]. cbn [bind] in H.
        destruct (i32_sub md (p_column (sec_generated_offset s)) 1); discriminate.
  Qed.

  Lemma iask_follows : forall P c0 c q c', ifollows P c0 c -> iask md L U c q = Ok c' ->
    ifollows (P \/ q = ISpans) c0 c'.
  Proof.
    intros P c0 c q c' Hc H.
    assert (D : q = ISpans \/ q <> ISpans) by (destruct q; (left; reflexivity) || (right; discriminate)).
    destruct D as [D|D].
    - subst q. pose proof Hc as [Hm Hf Hs]. cbn [iask] in H.
      unfold ic_computed_column_spans, rc_borrow_mut in H. rewrite Hf in H. cbn [Z.eqb bind rc_val] in H.
      destruct (mapM _ _) as [secs|p] eqn:Em; [|discriminate]. cbn [bind] in H. inv H.
      apply (ifollows_iff True); [tauto|].
      apply (set_follows_secs _ _ c0 _ _ Hc). eapply spans_follows; [exact Hs | exact Em].
    - apply (ifollows_iff P); [tauto|]. eapply iask_follows_other; eassumption.
  Qed.

  Lemma ihistory : forall c0 qs c, iopened md L U c0 -> iasked md L U c0 qs = Ok c -> ifollows (In ISpans qs) c0 c.
  Proof.
    intros c0 qs c Ho H. pose proof (iopened_follows _ Ho) as Hc.
    enough (X : forall P c1, ifollows P c0 c1 -> iasked md L U c1 qs = Ok c -> ifollows (P \/ In ISpans qs) c0 c).
    { apply (ifollows_iff (False \/ In ISpans qs)); [tauto|]. apply (X _ c0); assumption. }
    clear Hc H. induction qs as [|q qs IH]; intros P c1 Hc H; cbn in H.
    - inv H. apply (ifollows_iff P); [cbn; tauto | exact Hc].
    - destruct (iask md L U c1 q) as [c2|p] eqn:E; [|discriminate]. cbn [bind] in H.
      apply (ifollows_iff ((P \/ q = ISpans) \/ In ISpans qs)); [cbn; tauto|].
      eapply IH; [|exact H]. eapply iask_follows; eassumption.
  Qed.
End Ind.

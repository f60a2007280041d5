(** * Queries about the mappings added to a generator: C66-C69 *)
From Verif Require Import F_Base M_ArraySet M_Mapping M_Util M_SourceMap M_Generator M_Json M_MapLib
  M_Consumer M_Indexed S_List S_Vlq S_Decode S_Mapping S_Generator S_Far S_Contents S_Json S_MapLib S_Consumer S_EndToEnd
  F_ArraySet F_MappingList F_Generator F_GeneratorProps F_Contents F_Consumer F_ConsumerProps F_EndToEnd.
From Coq Require Import Sorting.Sorted Sorting.Permutation.

(** ** nearest, seen through a correspondence of entries *)
Definition down (p : loc) : loc := (fst p - 1, snd p).

Lemma down_lt : forall p q, loc_lt (down p) (down q) <-> loc_lt p q.
Proof. intros p q. unfold loc_lt, down. cbn [fst snd]. lia. Qed.
Lemma down_inj : forall p q, down p = down q <-> p = q.
Proof.
  intros [a b] [c d]. unfold down. cbn [fst snd]. split; intros H; [|congruence].
  injection H as H1 H2. f_equal; lia.
Qed.
Lemma down_le : forall p q, loc_le (down p) (down q) <-> loc_le p q.
Proof. intros p q. unfold loc_le. rewrite down_lt, down_inj. tauto. Qed.

Lemma nearest_through : forall A B (R : A -> B -> Prop) (l1 : list (A * loc)) (l2 : list (B * loc)) q b f1,
  (forall a p, In (a, p) l1 -> exists x p', In (x, p') l2 /\ p = down p' /\ R a x) ->
  (forall x p', In (x, p') l2 -> exists a, In (a, down p') l1) ->
  nearest l1 (down q) b f1 ->
  exists f2, nearest l2 q b f2
    /\ match f1, f2 with Some a, Some x => R a x | None, None => True | _, _ => False end.
Proof.
  intros A B R l1 l2 q b f1 H12 H21 H. destruct f1 as [a|].
  - destruct H as [p [Hin Hp]]. destruct (H12 _ _ Hin) as [x [p' [Hx [-> HR]]]].
    exists (Some x). split; [|exact HR]. exists p'. split; [exact Hx|].
    destruct Hp as [Hp|[Hno Hp]]; [left; apply down_inj; exact Hp|]. right. split.
    + intros a' p2 Hin' E. subst p2. destruct (H21 _ _ Hin') as [y Hy]. exact (Hno _ _ Hy eq_refl).
    + destruct b.
      * destruct Hp as [H1 H2]. split; [apply down_lt; exact H1|]. intros a' p2 Hin' Hlt.
        destruct (H21 _ _ Hin') as [y Hy]. apply down_le. apply (H2 _ _ Hy). apply down_lt. exact Hlt.
      * destruct Hp as [H1 H2]. split; [apply down_lt; exact H1|]. intros a' p2 Hin' Hlt.
        destruct (H21 _ _ Hin') as [y Hy]. apply down_le. apply (H2 _ _ Hy). apply down_lt. exact Hlt.
  - exists None. split; [|exact I]. intros x p' Hx. destruct (H21 _ _ Hx) as [y Hy]. specialize (H _ _ Hy).
    destruct b; apply down_lt; exact H.
Qed.

(** ** Mappings at a place *)
Definition at_pos (p : Position) (m : Mapping) : bool :=
  (p_line (m_generated m) =? p_line p) && (p_column (m_generated m) =? p_column p).
Definition times_at (p : Position) (ms : list Mapping) : nat := length (filter (at_pos p) ms).

Lemma at_pos_iff : forall p m, at_pos p m = true <-> m_generated m = p.
Proof.
  intros [l c] m. unfold at_pos. rewrite andb_true_iff, !Z.eqb_eq. cbn [p_line p_column].
  destruct (m_generated m) as [l' c']. cbn [p_line p_column]. split; [intros [-> ->]; reflexivity|].
  intros H. injection H as -> ->. auto.
Qed.

Lemma filter_perm : forall A (f : A -> bool) l l', Permutation l l' -> Permutation (filter f l) (filter f l').
Proof.
  intros A f l l' H. induction H; cbn.
  - constructor.
  - destruct (f x); [constructor|]; assumption.
  - destruct (f x), (f y); try reflexivity. apply perm_swap.
  - etransitivity; eassumption.
Qed.
Lemma times_perm : forall p l l', Permutation l l' -> times_at p l = times_at p l'.
Proof. intros p l l' H. apply Permutation_length, filter_perm. exact H. Qed.
Lemma times_app : forall p l l', times_at p (l ++ l') = (times_at p l + times_at p l')%nat.
Proof. intros p l l'. unfold times_at. rewrite filter_app, app_length. reflexivity. Qed.
Lemma times_none : forall p l, (forall m, In m l -> m_generated m <> p) -> times_at p l = 0%nat.
Proof.
  intros p. induction l as [|m l IH]; intros H; [reflexivity|]. unfold times_at in *. cbn.
  destruct (at_pos p m) eqn:E; [|apply IH; intros; apply H; right; assumption].
  apply at_pos_iff in E. exfalso. exact (H m (or_introl eq_refl) E).
Qed.
Lemma times_written : forall p l, times_at p (map written l) = times_at p l.
Proof.
  intros p. induction l as [|m l IH]; [reflexivity|]. unfold times_at in *. cbn.
  assert (E : at_pos p (written m) = at_pos p m) by reflexivity. rewrite E. destruct (at_pos p m); cbn; congruence.
Qed.
Lemma times_collapsed : forall p l r, collapsed l r -> (times_at p r <= times_at p l)%nat.
Proof.
  intros p l r H. induction H; unfold times_at in *; cbn in *; try lia.
  - destruct (at_pos p x); cbn in *; lia.
  - destruct (at_pos p x); cbn in *; lia.
Qed.
Lemma only_once : forall ms m, only_at_its_place ms m -> times_at (m_generated m) ms = 1%nat.
Proof.
  intros ms m [before [after [-> H]]]. rewrite times_app. rewrite times_none.
  2: { intros m' Hm. apply H. apply in_app_iff. left. exact Hm. }
  change (m :: after) with ([m] ++ after). rewrite times_app, (times_none _ after).
  2: { intros m' Hm. apply H. apply in_app_iff. right. exact Hm. }
  unfold times_at. cbn. rewrite (proj2 (at_pos_iff _ _) eq_refl). reflexivity.
Qed.

(** ** Library mappings and added mappings *)
Section Corr.
  Context (sources names : list str) (l : list RawMapping) (r : list Mapping) (ms : list Mapping).
  Context (Hres : resolve sources names l = Some r)
          (Hin : forall x, In x r <-> exists m, In m ms /\ x = written m).

  Definition stands_for (a : RawMapping) (m : Mapping) : Prop :=
    resolve_mapping sources names a = Some (written m) /\ In m ms.

  Lemma raw_has : forall a, In a l -> exists m, stands_for a m.
  Proof.
    intros a Ha. unfold resolve in Hres. apply all_some_Forall2 in Hres.
    assert (X : In (resolve_mapping sources names a) (map Some r)) by (rewrite <- Hres; apply in_map; exact Ha).
    apply in_map_iff in X. destruct X as [x [Ex Hx]]. apply Hin in Hx. destruct Hx as [m [Hm ->]].
    exists m. split; [symmetry; exact Ex | exact Hm].
  Qed.

  Lemma has_raw : forall m, In m ms -> exists a, In a l /\ stands_for a m.
  Proof.
    intros m Hm. assert (X : In (written m) r) by (apply Hin; exists m; auto).
    unfold resolve in Hres. apply all_some_Forall2 in Hres.
    apply (in_map Some) in X. rewrite <- Hres in X. apply in_map_iff in X. destruct X as [a [Ea Ha]].
    exists a. split; [exact Ha|]. split; assumption.
  Qed.

  Lemma stands_strip : forall a m, stands_for (strip a) m <-> stands_for a m.
  Proof. intros a m. unfold stands_for. rewrite resolve_strip_mapping. tauto. Qed.

  Lemma stands_generated : forall a m, stands_for a m ->
    m_generated m = mkPos (rm_line a + 1) (rm_column a).
  Proof. intros a m [H _]. apply resolve_place in H. exact H. Qed.

  Lemma stands_parts : forall a m, stands_for a m ->
    match rm_original a with
    | None => m_original m = None /\ m_source m = None /\ m_name m = None
    | Some o => m_original m = Some (mkPos (ol_line o + 1) (ol_column o))
        /\ (exists s, m_source m = Some s /\ lookup sources (ol_source o) = Some s)
        /\ match ol_name o with
           | None => m_name m = None
           | Some i => exists n, m_name m = Some n /\ lookup names i = Some n
           end
    end.
  Proof.
    intros a m [H _]. unfold resolve_mapping, written in H. destruct (rm_original a) as [o|].
    - destruct (lookup sources (ol_source o)) as [s|]; [|discriminate].
      destruct (ol_name o) as [i|].
      + destruct (lookup names i) as [n|]; [|discriminate]. injection H as H1 H2 H3 H4.
        split; [congruence|]. split; [exists s; split; congruence | exists n; split; congruence].
      + injection H as H1 H2 H3 H4. split; [congruence|]. split; [exists s; split; congruence | congruence].
    - injection H as H1 H2 H3 H4. repeat split; congruence.
  Qed.

  Lemma nearest_generated : forall line column b f, nearest (by_place l) (line - 1, column) b f ->
    exists f2, nearest (by_generated ms) (line, column) b f2
      /\ match f, f2 with Some a, Some m => stands_for a m | None, None => True | _, _ => False end.
  Proof.
    intros line column b f H. eapply nearest_through; [| |exact H].
    - intros a p Ha. unfold by_place in Ha. apply in_map_iff in Ha. destruct Ha as [a' [E Ha]].
      injection E as -> <-. destruct (raw_has _ Ha) as [m Hm]. exists m, (place (m_generated m)).
      split; [apply in_map_iff; exists m; split; [reflexivity | apply Hm]|].
      split; [|exact Hm]. rewrite (stands_generated _ _ Hm). unfold gen_loc, down, place. cbn. f_equal. lia.
    - intros m p' Hm. unfold by_generated in Hm. apply in_map_iff in Hm. destruct Hm as [m' [E Hm]].
      injection E as -> <-. destruct (has_raw _ Hm) as [a [Ha Hs]]. exists a. apply in_map_iff. exists a.
      split; [|exact Ha]. f_equal. rewrite (stands_generated _ _ Hs). unfold gen_loc, down, place. cbn. f_equal. lia.
  Qed.

  (** *** Last columns *)
  Context (Hsorted : StronglySorted raw_le l)
          (Hcount : forall p, (times_at p ms <= 1)%nat -> (times_at p r <= 1)%nat).

  Lemma sorted_split : forall A (R : A -> A -> Prop) l1 a l2, StronglySorted R (l1 ++ a :: l2) ->
    (forall x, In x l1 -> R x a) /\ StronglySorted R (a :: l2).
  Proof.
    intros A R. induction l1 as [|x l1 IH]; intros a l2 H; cbn in H; [split; [intros x []|exact H]|].
    inv H. destruct (IH _ _ H2) as [H4 H5]. split; [|exact H5]. intros y [<-|Hy]; [|auto].
    rewrite Forall_forall in H3. apply H3, in_app_iff. right. left. reflexivity.
  Qed.
  Lemma spans_app : forall l1 l2, spans (l1 ++ l2) -> spans l2.
  Proof. induction l1 as [|x l1 IH]; intros l2 H; [exact H|]. apply IH. cbn in H. apply H. Qed.

  Lemma spans_end : forall a m, spans l -> In a l -> stands_for a m -> column_end ms m (rm_last_column a).
  Proof.
    intros a m Hsp Ha Hm. pose proof (stands_generated _ _ Hm) as G. destruct (in_split _ _ Ha) as [l1 [l2 El]].
    pose proof Hsorted as Hs. rewrite El in Hs, Hsp. destruct (sorted_split _ _ _ _ _ Hs) as [Hb Hs2]. apply spans_app in Hsp.
    unfold column_end. rewrite G. cbn [p_line p_column].
    apply StronglySorted_inv in Hs2. destruct Hs2 as [H1 H2]. rewrite Forall_forall in H2.
    (* every added mapping before the next one on the line is not after a *)
    assert (Hcase : forall m', In m' ms -> p_line (m_generated m') = rm_line a + 1 ->
              p_column (m_generated m') <= rm_column a \/ exists b, In b l2 /\ rm_line b = rm_line a
                /\ p_column (m_generated m') = rm_column b).
    { intros m' Hm' Hl'. destruct (has_raw _ Hm') as [a' [Ha' Hst]]. rewrite (stands_generated _ _ Hst) in *.
      cbn [p_line p_column] in *. rewrite El in Ha'. apply in_app_iff in Ha'. destruct Ha' as [Ha'|[<-|Ha']].
      - left. specialize (Hb _ Ha'). unfold raw_le, loc_le, loc_lt, gen_loc in Hb. cbn [fst snd] in Hb.
        destruct Hb as [Hb|Hb]; [lia | injection Hb as _ Hb; lia].
      - left. lia.
      - right. exists a'. split; [exact Ha'|]. split; [lia | reflexivity]. }
    destruct l2 as [|b l2].
    - destruct Hsp as [-> _]. intros m' Hm' Hl'. destruct (Hcase _ Hm' Hl') as [X|[b [[] _]]]. exact X.
    - destruct Hsp as [[Hsame Hdiff] _].
      pose proof (H2 b (or_introl eq_refl)) as Hab. unfold raw_le, loc_le, loc_lt, gen_loc in Hab. cbn [fst snd] in Hab.
      apply StronglySorted_inv in H1. destruct H1 as [H3 H4]. rewrite Forall_forall in H4.
      assert (Hnext : forall x, In x (b :: l2) -> rm_line x = rm_line a -> rm_line b = rm_line a /\ rm_column b <= rm_column x).
      { intros x [<-|Hx] E; [split; [exact E | lia]|]. specialize (H4 _ Hx). unfold raw_le, loc_le, loc_lt, gen_loc in H4.
        cbn [fst snd] in H4. destruct Hab as [Hab|Hab]; [|injection Hab as Hab1 Hab2];
          (destruct H4 as [H4|H4]; [|injection H4 as H4a H4b]); lia. }
      destruct (Z.eq_dec (rm_line a) (rm_line b)) as [El'|El'].
      + rewrite (Hsame El'). split; [destruct Hab as [Hab|Hab]; [lia | injection Hab as _ Hab; lia]|].
        assert (Hinb : In b l) by (rewrite El; apply in_app_iff; right; right; left; reflexivity).
        destruct (raw_has _ Hinb) as [m' Hm']. split.
        { exists m'. split; [apply Hm'|]. rewrite (stands_generated _ _ Hm'), El'. reflexivity. }
        split.
        { intros m2 Hm2 Hl2 Hlt. destruct (Hcase _ Hm2 Hl2) as [X|[x [X1 [X2 X3]]]]; [lia|].
          rewrite X3. apply Hnext; assumption. }
        intros Hone. apply only_once in Hone. assert (Hle : (times_at (m_generated m) ms <= 1)%nat) by lia.
        apply Hcount in Hle. unfold resolve in Hres. apply all_some_Forall2 in Hres.
        assert (Er : r = map (fun x => match resolve_mapping sources names x with Some y => y | None => m end) l).
        { rewrite <- (map_id r). apply (f_equal (map (fun o => match o with Some y => y | None => m end))) in Hres.
          rewrite !map_map in Hres. symmetry. exact Hres. }
        rewrite Er, El, map_app in Hle. cbn [map] in Hle. rewrite times_app in Hle.
        rewrite (proj1 Hm), (proj1 Hm') in Hle.
        destruct (Z_lt_dec (rm_column a) (rm_column b)) as [X|X]; [exact X | exfalso].
        assert (Ec : rm_column b = rm_column a) by (destruct Hab as [Hab|Hab]; [lia | injection Hab as _ Hab; lia]).
        assert (G' : m_generated m' = m_generated m) by (rewrite G, (stands_generated _ _ Hm'), <- El', Ec; reflexivity).
        unfold times_at in Hle. cbn [filter] in Hle.
        rewrite (proj2 (at_pos_iff (m_generated m) (written m)) eq_refl) in Hle.
        rewrite (proj2 (at_pos_iff (m_generated m) (written m')) G') in Hle. cbn [length] in Hle. lia.
      + rewrite (Hdiff El'). intros m' Hm' Hl'. destruct (Hcase _ Hm' Hl') as [X|[x [X1 [X2 X3]]]]; [exact X|].
        destruct (Hnext _ X1 X2) as [X _]. lia.
  Qed.

  Lemma in_of_file : forall s xs m p, In (m, p) (of_file s xs) <->
    In m xs /\ m_source m = Some s /\ exists o, m_original m = Some o /\ p = place o.
  Proof.
    intros s. induction xs as [|x xs IH]; intros m p; cbn; [tauto|].
    destruct (m_source x) as [s'|] eqn:Es.
    2: { rewrite IH. split; [intros [H1 [H2 H3]]; auto|]. intros [[->|H1] [H2 H3]]; [congruence | auto]. }
    destruct (m_original x) as [o|] eqn:Eo.
    2: { rewrite IH. split; [intros [H1 [H2 H3]]; auto|].
         intros [[->|H1] [H2 H3]]; [destruct H3 as [o [H3 _]]; congruence | auto]. }
    destruct (str_eqb s s') eqn:E.
    - apply str_eqb_eq in E. subst s'. cbn. rewrite IH. split.
      + intros [H|[H1 [H2 H3]]]; [injection H as <- <-; eauto 6 | auto].
      + intros [[->|H1] [H2 H3]]; [|auto]. left. destruct H3 as [o' [H3 ->]]. rewrite Eo in H3. congruence.
    - apply str_eqb_neq in E. rewrite IH. split; [intros [H1 [H2 H3]]; auto|].
      intros [[->|H1] [H2 H3]]; [congruence | auto].
  Qed.

  Lemma of_source_in : forall i xs a o, In a xs -> rm_original a = Some o -> ol_source o = i ->
    In (strip a, (ol_line o, ol_column o)) (of_source i xs).
  Proof.
    intros i. induction xs as [|x xs IH]; intros a o H Eo Es; [destruct H|]. cbn.
    destruct H as [->|H].
    - rewrite Eo. rewrite (proj2 (Z.eqb_eq _ _) Es). left. reflexivity.
    - destruct (rm_original x); [destruct (ol_source o0 =? i); [right|]|]; eauto.
  Qed.

  Context (Hdup : NoDup sources).
  Lemma lookup_index : forall i k s, lookup sources k = Some s -> nth_error sources i = Some s -> k = Z.of_nat i.
  Proof.
    intros i k s H1 H2. unfold lookup in H1. destruct (k <? 0) eqn:E; [discriminate|].
    assert (Z.to_nat k = i); [|lia]. rewrite NoDup_nth_error in Hdup. apply Hdup; [|congruence].
    apply nth_error_Some. congruence.
  Qed.
  Lemma lookup_nth : forall i s, nth_error sources i = Some s -> lookup sources (Z.of_nat i) = Some s.
  Proof.
    intros i s H. unfold lookup. replace (Z.of_nat i <? 0) with false by lia. rewrite Nat2Z.id. exact H.
  Qed.

  Lemma of_source_file : forall i s a p, nth_error sources i = Some s -> In (a, p) (of_source (Z.of_nat i) l) ->
    exists m, stands_for a m /\ In (m, (fst p + 1, snd p)) (of_file s ms).
  Proof.
    intros i s a p Hi Ha. destruct (in_of_source _ _ _ _ Ha) as [o [Eo [Es [-> [a' [Ha' ->]]]]]].
    destruct (raw_has _ Ha') as [m Hm]. exists m. split; [apply stands_strip; exact Hm|]. cbn [fst snd].
    pose proof (stands_parts _ _ Hm) as Hp. cbn [strip rm_original] in Eo. rewrite Eo in Hp.
    destruct Hp as [H1 [[s' [H2 H3]] _]]. apply in_of_file. split; [apply Hm|].
    rewrite Es, (lookup_nth _ _ Hi) in H3. split; [congruence|]. eexists. split; [exact H1 | reflexivity].
  Qed.

  Lemma file_of_source : forall i s m p, nth_error sources i = Some s -> In (m, p) (of_file s ms) ->
    exists a, stands_for a m /\ In (a, down p) (of_source (Z.of_nat i) l).
  Proof.
    intros i s m p Hi Hm. apply in_of_file in Hm. destruct Hm as [Hm [Es [o [Eo ->]]]].
    destruct (has_raw _ Hm) as [a [Ha Hs]]. exists (strip a). split; [apply stands_strip; exact Hs|].
    pose proof (stands_parts _ _ Hs) as Hp. destruct (rm_original a) as [o'|] eqn:Eo'.
    2: { destruct Hp as [_ [Hp _]]. congruence. }
    destruct Hp as [H1 [[s' [H2 H3]] _]].
    replace (down (place o)) with (ol_line o', ol_column o').
    { apply (of_source_in _ _ _ _ Ha Eo'). eapply lookup_index; [exact H3 | congruence]. }
    rewrite H1 in Eo. injection Eo as <-. unfold down, place. cbn. f_equal. lia.
  Qed.

  Lemma nearest_original : forall i s line column b f, nth_error sources i = Some s ->
    nearest (of_source (Z.of_nat i) l) (line - 1, column) b f ->
    exists f2, nearest (of_file s ms) (line, column) b f2
      /\ match f, f2 with Some a, Some m => stands_for a m | None, None => True | _, _ => False end.
  Proof.
    intros i s line column b f Hi H. eapply nearest_through; [| |exact H].
    - intros a p Ha. destruct (of_source_file _ _ _ _ Hi Ha) as [m [Hs Hm]].
      exists m, (fst p + 1, snd p). split; [exact Hm|]. split; [|exact Hs].
      destruct p as [p1 p2]. unfold down. cbn. f_equal. lia.
    - intros m p Hm. destruct (file_of_source _ _ _ _ Hi Hm) as [a [_ Ha]]. eauto.
  Qed.
End Corr.

Lemma sorted_strip : forall l l', map strip l' = map strip l -> StronglySorted raw_le l -> StronglySorted raw_le l'.
Proof.
  induction l as [|x l IH]; intros [|x' l'] E H; try discriminate; [constructor|].
  cbn [map] in E. injection E as E1 E2 E3 E4. inv H. constructor; [apply IH; assumption|].
  apply Forall_forall. intros y Hy. assert (X : In (strip y) (map strip l)) by (rewrite <- E4; apply in_map; exact Hy).
  apply in_map_iff in X. destruct X as [z [Ez Hz]]. rewrite Forall_forall in H3. specialize (H3 _ Hz).
  injection Ez as F1 F2 _. unfold raw_le, gen_loc in *. rewrite <- F1, <- F2, E1, E2. exact H3.
Qed.

Lemma ends_right_end : forall sources names l r ms a m, resolve sources names l = Some r ->
  (forall x, In x r <-> exists m, In m ms /\ x = written m) -> StronglySorted raw_le l ->
  (forall p, (times_at p ms <= 1)%nat -> (times_at p r <= 1)%nat) ->
  ends_right l a -> stands_for sources names ms a m ->
  rm_last_column a = None \/ column_end ms m (rm_last_column a).
Proof.
  intros sources names l r ms a m Hres Hin Hso Hti [H|[l' [H1 [H2 H3]]]] Hm; [left; exact H|]. right.
  apply (spans_end sources names l' r ms); try assumption; [|exact (sorted_strip _ _ H1 Hso)].
  rewrite <- Hres. rewrite <- (resolve_strip sources names l'), <- (resolve_strip sources names l), H1. reflexivity.
Qed.

Lemma ends_right_has : forall sources names l r ms a, resolve sources names l = Some r ->
  (forall x, In x r <-> exists m, In m ms /\ x = written m) -> In (strip a) (map strip l) ->
  exists m, stands_for sources names ms a m.
Proof.
  intros sources names l r ms a Hres Hin Ha. apply in_map_iff in Ha. destruct Ha as [x [E Hx]].
  destruct (raw_has _ _ _ _ _ Hres Hin x Hx) as [m Hm]. exists m.
  apply (proj1 (stands_strip sources names ms a m)). rewrite <- E. apply (proj2 (stands_strip sources names ms x m)). exact Hm.
Qed.

Section Queries.
  Context (md : mode) (L : MapLib) (U : UrlLib) (HL : MapLibOk L).

  Lemma Forall2_same_length : forall A B (R : A -> B -> Prop) xs ys, Forall2 R xs ys -> length xs = length ys.
  Proof. intros A B R xs ys H. induction H; cbn; congruence. Qed.

  Lemma opened_facts : forall file root skip ops g url c0 lk,
    gen_run md U (gen_new file root skip) ops = Ok g -> opened_on md L U g url c0 lk ->
    opened md L U c0 /\ exists j g', gen_as_json md U g = Ok (j, g') /\ bc_source_map c0 = j
    /\ smj_sources j = Some (source_names ops) /\ smj_names j = Some (symbol_names ops)
    /\ bc_source_map_url c0 = lk /\ smj_source_root (bc_source_map c0) = root
    /\ mapM (fun s => compute_source_url md U root s url) (source_names ops) = Ok (bc_get_sources L c0).
  Proof.
    intros file root skip ops g url c0 lk Eg Eo.
    destruct (opened_on_inv md L U _ _ _ _ Eo) as [Ho [j [g' [abs [Ej [Ea X]]]]]].
    destruct (generate_arrays md U file root skip ops g j g' Eg Ej) as [Hv [Esrc [Enm [_ [Eroot Hs]]]]].
    split; [exact Ho|]. exists j, g'. split; [exact Ej|]. split; [subst c0; reflexivity|]. split; [exact Esrc|]. split; [exact Enm|].
    split; [subst c0; reflexivity|]. split; [subst c0; exact Eroot|].
    unfold compute_absolute_sources in Ea. rewrite Esrc, Eroot in Ea. cbn [unwrap bind] in Ea. fold (source_names ops) in Ea.
    destruct (mapM _ (source_names ops)) as [urls|p]; cbn [bind] in Ea; [|discriminate].
    injection Ea as Ea. subst c0 abs.
    f_equal. unfold bc_get_sources, as_to_vec. cbn [bc_absolute_sources].
    symmetry. apply as_from_array_vec.
  Qed.

  (** The map [j] says [ms]. *)
  Definition says (sources names : list str) (j : SourceMapJson) (ms : list Mapping) : Prop :=
    exists s raws r, smj_mappings j = Some s /\ good_text canonical_field s
      /\ Z.of_nat (count_occ N.eq_dec s (ch ";")) < 2^32
      /\ decode_mappings s = Some raws /\ resolve sources names raws = Some r
      /\ (forall x, In x r <-> exists m, In m ms /\ x = written m)
      /\ (forall p, (times_at p ms <= 1)%nat -> (times_at p r <= 1)%nat).

  (** What is known of a consumer on a map that says [ms] *)
  Definition facts (root url : option str) (ops : list gen_op) (ms : list Mapping)
      (c0 : BasicConsumer L) (lk : option str) (c : BasicConsumer L) : Prop :=
    opened md L U c0 /\ len (bc_get_sources L c0) < 2^31 /\ readable L (bc_source_map c0)
    /\ bc_source_map_url c0 = lk /\ smj_source_root (bc_source_map c0) = root
    /\ mapM (fun s => compute_source_url md U root s url) (source_names ops) = Ok (bc_get_sources L c0)
    /\ smj_names (bc_source_map c0) = Some (symbol_names ops)
    /\ exists l r, reports L c l /\ Forall raw_i31 l /\ resolve (source_names ops) (symbol_names ops) l = Some r
       /\ (forall x, In x r <-> exists m, In m ms /\ x = written m)
       /\ StronglySorted raw_le l
       /\ (forall p, (times_at p ms <= 1)%nat -> (times_at p r <= 1)%nat).

  Lemma on_map : forall file root skip ops ms g url c0 lk qs c,
    Forall valid_mapping ms -> few_names (2^30) (added_mappings ops) ->
    gen_run md U (gen_new file root skip) ops = Ok g ->
    (forall j g', gen_as_json md U g = Ok (j, g') -> says (source_names ops) (symbol_names ops) j ms) ->
    opened_on md L U g url c0 lk -> asked md L U c0 qs = Ok c ->
    facts root url ops ms c0 lk c.
  Proof.
    intros file root skip ops ms g url c0 lk qs c H1 H3 Eg Hsays Eo Ha.
    destruct (opened_facts _ _ _ _ _ _ _ _ Eg Eo) as [Ho [j [g' [Ej [Ec0 [_ [_ [Hurl [_ Hmap]]]]]]]]].
    destruct (generate_arrays md U file root skip ops g j g' Eg Ej) as [Hv [Esrc [Enm [_ [Eroot Hs]]]]].
    destruct (Hsays _ _ Ej) as [s [raws [r0 [E1 [E2 [E3 [E4 [E5 [E6 E7]]]]]]]]].
    destruct (mo_parse L HL s raws E2 E3 E4) as [t0 [Et0 Hp]].
    unfold facts. split; [exact Ho|]. split.
    { apply mapM_inv, Forall2_same_length in Hmap. destruct H3 as [H3 _]. unfold len in *. rewrite <- Hmap.
      unfold source_names. change (2^31) with 2147483648. change (2^30) with 1073741824 in H3. lia. }
    split; [exists s, t0; rewrite Ec0; auto|].
    split; [exact Hurl|]. split; [rewrite Ec0; exact Eroot|]. split; [exact Hmap|]. split; [rewrite Ec0; exact Enm|].
    destruct (history md L U _ _ _ Ho Ha) as [Hf Hc].
    destruct (ensure_cases md L U _ _ Hc) as [[s1 [t [E [Es1 Hst]]]]|[E [Hn Em]]].
    2: { exfalso. apply Hn. exists s, t0. rewrite Ec0. auto. }
    rewrite Ec0, E1 in Es1. injection Es1 as <-.
    pose proof (mo_same L HL _ _ _ _ Hst Et0) as Hsame.
    destruct (resolve_perm _ _ _ _ _ Hp E5) as [r [Er' Hpr]].
    exists (lm_by_generated L t), r.
    assert (Hrep : reports L c (lm_by_generated L t)) by (apply (proj2 (reports_iff md L U _ _ _ _ _ Hc E)); reflexivity).
    split; [exact Hrep|].
    assert (Hres : resolve (source_names ops) (symbol_names ops) (lm_by_generated L t) = Some r).
    { rewrite <- resolve_strip, Hsame, resolve_strip. exact Er'. }
    assert (Hin : forall x, In x r <-> exists m, In m ms /\ x = written m).
    { intros x. rewrite <- E6. split; apply Permutation_in; [symmetry|]; exact Hpr. }
    assert (Hso : StronglySorted raw_le (lm_by_generated L t)) by exact (proj1 (mo_sorted L HL _ _ _ Hst)).
    assert (Hti : forall p, (times_at p ms <= 1)%nat -> (times_at p r <= 1)%nat).
    { intros p Hle. rewrite <- (times_perm _ _ _ Hpr). apply E7. exact Hle. }
    split; [|split; [exact Hres | split; [exact Hin | split; [exact Hso | exact Hti]]]].
    rewrite Forall_forall. intros a Ha'. destruct (raw_has _ _ _ _ _ Hres Hin a Ha') as [m Hm].
    pose proof (stands_generated _ _ _ _ _ Hm) as G. pose proof (stands_parts _ _ _ _ _ Hm) as P.
    destruct Hm as [_ Hm]. rewrite Forall_forall in H1. specialize (H1 _ Hm).
    destruct H1 as [[[G1 G2] W] _]. rewrite G in *. cbn [p_line p_column] in *.
    unfold raw_i31, i31, i32_max in *. change (2^31 - 1) with 2147483647 in *. change (2^31) with 2147483648 in *.
    split; [lia|]. split; [lia|].
    destruct (rm_original a) as [o|]; [|exact I]. destruct P as [P1 [[s' [P2 _]] _]]. rewrite P1 in *. rewrite P2 in *.
    cbn [p_line p_column] in *. unfold nat_pos, i32_max in W. change (2^31 - 1) with 2147483647 in W. cbn [p_line p_column] in *. lia.
  Qed.

  Lemma generator_says : forall file root skip ops g j g', readable_run ops ->
    gen_run md U (gen_new file root skip) ops = Ok g -> gen_as_json md U g = Ok (j, g') ->
    says (source_names ops) (symbol_names ops) j (added_mappings ops).
  Proof.
    intros file root skip ops g j g' Hr Eg Ej. pose proof Hr as [H1 [H2 H3]].
    destruct (generate_arrays md U file root skip ops g j g' Eg Ej) as [_ [Esrc [Enm _]]].
    destruct (canonical_any_root md U file root skip ops g j g' Hr Eg Ej)
      as [s [raws [r [E1 [E2 [E3 [E4 [E5 E6]]]]]]]].
    exists s, raws, r. split; [exact E1|]. split; [exact E2|]. split; [exact E3|]. split; [exact E4|]. split; [exact E5|].
    split; [exact E6|]. intros p Hle.
    destruct (roundtrip_any_root md U file root skip ops g j g' H1 H2 H3 Eg Ej)
      as [ml [a [ml' [r1 [R1 [R2 [R3 [R4 _]]]]]]]].
    assert (r1 = r) by (unfold read_json in R3; rewrite Esrc, Enm, E1, E4 in R3; congruence). subst r1.
    pose proof (times_collapsed p _ _ R4) as X. rewrite times_written in X.
    destruct (to_array_sorted_permutation_wf md (list_ops ops)) as [ml2 [a2 [ml2' [Q1 [Q2 [Q3 _]]]]]].
    { rewrite added_list_ops. eapply Forall_impl; [|exact H1]. intros m Hm. apply Hm. }
    rewrite R1 in Q1. injection Q1 as <-. rewrite R2 in Q2. injection Q2 as <- _.
    rewrite added_list_ops in Q3. rewrite (times_perm _ _ _ Q3) in Hle. lia.
  Qed.

  Lemma on_generator : forall file root skip ops g url c0 lk qs c,
    Forall valid_mapping (added_mappings ops) -> steps_fit ops ->
    few_names (2^30) (added_mappings ops) ->
    gen_run md U (gen_new file root skip) ops = Ok g ->
    opened_on md L U g url c0 lk -> asked md L U c0 qs = Ok c ->
    facts root url ops (added_mappings ops) c0 lk c.
  Proof.
    intros file root skip ops g url c0 lk qs c H1 H2 H3 Eg Eo Ha.
    eapply on_map; try eassumption. intros j g' Ej. eapply generator_says; [|exact Eg | exact Ej].
    exact (conj H1 (conj H2 H3)).
  Qed.

  Lemma nth_url : forall root url srcs urls i u, mapM (fun s => compute_source_url md U root s url) srcs = Ok urls ->
    nth_error urls i = Some u -> exists s, nth_error srcs i = Some s /\ compute_source_url md U root s url = Ok u.
  Proof.
    intros root url srcs urls i u H. apply mapM_inv in H. revert i u. induction H; intros i u E; [destruct i; discriminate|].
    destruct i as [|i]; cbn in E; [injection E as <-; exists x; auto | exact (IHForall2 _ _ E)].
  Qed.
  Lemma url_nth : forall root url srcs urls i s, mapM (fun s => compute_source_url md U root s url) srcs = Ok urls ->
    nth_error srcs i = Some s -> exists u, nth_error urls i = Some u /\ compute_source_url md U root s url = Ok u.
  Proof.
    intros root url srcs urls i s H. apply mapM_inv in H. revert i s. induction H; intros i s E; [destruct i; discriminate|].
    destruct i as [|i]; cbn in E; [injection E as <-; exists y; auto | exact (IHForall2 _ _ E)].
  Qed.

  Lemma lookup_some : forall xs k x, lookup xs k = Some x -> 0 <= k /\ nth_error xs (Z.to_nat k) = Some x.
  Proof. intros xs k x H. unfold lookup in H. destruct (k <? 0) eqn:E; [discriminate|]. split; [lia | exact H]. Qed.

  Lemma as_signed_small : forall z, 0 <= z -> i31 z -> as_signed z = z.
  Proof. intros z H1 H2. unfold as_signed, i31 in *. replace (z <? 2^31) with true; [reflexivity | lia]. Qed.

  Lemma original_end_on : forall root ops ms url c0 lk qs c line column b,
    Forall valid_mapping ms -> facts root url ops ms c0 lk c -> asked md L U c0 qs = Ok c ->
    position_ok line column ->
    let ends m last := (last = None \/ column_end ms m last)
                       /\ (In QSpans qs -> column_end ms m last) in
    exists found, nearest (by_generated ms) (line, column) (default_bias b) found
      /\ original_reply md U root url ends line found (answer (bc_original_position_for md L c (mkPos line column) b)).
  Proof.
    intros root ops ms url c0 lk qs c line column b H1 F Ha Hp ends.
    pose proof F as [Ho [Hlen [Hrd [Hurl [Hroot [Hmap [Hnm [l [r [R [Hi [Hres [Hin [Hso Hti]]]]]]]]]]]]]].
    destruct (original_spec md L U HL c0 qs c (mkPos line column) b l Ho Ha Hlen Hrd R Hi Hp) as [f [Hf E]].
    cbn [p_line p_column] in *. rewrite E.
    destruct (nearest_generated _ _ _ _ _ Hres Hin _ _ _ _ Hf) as [f2 [Hf2 HR]].
    exists f2. split; [exact Hf2|]. destruct f as [a|], f2 as [m|]; try contradiction; [|reflexivity].
    cbn [original_reply original_outcome]. pose proof (stands_generated _ _ _ _ _ HR) as G.
    pose proof (stands_parts _ _ _ _ _ HR) as P.
    assert (Eb : (p_line (m_generated m) =? line + 1) = (rm_line a =? line)).
    { rewrite G. cbn [p_line]. destruct (Z.eqb_spec (rm_line a) line), (Z.eqb_spec (rm_line a + 1) (line + 1)); lia. }
    rewrite Eb.
    destruct (rm_line a =? line); [|reflexivity].
    destruct (rm_original a) as [o|].
    2: { destruct P as [_ [P _]]. rewrite P. reflexivity. }
    destruct P as [P1 [[s [P2 P3]] P4]]. rewrite P2.
    destruct (lookup_some _ _ _ P3) as [K1 K2]. destruct (url_nth _ _ _ _ _ _ Hmap K2) as [u [Hu1 Hu2]].
    assert (Hal : In a l). { destruct Hf as [p [Hf _]]. apply in_by_place in Hf. apply Hf. }
    exists u, (option_map as_signed (rm_last_column a)). split; [exact Hu2|]. split.
    { assert (Hend : spans l -> column_end ms m (option_map as_signed (rm_last_column a))).
      { intros Hsp. pose proof (spans_end _ _ _ _ _ Hres Hin Hso Hti a m Hsp Hal HR) as He.
        replace (option_map as_signed (rm_last_column a)) with (rm_last_column a); [exact He|].
        destruct (rm_last_column a) as [e|]; [|reflexivity]. cbn [option_map]. f_equal. symmetry.
        destruct He as [He1 [[m' [He2 He3]] _]]. rewrite Forall_forall in H1. pose proof (H1 _ He2) as Hw.
        pose proof (H1 _ (proj2 HR)) as Hv. destruct Hw as [[[_ Hw] _] _]. destruct Hv as [[[_ Hv] _] _].
        rewrite He3 in Hw. cbn [p_column] in Hw. unfold i32_max in Hw. change (2^31 - 1) with 2147483647 in Hw.
        apply as_signed_small; [lia|]. unfold i31. change (2^31) with 2147483648. lia. }
      destruct (last_columns md L U HL c0 qs c l Ho Ha R) as [Hl1 Hl2].
      split; [|intros Hq; apply Hend, Hl2, Hq].
      destruct Hl1 as [Hl1|Hl1]; [right; apply Hend, Hl1|]. left. rewrite Forall_forall in Hl1. rewrite (Hl1 _ Hal). reflexivity. }
    assert (En : find_name (smj_names (bc_source_map c0)) (ol_name o) = Ok (m_name m)).
    { rewrite Hnm. destruct (ol_name o) as [i|]; cbn [find_name]; [|congruence].
      destruct P4 as [n [P4 P5]]. apply lookup_some in P5. destruct P5 as [_ ->]. congruence. }
    rewrite En. unfold original_answer. rewrite Hu1, G, P1. reflexivity.
  Qed.

  Lemma original_end : forall file root skip ops g url c0 lk qs c line column b,
    Forall valid_mapping (added_mappings ops) -> steps_fit ops ->
    few_names (2^30) (added_mappings ops) ->
    gen_run md U (gen_new file root skip) ops = Ok g ->
    opened_on md L U g url c0 lk -> asked md L U c0 qs = Ok c ->
    position_ok line column ->
    let ends m last := (last = None \/ column_end (added_mappings ops) m last)
                       /\ (In QSpans qs -> column_end (added_mappings ops) m last) in
    exists found, nearest (by_generated (added_mappings ops)) (line, column) (default_bias b) found
      /\ original_reply md U root url ends line found (answer (bc_original_position_for md L c (mkPos line column) b)).
  Proof.
    intros file root skip ops g url c0 lk qs c line column b H1 H2 H3 Eg Eo Ha.
    exact (original_end_on _ _ _ _ _ _ _ _ line column b H1 (on_generator _ _ _ _ _ _ _ _ _ _ H1 H2 H3 Eg Eo Ha) Ha).
  Qed.

  (** ** Last columns *)
  Lemma original_last_on : forall root ops ms url c0 lk qs c line column b a,
    Forall valid_mapping ms -> facts root url ops ms c0 lk c -> asked md L U c0 qs = Ok c ->
    position_ok line column ->
    answer (bc_original_position_for md L c (mkPos line column) b) = Ok (Some a) ->
    exists m, In m ms /\ m_generated a = m_generated m
      /\ (m_last_generated_column a = None \/ column_end ms m (m_last_generated_column a))
      /\ (In QSpans qs -> column_end ms m (m_last_generated_column a)).
  Proof.
    intros root ops ms url c0 lk qs c line column b a H1 F Ha Hp E.
    destruct (original_end_on _ _ _ _ _ _ _ _ _ _ b H1 F Ha Hp) as [[m|] [Hf Hr]]; rewrite E in Hr; cbn [original_reply] in Hr.
    - exists m. split.
      { destruct Hf as [p [Hf _]]. unfold by_generated in Hf. apply in_map_iff in Hf. destruct Hf as [m' [X Hf]].
        injection X as -> _. exact Hf. }
      destruct (p_line (m_generated m) =? line + 1); [|discriminate].
      destruct (m_source m) as [s|]; [|discriminate]. destruct Hr as [u [last [_ [He X]]]]. injection X as ->.
      cbn. split; [reflexivity | exact He].
    - discriminate.
  Qed.

  Lemma original_last : forall file root skip ops g url c0 lk qs c line column b a,
    Forall valid_mapping (added_mappings ops) -> steps_fit ops ->
    few_names (2^30) (added_mappings ops) ->
    gen_run md U (gen_new file root skip) ops = Ok g ->
    opened_on md L U g url c0 lk -> asked md L U c0 qs = Ok c ->
    position_ok line column ->
    answer (bc_original_position_for md L c (mkPos line column) b) = Ok (Some a) ->
    exists m, In m (added_mappings ops) /\ m_generated a = m_generated m
      /\ (m_last_generated_column a = None \/ column_end (added_mappings ops) m (m_last_generated_column a))
      /\ (In QSpans qs -> column_end (added_mappings ops) m (m_last_generated_column a)).
  Proof.
    intros file root skip ops g url c0 lk qs c line column b a H1 H2 H3 Eg Eo Ha.
    exact (original_last_on _ _ _ _ _ _ _ _ line column b a H1 (on_generator _ _ _ _ _ _ _ _ _ _ H1 H2 H3 Eg Eo Ha) Ha).
  Qed.

  Lemma each_last_on : forall root ops ms url c0 lk qs c l a,
    Forall valid_mapping ms -> facts root url ops ms c0 lk c -> asked md L U c0 qs = Ok c ->
    reports L c l -> In a l ->
    exists m, In m ms /\ m_generated m = mkPos (rm_line a + 1) (rm_column a)
      /\ (rm_last_column a = None \/ column_end ms m (rm_last_column a))
      /\ (In QSpans qs -> column_end ms m (rm_last_column a)).
  Proof.
    intros root ops ms url c0 lk qs c l a H1 F Ha R Hal.
    pose proof F as [Ho [Hlen [Hrd [Hurl [Hroot [Hmap [Hnm [l' [r [R' [Hi [Hres [Hin [Hso Hti]]]]]]]]]]]]]].
    assert (l' = l) by (unfold reports in *; congruence). subst l'.
    destruct (raw_has _ _ _ _ _ Hres Hin a Hal) as [m Hm]. exists m. split; [apply Hm|].
    split; [exact (stands_generated _ _ _ _ _ Hm)|].
    destruct (last_columns md L U HL c0 qs c l Ho Ha R) as [Hl1 Hl2].
    assert (Hend : spans l -> column_end ms m (rm_last_column a)).
    { intros Hsp. exact (spans_end _ _ _ _ _ Hres Hin Hso Hti a m Hsp Hal Hm). }
    split; [|auto]. destruct Hl1 as [Hl1|Hl1]; [right; auto|]. left. rewrite Forall_forall in Hl1. auto.
  Qed.

  Lemma each_last : forall file root skip ops g url c0 lk qs c l a,
    Forall valid_mapping (added_mappings ops) -> steps_fit ops ->
    few_names (2^30) (added_mappings ops) ->
    gen_run md U (gen_new file root skip) ops = Ok g ->
    opened_on md L U g url c0 lk -> asked md L U c0 qs = Ok c ->
    reports L c l -> In a l ->
    exists m, In m (added_mappings ops) /\ m_generated m = mkPos (rm_line a + 1) (rm_column a)
      /\ (rm_last_column a = None \/ column_end (added_mappings ops) m (rm_last_column a))
      /\ (In QSpans qs -> column_end (added_mappings ops) m (rm_last_column a)).
  Proof.
    intros file root skip ops g url c0 lk qs c l a H1 H2 H3 Eg Eo Ha.
    exact (each_last_on _ _ _ _ _ _ _ _ l a H1 (on_generator _ _ _ _ _ _ _ _ _ _ H1 H2 H3 Eg Eo Ha) Ha).
  Qed.

  Lemma lookup_asks : forall c0 src i, source_lookup md L U c0 src = Ok (Some i) ->
    exists u, nth_error (bc_get_sources L c0) i = Some u
      /\ (compute_source_url md U None src (bc_source_map_url c0) = Ok u
          \/ compute_source_url md U (smj_source_root (bc_source_map c0)) src (bc_source_map_url c0) = Ok u).
  Proof.
    intros c0 src i H. unfold source_lookup, index_of_source in H. bind_inv H.
    destruct (first_index x (bc_get_sources L c0)) as [k|] eqn:E.
    - injection H as <-. exists x. split; [exact (proj1 (first_index_some _ _ _ E)) | left; assumption].
    - bind_inv H. injection H as H. exists x0. split; [exact (proj1 (first_index_some _ _ _ H)) | right; assumption].
  Qed.

  Lemma known_by_name : forall file root skip ops g url c0 qs c i s u0,
    gen_run md U (gen_new file root skip) ops = Ok g ->
    opened_on md L U g url c0 url -> asked md L U c0 qs = Ok c -> len (source_names ops) < 2^31 ->
    nth_error (source_names ops) i = Some s -> compute_source_url md U None s url = Ok u0 ->
    exists k u, source_lookup md L U c0 s = Ok (Some k)
      /\ answer (bc_find_source_index md L U c s) = Ok (Some (Z.of_nat k))
      /\ nth_error (bc_get_sources L c) k = Some u
      /\ (u = u0 \/ compute_source_url md U root s url = Ok u)
      /\ (NoDup (bc_get_sources L c) -> root = None \/ ~ In u0 (bc_get_sources L c) -> k = i).
  Proof.
    intros file root skip ops g url c0 qs c i s u0 Eg Eo Ha Hlen Hi E0.
    destruct (opened_facts _ _ _ _ _ _ _ _ Eg Eo) as [Ho [j [g' [Ej [Ec0 [_ [_ [Hurl [Hroot Hmap]]]]]]]]].
    assert (Hlen' : len (bc_get_sources L c0) < 2^31).
    { pose proof (mapM_inv _ _ _ Hmap) as X. apply Forall2_same_length in X. unfold len in *. rewrite <- X. exact Hlen. }
    destruct (source_lookup_stable md L U c0 qs c s Ho Ha Hlen') as [Ec [Ef _]].
    destruct (url_nth _ _ _ _ _ _ Hmap Hi) as [u [Hu1 Hu2]].
    assert (Hk : forall k, NoDup (bc_get_sources L c0) -> nth_error (bc_get_sources L c0) k = Some u -> k = i).
    { intros k Hnd Hk. rewrite NoDup_nth_error in Hnd. symmetry. apply Hnd; [|congruence].
      apply nth_error_Some. rewrite Hu1. discriminate. }
    rewrite Ef, Ec. unfold source_lookup, index_of_source. rewrite Hurl, Hroot, E0, Hu2. cbn [bind].
    destruct (first_index u0 (bc_get_sources L c0)) as [k|] eqn:E.
    - pose proof (proj1 (first_index_some _ _ _ E)) as X. exists k, u0. repeat split; auto.
      intros Hnd [Hr|Hr]; [|exfalso; apply Hr; eapply nth_error_In; exact X].
      rewrite Hr, E0 in Hu2. injection Hu2 as ->. apply Hk; assumption.
    - destruct (first_index_In u (bc_get_sources L c0)) as [k Ek]; [eapply nth_error_In; exact Hu1|].
      pose proof (proj1 (first_index_some _ _ _ Ek)) as X. rewrite Ek. exists k, u. repeat split; auto.
  Qed.

  Lemma generated_end_on : forall root ops ms url c0 lk qs c src i line column b,
    Forall valid_mapping ms -> facts root url ops ms c0 lk c -> asked md L U c0 qs = Ok c ->
    source_lookup md L U c0 src = Ok (Some i) -> position_ok line column ->
    let ends m shown := exists last, (last = None \/ column_end ms m last)
      /\ (In QSpans qs -> shown = Some match last with Some e => e | None => -1 end)
      /\ (~ In QSpans qs -> shown = last) in
    exists s u found, nth_error (source_names ops) i = Some s /\ asks_for md U root url lk src s u
      /\ nearest (of_file s ms) (line, column) (default_bias b) found
      /\ generated_reply ends (symbol_names ops) i u found (answer (bc_generated_position_for md L U c src line column b)).
  Proof.
    intros root ops ms url c0 lk qs c src i line column b H1 F Ha Hlk Hp ends.
    pose proof F as [Ho [Hlen [Hrd [Hurl [Hroot [Hmap [Hnm [l [r [R [Hi [Hres [Hin [Hso Hti]]]]]]]]]]]]]].
    destruct (generated_spec md L U HL c0 qs c src i line column b l Ho Ha Hlen Hrd R Hi Hlk Hp) as [f [last [Hf [E Hsh]]]].
    destruct (lookup_asks _ _ _ Hlk) as [u [Hu1 Hu2]]. rewrite Hurl, Hroot in Hu2.
    destruct (nth_url _ _ _ _ _ _ Hmap Hu1) as [s [Hs1 Hs2]].
    destruct (nearest_original _ _ _ _ _ Hres Hin (distinct_NoDup _) _ _ _ _ _ _ Hs1 Hf) as [f2 [Hf2 HR]].
    exists s, u, f2. split; [exact Hs1|]. split; [split; assumption|]. split; [exact Hf2|].
    rewrite E. destruct f as [a|], f2 as [m|]; try contradiction; [|reflexivity].
    cbn [generated_reply generated_outcome]. pose proof (stands_generated _ _ _ _ _ HR) as G.
    pose proof (stands_parts _ _ _ _ _ HR) as P.
    destruct Hf as [p [Hin' _]]. destruct (in_of_source _ _ _ _ Hin') as [o [Eo' _]]. rewrite Eo' in *.
    destruct P as [P1 _]. rewrite P1, Hnm. cbn [find_name]. rewrite Nat2Z.id.
    destruct (nth_error (symbol_names ops) i) as [n|]; [|reflexivity].
    exists last. split.
    { destruct Hsh as [r0 [Hr1 [Hr2 [Hr3 Hr4]]]]. exists (rm_last_column r0).
      split; [|split; [exact Hr3 | exact Hr4]].
      apply (ends_right_end _ _ _ _ _ _ _ Hres Hin Hso Hti Hr2). apply (proj1 (stands_strip _ _ _ r0 m)). rewrite Hr1. exact HR. }
    rewrite Hu1, G. cbn [p_line p_column]. do 5 f_equal. lia.
  Qed.

  Lemma generated_end : forall file root skip ops g url c0 lk qs c src i line column b,
    Forall valid_mapping (added_mappings ops) -> steps_fit ops ->
    few_names (2^30) (added_mappings ops) ->
    gen_run md U (gen_new file root skip) ops = Ok g ->
    opened_on md L U g url c0 lk -> asked md L U c0 qs = Ok c ->
    source_lookup md L U c0 src = Ok (Some i) -> position_ok line column ->
    let ends m shown := exists last, (last = None \/ column_end (added_mappings ops) m last)
      /\ (In QSpans qs -> shown = Some match last with Some e => e | None => -1 end)
      /\ (~ In QSpans qs -> shown = last) in
    exists s u found, nth_error (source_names ops) i = Some s /\ asks_for md U root url lk src s u
      /\ nearest (of_file s (added_mappings ops)) (line, column) (default_bias b) found
      /\ generated_reply ends (symbol_names ops) i u found (answer (bc_generated_position_for md L U c src line column b)).
  Proof.
    intros file root skip ops g url c0 lk qs c src i line column b H1 H2 H3 Eg Eo Ha.
    exact (generated_end_on _ _ _ _ _ _ _ _ src i line column b H1 (on_generator _ _ _ _ _ _ _ _ _ _ H1 H2 H3 Eg Eo Ha) Ha).
  Qed.

  Lemma at_place_in : forall A (q : loc) (xs : list (A * loc)) a,
    In a (map fst (filter (fun x => (fst (snd x) =? fst q) && (snd (snd x) =? snd q)) xs)) <-> In (a, q) xs.
  Proof.
    intros A [q1 q2] xs a. rewrite in_map_iff. split.
    - intros [[a' [p1 p2]] [E H]]. apply filter_In in H. cbn in *. destruct H as [H1 H2]. subst a'.
      apply andb_prop in H2. destruct H2 as [H2 H3]. apply Z.eqb_eq in H2, H3. subst. exact H1.
    - intros H. exists (a, (q1, q2)). split; [reflexivity|]. apply filter_In. split; [exact H|]. cbn. rewrite !Z.eqb_refl. reflexivity.
  Qed.

  Lemma all_generated_end_on : forall root ops ms url c0 lk qs c src i line column,
    Forall valid_mapping ms -> facts root url ops ms c0 lk c -> asked md L U c0 qs = Ok c ->
    source_lookup md L U c0 src = Ok (Some i) ->
    let col := match column with Some z => z | None => 0 end in
    position_ok line col ->
    exists s u l, nth_error (source_names ops) i = Some s /\ asks_for md U root url lk src s u
      /\ answer (bc_all_generated_position_for md L U c src line column) = Ok l
      /\ ((exists m, In (m, (line + 1, col)) (of_file s ms)) ->
          exists r, resolve (source_names ops) (symbol_names ops) l = Some r
            /\ forall x, In x r <-> exists m, In (m, (line + 1, col)) (of_file s ms) /\ x = written m).
  Proof.
    intros root ops ms url c0 lk qs c src i line column H1 F Ha Hlk col Hp.
    pose proof F as [Ho [Hlen [Hrd [Hurl [Hroot [Hmap [Hnm [l [r [R [Hi [Hres [Hin [Hso Hti]]]]]]]]]]]]]].
    destruct (all_generated_spec md L U HL c0 qs c src i line column l Ho Ha Hlen Hrd R Hlk Hp) as [l' [E [_ HP]]]. fold col in HP.
    destruct (lookup_asks _ _ _ Hlk) as [u [Hu1 Hu2]]. rewrite Hurl, Hroot in Hu2.
    destruct (nth_url _ _ _ _ _ _ Hmap Hu1) as [s [Hs1 Hs2]].
    exists s, u, l'. split; [exact Hs1|]. split; [split; assumption|]. split; [exact E|].
    intros [m Hm].
    assert (Hd : down (line + 1, col) = (line, col)) by (unfold down; cbn [fst snd]; f_equal; lia).
    destruct (file_of_source _ _ _ _ _ Hres Hin (distinct_NoDup _) _ _ _ _ Hs1 Hm) as [a0 [_ Ha0]]. rewrite Hd in Ha0.
    assert (Hne : at_place (line, col) (of_source (Z.of_nat i) l) <> []).
    { intros X. unfold at_place in X. apply at_place_in in Ha0. rewrite X in Ha0. destruct Ha0. }
    specialize (HP Hne).
    assert (Hall : forall a, In a (map strip l') -> exists m, stands_for (source_names ops) (symbol_names ops) ms a m
              /\ In (m, (line + 1, col)) (of_file s ms)).
    { intros a Ha'. apply (Permutation_in _ HP) in Ha'. apply at_place_in in Ha'.
      destruct (of_source_file _ _ _ _ _ Hres Hin _ _ _ _ Hs1 Ha') as [m' [X1 X2]]. exists m'. split; [exact X1 | exact X2]. }
    assert (Hr : exists r', resolve (source_names ops) (symbol_names ops) (map strip l') = Some r').
    { clear HP. induction (map strip l') as [|a xs IH]; [exists []; reflexivity|].
      destruct IH as [r' Er]; [intros b Hb; apply Hall; right; exact Hb|].
      destruct (Hall a) as [m' [[X _] _]]; [left; reflexivity|].
      exists (written m' :: r'). unfold resolve in *. cbn. rewrite X, Er. reflexivity. }
    destruct Hr as [r' Er]. exists r'. split; [rewrite <- resolve_strip; exact Er|].
    unfold resolve in Er. apply all_some_Forall2 in Er.
    intros x. split.
    - intros Hx. apply (in_map Some) in Hx. rewrite <- Er in Hx. apply in_map_iff in Hx. destruct Hx as [a [Ea Hx]].
      destruct (Hall a Hx) as [m' [[X _] Hm']]. exists m'. split; [exact Hm' | congruence].
    - intros [m' [Hm' ->]]. destruct (file_of_source _ _ _ _ _ Hres Hin (distinct_NoDup _) _ _ _ _ Hs1 Hm') as [a [[X _] Ha']].
      rewrite Hd in Ha'. apply at_place_in in Ha'. apply (Permutation_in _ (Permutation_sym HP)) in Ha'.
      apply (in_map (resolve_mapping (source_names ops) (symbol_names ops))) in Ha'. rewrite Er, X in Ha'.
      apply in_map_iff in Ha'. destruct Ha' as [y [Ey Hy]]. injection Ey as <-. exact Hy.
  Qed.

  Lemma all_generated_end : forall file root skip ops g url c0 lk qs c src i line column,
    Forall valid_mapping (added_mappings ops) -> steps_fit ops ->
    few_names (2^30) (added_mappings ops) ->
    gen_run md U (gen_new file root skip) ops = Ok g ->
    opened_on md L U g url c0 lk -> asked md L U c0 qs = Ok c ->
    source_lookup md L U c0 src = Ok (Some i) ->
    let col := match column with Some z => z | None => 0 end in
    position_ok line col ->
    exists s u l, nth_error (source_names ops) i = Some s /\ asks_for md U root url lk src s u
      /\ answer (bc_all_generated_position_for md L U c src line column) = Ok l
      /\ ((exists m, In (m, (line + 1, col)) (of_file s (added_mappings ops))) ->
          exists r, resolve (source_names ops) (symbol_names ops) l = Some r
            /\ forall x, In x r <-> exists m, In (m, (line + 1, col)) (of_file s (added_mappings ops)) /\ x = written m).
  Proof.
    intros file root skip ops g url c0 lk qs c src i line column H1 H2 H3 Eg Eo Ha.
    exact (all_generated_end_on _ _ _ _ _ _ _ _ src i line column H1 (on_generator _ _ _ _ _ _ _ _ _ _ H1 H2 H3 Eg Eo Ha) Ha).
  Qed.

  Lemma all_generated_last_on : forall root ops ms url c0 lk qs c src line column l a,
    Forall valid_mapping ms -> facts root url ops ms c0 lk c -> asked md L U c0 qs = Ok c ->
    position_ok line (match column with Some z => z | None => 0 end) ->
    answer (bc_all_generated_position_for md L U c src line column) = Ok l -> In a l ->
    rm_last_column a = None
    \/ exists m, In m ms /\ m_generated m = mkPos (rm_line a + 1) (rm_column a)
       /\ column_end ms m (rm_last_column a).
  Proof.
    intros root ops ms url c0 lk qs c src line column l a H1 F Ha Hp E Hal.
    pose proof F as [Ho [Hlen [Hrd [Hurl [Hroot [Hmap [Hnm [l' [r [R [Hi [Hres [Hin [Hso Hti]]]]]]]]]]]]]].
    destruct (source_query_guards md L U c0 qs c src Ho Ha Hlen) as [G1 [G2 _]].
    destruct (source_lookup md L U c0 src) as [[i|]|p] eqn:Hlk.
    - destruct (all_generated_spec md L U HL c0 qs c src i line column l' Ho Ha Hlen Hrd R Hlk Hp) as [l2 [E2 [Hr _]]].
      assert (l2 = l) by congruence. subst l2. rewrite Forall_forall in Hr. specialize (Hr _ Hal).
      pose proof Hr as [X|[l3 [X1 [X2 X3]]]]; [left; exact X|].
      destruct (ends_right_has _ _ _ _ _ a Hres Hin) as [m Hm]; [rewrite <- X1; apply in_map; exact X3|].
      destruct (ends_right_end _ _ _ _ _ _ _ Hres Hin Hso Hti Hr Hm) as [X|X]; [left; exact X|]. right.
      exists m. split; [apply Hm|]. split; [exact (stands_generated _ _ _ _ _ Hm) | exact X].
    - destruct (G2 eq_refl) as [_ G]. rewrite G in E. injection E as <-. contradiction.
    - destruct (G1 _ eq_refl) as [_ G]. rewrite G in E. discriminate.
  Qed.

  Lemma all_generated_last : forall file root skip ops g url c0 lk qs c src line column l a,
    Forall valid_mapping (added_mappings ops) -> steps_fit ops ->
    few_names (2^30) (added_mappings ops) ->
    gen_run md U (gen_new file root skip) ops = Ok g ->
    opened_on md L U g url c0 lk -> asked md L U c0 qs = Ok c ->
    position_ok line (match column with Some z => z | None => 0 end) ->
    answer (bc_all_generated_position_for md L U c src line column) = Ok l -> In a l ->
    rm_last_column a = None
    \/ exists m, In m (added_mappings ops) /\ m_generated m = mkPos (rm_line a + 1) (rm_column a)
       /\ column_end (added_mappings ops) m (rm_last_column a).
  Proof.
    intros file root skip ops g url c0 lk qs c src line column l a H1 H2 H3 Eg Eo Ha.
    exact (all_generated_last_on _ _ _ _ _ _ _ _ src line column l a H1 (on_generator _ _ _ _ _ _ _ _ _ _ H1 H2 H3 Eg Eo Ha) Ha).
  Qed.

  Lemma each_original_last_on : forall root ops ms url c0 lk qs c l a,
    Forall valid_mapping ms -> facts root url ops ms c0 lk c -> asked md L U c0 qs = Ok c ->
    answer (bc_each_mapping L c OriginalOrd) = Ok l -> In a l ->
    exists m, In m ms /\ m_generated m = mkPos (rm_line a + 1) (rm_column a)
      /\ (rm_last_column a = None \/ column_end ms m (rm_last_column a)).
  Proof.
    intros root ops ms url c0 lk qs c l a H1 F Ha E Hal.
    pose proof F as [Ho [Hlen [Hrd [Hurl [Hroot [Hmap [Hnm [l' [r [R [Hi [Hres [Hin [Hso Hti]]]]]]]]]]]]]].
    destruct (each_mapping_original md L U HL c0 qs c l' l Ho Ha R E) as [P [_ Hr]].
    rewrite Forall_forall in Hr. specialize (Hr _ Hal).
    destruct (ends_right_has _ _ _ _ _ a Hres Hin) as [m Hm].
    { apply (in_map strip) in Hal. apply (Permutation_in _ P) in Hal. apply filter_In in Hal. apply Hal. }
    exists m. split; [apply Hm|]. split; [exact (stands_generated _ _ _ _ _ Hm)|].
    exact (ends_right_end _ _ _ _ _ _ _ Hres Hin Hso Hti Hr Hm).
  Qed.

  Lemma each_original_last : forall file root skip ops g url c0 lk qs c l a,
    Forall valid_mapping (added_mappings ops) -> steps_fit ops ->
    few_names (2^30) (added_mappings ops) ->
    gen_run md U (gen_new file root skip) ops = Ok g ->
    opened_on md L U g url c0 lk -> asked md L U c0 qs = Ok c ->
    answer (bc_each_mapping L c OriginalOrd) = Ok l -> In a l ->
    exists m, In m (added_mappings ops) /\ m_generated m = mkPos (rm_line a + 1) (rm_column a)
      /\ (rm_last_column a = None \/ column_end (added_mappings ops) m (rm_last_column a)).
  Proof.
    intros file root skip ops g url c0 lk qs c l a H1 H2 H3 Eg Eo Ha.
    exact (each_original_last_on _ _ _ _ _ _ _ _ l a H1 (on_generator _ _ _ _ _ _ _ _ _ _ H1 H2 H3 Eg Eo Ha) Ha).
  Qed.

  (** ** Contents *)
  Lemma present_aligned : forall (sources : list str) (text : str -> option str), contents_first sources text ->
    forall i s, nth_error sources i = Some s -> nth_error (present (map text sources)) i = text s.
  Proof.
    induction sources as [|x xs IH]; intros text Hf i s E; [destruct i; discriminate|]. cbn.
    destruct (text x) as [t|] eqn:Ex.
    - destruct i as [|i]; cbn in *; [congruence|]. apply IH; [|exact E].
      intros j j' y y' Hj E1 E2. apply (Hf (S j) (S j')); [lia | exact E1 | exact E2].
    - assert (Hn : forall k y, nth_error (x :: xs) k = Some y -> text y = None).
      { intros k y Ek. destruct k as [|k]; [cbn in Ek; congruence|].
        destruct (text y) eqn:Ey; [|reflexivity]. exfalso. apply (Hf 0%nat (S k) x y); [lia | reflexivity | exact Ek | congruence | exact Ex]. }
      rewrite (Hn _ _ E). replace (present (map text xs)) with (@nil str); [destruct i; reflexivity|].
      symmetry. assert (Hx : forall y, In y xs -> text y = None).
      { intros y Hy. apply In_nth_error in Hy. destruct Hy as [k Hk]. exact (Hn (S k) y Hk). }
      clear - Hx. induction xs as [|y xs IH]; [reflexivity|]. cbn. rewrite Hx by (left; reflexivity). apply IH. intros z Hz. apply Hx. right. exact Hz.
  Qed.

  Lemma content_on : forall file root skip ops g url c0 lk qs c src i p,
    gen_run md U (gen_new file root skip) ops = Ok g ->
    opened_on md L U g url c0 lk -> asked md L U c0 qs = Ok c ->
    len (bc_get_sources L c0) < 2^31 -> source_lookup md L U c0 src = Ok (Some i) ->
    exists s u j g', nth_error (source_names ops) i = Some s /\ asks_for md U root url lk src s u
      /\ gen_as_json md U g = Ok (j, g') /\ smj_sources j = Some (source_names ops)
      /\ answer (bc_source_content_for md L U c src p)
         = match smj_sources_content j with
           | None => Ok None
           | Some contents => match nth_error contents i with Some t => Ok (Some t) | None => Panic PIndex end
           end.
  Proof.
    intros file root skip ops g url c0 lk qs c src i p Eg Eo Ha Hlen Hlk.
    destruct (opened_facts _ _ _ _ _ _ _ _ Eg Eo) as [Ho [j [g' [Ej [Ec0 [Esrc [Enm [Hurl [Hroot Hmap]]]]]]]]].
    destruct (lookup_asks _ _ _ Hlk) as [u [Hu1 Hu2]]. rewrite Hurl, Hroot in Hu2.
    destruct (nth_url _ _ _ _ _ _ Hmap Hu1) as [s [Hs1 Hs2]].
    exists s, u, j, g'. split; [exact Hs1|]. split; [split; assumption|]. split; [exact Ej|]. split; [exact Esrc|].
    rewrite (content_spec md L U c0 qs c src p Ho Ha Hlen), Ec0, Hlk. reflexivity.
  Qed.

  Lemma content_end : forall file skip ops g url c0 lk qs c src i p,
    gen_run md U (gen_new file None skip) ops = Ok g ->
    opened_on md L U g url c0 lk -> asked md L U c0 qs = Ok c ->
    len (bc_get_sources L c0) < 2^31 -> source_lookup md L U c0 src = Ok (Some i) ->
    exists s u, nth_error (source_names ops) i = Some s /\ asks_for md U None url lk src s u
      /\ ((forall f, last_content f ops None = None) -> answer (bc_source_content_for md L U c src p) = Ok None)
      /\ ((exists f, last_content f ops None <> None) ->
          content_reply (source_names ops) (fun f => last_content f ops None) i
            (answer (bc_source_content_for md L U c src p))).
  Proof.
    intros file skip ops g url c0 lk qs c src i p Eg Eo Ha Hlen Hlk.
    destruct (content_on _ _ _ _ _ _ _ _ _ _ _ _ p Eg Eo Ha Hlen Hlk) as [s [u [j [g' [Hs [Hu [Ej [Es E]]]]]]]].
    destruct (generate_contents _ _ _ _ _ _ _ _ Eg Ej) as [srcs [Es' [Hno Hsome]]].
    assert (srcs = source_names ops) by congruence. subst srcs.
    exists s, u. split; [exact Hs|]. split; [exact Hu|]. rewrite E. split.
    - intros Hn. rewrite (Hno Hn). reflexivity.
    - intros Hn. rewrite (Hsome Hn). split; [reflexivity|]. intros Hf f Ef. rewrite (present_aligned _ _ Hf _ _ Ef). reflexivity.
  Qed.

  Lemma content_end_root : forall file root skip ops g url c0 lk qs c src i p key,
    gen_run md U (gen_new file (Some root) skip) ops = Ok g ->
    opened_on md L U g url c0 lk -> asked md L U c0 qs = Ok c ->
    len (bc_get_sources L c0) < 2^31 -> source_lookup md L U c0 src = Ok (Some i) ->
    (forall f k, relative md U root f = Ok k -> key f = k) ->
    let text f := last_content (key f) (renamed key ops) None in
    exists s u, nth_error (source_names ops) i = Some s /\ asks_for md U (Some root) url lk src s u
      /\ ((forall k, last_content k (renamed key ops) None = None) -> answer (bc_source_content_for md L U c src p) = Ok None)
      /\ ((exists k, last_content k (renamed key ops) None <> None) ->
          content_reply (source_names ops) text i (answer (bc_source_content_for md L U c src p))).
  Proof.
    intros file root skip ops g url c0 lk qs c src i p key Eg Eo Ha Hlen Hlk Hkey text.
    destruct (content_on _ _ _ _ _ _ _ _ _ _ _ _ p Eg Eo Ha Hlen Hlk) as [s [u [j [g' [Hs [Hu [Ej [Es E]]]]]]]].
    destruct (contents_by_key _ _ _ _ _ _ _ _ _ _ Eg Ej Hkey) as [srcs [Es' [_ [Hno Hsome]]]].
    assert (srcs = source_names ops) by congruence. subst srcs.
    exists s, u. split; [exact Hs|]. split; [exact Hu|]. rewrite E. split.
    - intros Hn. rewrite (Hno Hn). reflexivity.
    - intros Hn. rewrite (proj2 (Hsome Hn)). fold text. split; [reflexivity|]. intros Hf f Ef. rewrite (present_aligned _ _ Hf _ _ Ef). reflexivity.
  Qed.
End Queries.

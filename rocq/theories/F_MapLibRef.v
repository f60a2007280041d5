(** * A reference implementation of the interface of source-map-mappings *)
From Verif Require Import F_Base M_MapLib S_Vlq S_Decode S_MapLib F_Decode.
From Coq Require Import Sorting.Sorted Sorting.Permutation.

(** ** Sorting *)
Section Sort.
  Context {A : Type} (leb : A -> A -> bool).
  Fixpoint ins (x : A) (l : list A) : list A :=
    match l with [] => [x] | y :: l' => if leb x y then x :: l else y :: ins x l' end.
  Fixpoint isort (l : list A) : list A :=
    match l with [] => [] | x :: l' => ins x (isort l') end.

  Lemma ins_perm : forall x l, Permutation (x :: l) (ins x l).
  Proof.
    intros x l. induction l as [|y l IH]; cbn; [reflexivity|]. destruct (leb x y); [reflexivity|].
    rewrite perm_swap. constructor. exact IH.
  Qed.
  Lemma isort_perm : forall l, Permutation l (isort l).
  Proof. induction l as [|x l IH]; cbn; [constructor|]. rewrite <- ins_perm. constructor. exact IH. Qed.

  Context (le : A -> A -> Prop) (P : A -> Prop).
  Context (le_spec : forall a b, P a -> P b -> leb a b = true -> le a b).
  Context (le_total : forall a b, P a -> P b -> leb a b = false -> le b a).
  Context (le_trans : forall a b c, P a -> P b -> P c -> le a b -> le b c -> le a c).

  Lemma ins_sorted : forall x l, P x -> Forall P l -> StronglySorted le l -> StronglySorted le (ins x l).
  Proof.
    intros x l Hx HP Hs. induction Hs as [|y l Hs IH Hy]; cbn; [repeat constructor|]. inv HP.
    destruct (leb x y) eqn:E.
    - constructor; [constructor; assumption|]. constructor; [apply le_spec; assumption|].
      rewrite Forall_forall in *. intros z Hz. apply (le_trans x y z); auto.
    - constructor; [apply IH; assumption|]. eapply Permutation_Forall; [apply ins_perm|].
      constructor; [apply le_total; assumption | exact Hy].
  Qed.
  Lemma isort_sorted : forall l, Forall P l -> StronglySorted le (isort l).
  Proof.
    induction l as [|x l IH]; intros H; cbn; [constructor|]. inv H. apply ins_sorted; [assumption| |apply IH; assumption].
    eapply Permutation_Forall; [apply isort_perm | assumption].
  Qed.
End Sort.

(** ** Places *)
Definition loc_ltb (a b : loc) : bool := (fst a <? fst b) || ((fst a =? fst b) && (snd a <? snd b)).
Definition loc_eqb (a b : loc) : bool := (fst a =? fst b) && (snd a =? snd b).
Definition loc_leb (a b : loc) : bool := loc_ltb a b || loc_eqb a b.

Lemma loc_ltb_iff : forall a b, loc_ltb a b = true <-> loc_lt a b.
Proof. intros [a a'] [b b']. unfold loc_ltb, loc_lt. cbn. lia. Qed.
Lemma loc_eqb_iff : forall a b, loc_eqb a b = true <-> a = b.
Proof.
  intros [a a'] [b b']. unfold loc_eqb. cbn. split.
  - intros H. assert (a = b /\ a' = b') by lia. destruct H0. congruence.
  - intros H. injection H as -> ->. lia.
Qed.
Lemma loc_leb_iff : forall a b, loc_leb a b = true <-> loc_le a b.
Proof.
  intros a b. unfold loc_leb, loc_le. rewrite orb_true_iff, loc_ltb_iff, loc_eqb_iff. tauto.
Qed.
Lemma loc_trans : forall a b c, loc_le a b -> loc_le b c -> loc_le a c.
Proof.
  intros [a a'] [b b'] [c c']. unfold loc_le, loc_lt. cbn.
  intros [H|H] [H'|H']; try (injection H as -> ->); try (injection H' as -> ->); auto.
  left. lia.
Qed.
Lemma loc_total : forall a b, loc_lt a b \/ a = b \/ loc_lt b a.
Proof.
  intros [a a'] [b b']. unfold loc_lt. cbn.
  destruct (Z.lt_total a b) as [H|[H|H]]; [lia| |lia]. subst.
  destruct (Z.lt_total a' b') as [H|[H|H]]; [lia| |lia]. subst. auto.
Qed.

(** ** Nearest entry *)
Section Nearest.
  Context {A : Type}.
  (** the entry with the largest / smallest place among those passing [f] *)
  Fixpoint best (f : loc -> bool) (better : loc -> loc -> bool) (l : list (A * loc)) : option (A * loc) :=
    match l with
    | [] => None
    | (a, p) :: l' =>
        let r := best f better l' in
        if f p then match r with
                    | Some (a', p') => if better p' p then Some (a', p') else Some (a, p)
                    | None => Some (a, p)
                    end
        else r
    end.

  Lemma best_some : forall f better l a p, best f better l = Some (a, p) -> In (a, p) l /\ f p = true.
  Proof.
    intros f better. induction l as [|[a0 p0] l IH]; intros a p H; cbn in H; [discriminate|].
    destruct (f p0) eqn:Ef.
    - destruct (best f better l) as [[a' p']|] eqn:Eb.
      + destruct (better p' p0).
        * inv H. destruct (IH _ _ eq_refl). split; [right|]; assumption.
        * inv H. split; [left; reflexivity | exact Ef].
      + inv H. split; [left; reflexivity | exact Ef].
    - destruct (IH _ _ H). split; [right|]; assumption.
  Qed.
  Lemma best_none : forall f better l, best f better l = None -> forall a p, In (a, p) l -> f p = false.
  Proof.
    intros f better. induction l as [|[a0 p0] l IH]; intros H a p Hi; cbn in H; [contradiction|].
    destruct (f p0) eqn:Ef.
    - destruct (best f better l) as [[a' p']|]; [destruct (better p' p0)|]; discriminate.
    - destruct Hi as [Hi|Hi]; [injection Hi as <- <-; exact Ef | exact (IH H _ _ Hi)].
  Qed.
  Lemma best_best : forall f better (le : loc -> loc -> Prop),
    (forall p, le p p) -> (forall p q r, le p q -> le q r -> le p r) ->
    (forall p q, better p q = true -> le q p) -> (forall p q, better p q = false -> le p q) ->
    forall l a p, best f better l = Some (a, p) -> forall a' p', In (a', p') l -> f p' = true -> le p' p.
  Proof.
    intros f better le Hr Ht Hb1 Hb2. induction l as [|[a0 p0] l IH]; intros a p H a' p' Hi Hf; cbn in H; [contradiction|].
    destruct (f p0) eqn:Ef.
    - destruct (best f better l) as [[a1 p1]|] eqn:Eb.
      + assert (Hl : In (a', p') l -> le p' p1) by (intros X; exact (IH _ _ eq_refl _ _ X Hf)).
        destruct (better p1 p0) eqn:Ebt; inv H.
        * destruct Hi as [Hi|Hi]; [injection Hi as <- <-; apply Hb1; exact Ebt | apply Hl; exact Hi].
        * destruct Hi as [Hi|Hi]; [injection Hi as <- <-; apply Hr |].
          apply (Ht p' p1 p); [apply Hl; exact Hi | apply Hb2; exact Ebt].
      + inv H. destruct Hi as [Hi|Hi]; [injection Hi as <- <-; apply Hr|].
        rewrite (best_none f better l Eb _ _ Hi) in Hf. discriminate.
    - destruct Hi as [Hi|Hi]; [injection Hi as <- <-; congruence|]. exact (IH _ _ H _ _ Hi Hf).
  Qed.

  Definition find_nearest (l : list (A * loc)) (q : loc) (b : Bias) : option A :=
    match find (fun x => loc_eqb (snd x) q) l with
    | Some (a, _) => Some a
    | None =>
        option_map fst
          match b with
          | GreatestLowerBound => best (fun p => loc_ltb p q) (fun p p' => loc_ltb p' p) l
          | LeastUpperBound => best (fun p => loc_ltb q p) (fun p p' => loc_ltb p p') l
          end
    end.

  Lemma find_nearest_ok : forall l q b, nearest l q b (find_nearest l q b).
  Proof.
    intros l q b. unfold find_nearest, nearest.
    destruct (find (fun x => loc_eqb (snd x) q) l) as [[a p]|] eqn:Ef.
    - apply find_some in Ef. destruct Ef as [Hi He]. cbn in He. apply loc_eqb_iff in He.
      exists p. split; [exact Hi | left; exact He].
    - assert (Hn : forall a' p', In (a', p') l -> p' <> q).
      { intros a' p' Hi He. pose proof (find_none _ _ Ef _ Hi) as Hf. cbn in Hf.
        apply loc_eqb_iff in He. congruence. }
      destruct b; cbn [option_map].
      + destruct (best _ _ l) as [[a p]|] eqn:Eb; cbn [option_map fst].
        * destruct (best_some _ _ _ _ _ Eb) as [Hi Hp]. apply loc_ltb_iff in Hp.
          exists p. split; [exact Hi|]. right. split; [exact Hn|]. split; [exact Hp|].
          intros a' p' Hi' Hp'.
          apply (best_best (fun p => loc_ltb p q) (fun p p' => loc_ltb p' p) loc_le) with (l := l) (a := a) (a' := a'); try assumption.
          -- intros; right; reflexivity.
          -- intros; eapply loc_trans; eassumption.
          -- intros x y Hxy. left. apply loc_ltb_iff. exact Hxy.
          -- intros x y Hxy. destruct (loc_total x y) as [H|[H|H]]; [left; exact H | right; exact H|].
             apply loc_ltb_iff in H. congruence.
          -- apply loc_ltb_iff. exact Hp'.
        * intros a' p' Hi. pose proof (best_none _ _ _ Eb _ _ Hi) as Hf. cbn in Hf.
          destruct (loc_total q p') as [H|[H|H]]; [exact H | | apply loc_ltb_iff in H; congruence].
          exfalso. apply (Hn _ _ Hi). congruence.
      + destruct (best _ _ l) as [[a p]|] eqn:Eb; cbn [option_map fst].
        * destruct (best_some _ _ _ _ _ Eb) as [Hi Hp]. apply loc_ltb_iff in Hp.
          exists p. split; [exact Hi|]. right. split; [exact Hn|]. split; [exact Hp|].
          intros a' p' Hi' Hp'.
          apply (best_best (fun p => loc_ltb q p) (fun p p' => loc_ltb p p') (fun x y => loc_le y x)) with (l := l) (a := a) (a' := a'); try assumption.
          -- intros; right; reflexivity.
          -- intros; eapply loc_trans; eassumption.
          -- intros x y Hxy. left. apply loc_ltb_iff. exact Hxy.
          -- intros x y Hxy. destruct (loc_total y x) as [H|[H|H]]; [left; exact H | right; exact H|].
             apply loc_ltb_iff in H. congruence.
          -- apply loc_ltb_iff. exact Hp'.
        * intros a' p' Hi. pose proof (best_none _ _ _ Eb _ _ Hi) as Hf. cbn in Hf.
          destruct (loc_total p' q) as [H|[H|H]]; [exact H | | apply loc_ltb_iff in H; congruence].
          exfalso. apply (Hn _ _ Hi). congruence.
  Qed.
End Nearest.

(** ** The implementation: a state is the list of mappings *)
Definition u32b (z : Z) : bool := (0 <=? z) && (z <? 4294967296).
Definition raw_u32b (m : RawMapping) : bool :=
  u32b (rm_line m) && u32b (rm_column m)
  && match rm_last_column m with Some z => u32b z | None => true end
  && match rm_original m with
     | Some o => u32b (ol_source o) && u32b (ol_line o) && u32b (ol_column o)
                 && match ol_name o with Some z => u32b z | None => true end
     | None => true
     end.

Definition raw_leb (a b : RawMapping) : bool := loc_leb (gen_loc a) (gen_loc b).
Definition orig_leb (a b : RawMapping) : bool :=
  match rm_original a, rm_original b with
  | Some o, Some o' =>
      (ol_source o <? ol_source o')
      || ((ol_source o =? ol_source o') && loc_leb (ol_line o, ol_column o) (ol_line o', ol_column o'))
  | _, _ => false
  end.

Definition set_last (m : RawMapping) (c : option Z) : RawMapping :=
  mkRaw (rm_line m) (rm_column m) c (rm_original m).
Fixpoint set_spans (l : list RawMapping) : list RawMapping :=
  match l with
  | [] => []
  | m :: l' =>
      set_last m match l' with
                 | m' :: _ => if rm_line m =? rm_line m' then Some (rm_column m') else None
                 | [] => None
                 end :: set_spans l'
  end.

(** [of_source] with the last columns *)
Fixpoint raw_of_source (source : Z) (l : list RawMapping) : list (RawMapping * loc) :=
  match l with
  | [] => []
  | m :: l' =>
      match rm_original m with
      | Some o => if ol_source o =? source
                  then (m, (ol_line o, ol_column o)) :: raw_of_source source l'
                  else raw_of_source source l'
      | None => raw_of_source source l'
      end
  end.

Definition RefLib : MapLib := {|
  lm_t := list RawMapping;
  lm_parse := fun s =>
    match decode_mappings s with
    | Some ms => if forallb raw_u32b ms then Some (isort raw_leb ms) else None
    | None => None
    end;
  lm_by_generated := fun t => t;
  lm_by_original := fun t => (isort orig_leb (filter has_original t), t);
  lm_compute_spans := set_spans;
  lm_original_for := fun t l c b => find_nearest (by_place t) (l, c) b;
  lm_generated_for := fun t src l c b => (find_nearest (raw_of_source src t) (l, c) b, t);
  lm_all_generated := fun t src l c =>
    (at_place (l, match c with Some c => c | None => 0 end) (raw_of_source src t), t)
|}.

Lemma u32b_iff : forall z, u32b z = true <-> u32 z.
Proof. intros z. unfold u32b, u32. change (2^32) with 4294967296. lia. Qed.

Lemma raw_u32b_iff : forall m, raw_u32b m = true <-> raw_u32 m.
Proof.
  intros [l c e [[src ol oc n]|]]; unfold raw_u32b, raw_u32; cbn;
    repeat rewrite andb_true_iff; repeat rewrite u32b_iff; destruct e as [e|]; rewrite ?u32b_iff;
    try (destruct n as [n|]; rewrite ?u32b_iff); intuition.
Qed.

(** *** Bad characters *)
Lemma vlq_unsigned_chars : forall s u r, vlq_unsigned s = Some (u, r) ->
  forall c, In c s -> (exists d, b64_value c = Some d) \/ In c r.
Proof.
  induction s as [|x s IH]; intros u r H c Hc; cbn in H; [discriminate|].
  destruct (b64_value x) as [d|] eqn:Ed; [|discriminate].
  destruct Hc as [->|Hc]; [left; eauto|].
  destruct (d <? 32); [inv H; right; exact Hc|].
  destruct (vlq_unsigned s) as [[hi r']|] eqn:E; [|discriminate]. inv H. exact (IH _ _ eq_refl c Hc).
Qed.

Lemma vlq_fields_chars : forall n s l, vlq_fields n s = Some l ->
  forall c, In c s -> exists d, b64_value c = Some d.
Proof.
  induction n as [|n IH]; intros s l H c Hc; destruct s as [|x s]; cbn [vlq_fields] in H;
    try contradiction; try discriminate.
  destruct (vlq_decode (x :: s)) as [[v r]|] eqn:E; [|discriminate].
  destruct (vlq_fields n r) eqn:Er; [|discriminate].
  unfold vlq_decode in E. destruct (vlq_unsigned (x :: s)) as [[u r']|] eqn:Eu; [|discriminate].
  injection E as <- <-. destruct (vlq_unsigned_chars _ _ _ Eu c Hc) as [H1|H1]; [exact H1|].
  exact (IH _ _ Er c H1).
Qed.

Lemma decode_segment_chars : forall line g r seg x, decode_segment line g r seg = Some x ->
  forall c, In c seg -> exists d, b64_value c = Some d.
Proof.
  intros line g r seg x H. unfold decode_segment in H.
  destruct (vlq_decode_all seg) as [l|] eqn:E; [|discriminate].
  unfold vlq_decode_all in E. exact (vlq_fields_chars _ _ _ E).
Qed.

Lemma decode_segments_chars : forall segs line g r x, decode_segments line g r segs = Some x ->
  forall seg c, In seg segs -> In c seg -> exists d, b64_value c = Some d.
Proof.
  induction segs as [|s segs IH]; intros line g r x H seg c Hs Hc; [contradiction|].
  cbn [decode_segments] in H. destruct (decode_segment line g r s) as [[[m g'] r']|] eqn:E; [|discriminate].
  destruct (decode_segments line g' r' segs) as [[ms r'']|] eqn:E2; [|discriminate].
  destruct Hs as [->|Hs]; [exact (decode_segment_chars _ _ _ _ _ E c Hc) | exact (IH _ _ _ _ E2 seg c Hs Hc)].
Qed.

Lemma split_on_In : forall sep s c, In c s -> c = sep \/ exists t, In t (split_on sep s) /\ In c t.
Proof.
  intros sep. induction s as [|x s IH]; intros c Hc; [contradiction|]. cbn [split_on].
  destruct (N.eqb x sep) eqn:E.
  - apply N.eqb_eq in E. destruct Hc as [->|Hc]; [left; exact E|].
    destruct (IH c Hc) as [H|[t [H1 H2]]]; [left; exact H | right; exists t; split; [right|]; assumption].
  - destruct (split_on_cons sep s) as [h [l Es]]. rewrite Es in *.
    destruct Hc as [->|Hc]; [right; exists (c :: h); split; left; reflexivity|].
    destruct (IH c Hc) as [H|[t [[<-|H1] H2]]]; [left; exact H | right.. ].
    + exists (x :: h). split; [left; reflexivity | right; exact H2].
    + exists t. split; [right|]; assumption.
Qed.

Lemma decode_lines_chars : forall lines line r x, decode_lines line r lines = Some x ->
  forall s c, In s lines -> In c s -> c = ch "," \/ exists d, b64_value c = Some d.
Proof.
  induction lines as [|l lines IH]; intros line r x H s c Hs Hc; [contradiction|].
  cbn [decode_lines] in H. destruct (decode_line line r l) as [[ms r']|] eqn:E; [|discriminate].
  destruct (decode_lines (line + 1) r' lines) as [rest|] eqn:E2; [|discriminate].
  destruct Hs as [->|Hs]; [|exact (IH _ _ _ E2 s c Hs Hc)].
  destruct s as [|y s]; [contradiction|]. cbn [decode_line] in E.
  destruct (split_on_In (ch ",") _ c Hc) as [H1|[t [H1 H2]]]; [left; exact H1|].
  right. exact (decode_segments_chars _ _ _ _ _ E t c H1 H2).
Qed.

Lemma decode_chars : forall s ms, decode_mappings s = Some ms -> forall c, In c s -> text_char c.
Proof.
  intros s ms H c Hc. unfold decode_mappings in H. unfold text_char.
  destruct (split_on_In (ch ";") s c Hc) as [H1|[t [H1 H2]]]; [auto|].
  destruct (decode_lines_chars _ _ _ _ H t c H1 H2); auto.
Qed.

(** *** Decoded numbers are u32, lines are bounded by the semicolons *)
Definition dec_ok (lo hi : Z) (m : RawMapping) : Prop :=
  lo <= rm_line m < hi /\ u32 (rm_column m) /\ rm_last_column m = None
  /\ match rm_original m with
     | Some o => u32 (ol_source o) /\ u32 (ol_line o) /\ u32 (ol_column o)
                 /\ match ol_name o with Some z => u32 z | None => True end
     | None => True
     end.

Lemma in_u32_u32 : forall z, in_u32 z = true <-> u32 z.
Proof. intros z. rewrite in_u32_iff. unfold u32. change (2^32) with 4294967296. lia. Qed.

Lemma decode_segment_ok : forall line g r seg m g' r', decode_segment line g r seg = Some (m, g', r') ->
  dec_ok line (line + 1) m.
Proof.
  intros line g r seg m g' r' H. unfold decode_segment in H.
  destruct (vlq_decode_all seg) as [[|a [|b [|c [|d [|e [|f l]]]]]]|]; try discriminate;
    match type of H with (if ?c then _ else _) = _ => destruct c eqn:E end; try discriminate; inv H;
    repeat rewrite andb_true_iff in E; repeat rewrite in_u32_u32 in E;
    unfold dec_ok; cbn [rm_line rm_column rm_last_column rm_original ol_source ol_line ol_column ol_name];
    (split; [lia|]); (split; [tauto|]); (split; [reflexivity|]); tauto.
Qed.

Lemma decode_segments_ok : forall segs line g r ms r', decode_segments line g r segs = Some (ms, r') ->
  Forall (dec_ok line (line + 1)) ms.
Proof.
  induction segs as [|s segs IH]; intros line g r ms r' H; cbn [decode_segments] in H; [inv H; constructor|].
  destruct (decode_segment line g r s) as [[[m g'] r1]|] eqn:E; [|discriminate].
  destruct (decode_segments line g' r1 segs) as [[ms' r2]|] eqn:E2; [|discriminate]. inv H.
  constructor; [exact (decode_segment_ok _ _ _ _ _ _ _ E) | exact (IH _ _ _ _ _ E2)].
Qed.

Lemma dec_ok_wider : forall a b a' b' m, dec_ok a b m -> a' <= a -> b <= b' -> dec_ok a' b' m.
Proof. intros a b a' b' m [H1 H2] Ha Hb. split; [lia | exact H2]. Qed.

Lemma decode_lines_ok : forall lines line r ms, decode_lines line r lines = Some ms ->
  Forall (dec_ok line (line + len lines)) ms.
Proof.
  induction lines as [|s lines IH]; intros line r ms H; cbn [decode_lines] in H; [inv H; constructor|].
  destruct (decode_line line r s) as [[ms1 r1]|] eqn:E; [|discriminate].
  destruct (decode_lines (line + 1) r1 lines) as [rest|] eqn:E2; [|discriminate]. inv H.
  rewrite len_cons. pose proof (len_nonneg _ lines) as Hn. apply Forall_app. split.
  - assert (Forall (dec_ok line (line + 1)) ms1).
    { destruct s as [|x s]; cbn [decode_line] in E; [inv E; constructor | exact (decode_segments_ok _ _ _ _ _ _ E)]. }
    eapply Forall_impl; [|exact H]. intros m Hm. eapply dec_ok_wider; [exact Hm | lia | lia].
  - eapply Forall_impl; [|exact (IH _ _ _ E2)]. intros m Hm. eapply dec_ok_wider; [exact Hm | lia | lia].
Qed.

Lemma split_count : forall c s, len (split_on c s) = Z.of_nat (count_occ N.eq_dec s c) + 1.
Proof.
  intros c. induction s as [|x s IH]; [reflexivity|]. cbn [split_on count_occ].
  destruct (N.eq_dec x c) as [->|Hn].
  - rewrite N.eqb_refl, len_cons. unfold str in *. rewrite IH. lia.
  - apply N.eqb_neq in Hn. rewrite Hn. destruct (split_on_cons c s) as [h [t E]]. rewrite E in *.
    rewrite !len_cons in *. exact IH.
Qed.

Lemma decode_no_last : forall s ms, decode_mappings s = Some ms -> Forall (fun m => rm_last_column m = None) ms.
Proof.
  intros s ms H. eapply Forall_impl; [|exact (decode_lines_ok _ _ _ _ H)]. intros m [_ [_ [Hm _]]]. exact Hm.
Qed.

Lemma decode_u32 : forall s ms, Z.of_nat (count_occ N.eq_dec s (ch ";")) < 2^32 ->
  decode_mappings s = Some ms -> Forall raw_u32 ms.
Proof.
  intros s ms Hc H. unfold decode_mappings in H. apply decode_lines_ok in H.
  eapply Forall_impl; [|exact H]. intros m [H1 [H2 [H3 H4]]]. pose proof (split_count (ch ";") s) as Hs.
  unfold str in *. rewrite Hs in H1. split; [unfold u32; lia|]. split; [exact H2|]. rewrite H3. split; [exact I | exact H4].
Qed.

(** *** The states *)
Lemma raw_le_trans : forall a b c, raw_le a b -> raw_le b c -> raw_le a c.
Proof. intros a b c. unfold raw_le. apply loc_trans. Qed.

Lemma isort_raw_sorted : forall l, StronglySorted raw_le (isort raw_leb l).
Proof.
  intros l. apply (isort_sorted raw_leb raw_le (fun _ => True)).
  - intros a b _ _ H. apply loc_leb_iff. exact H.
  - intros a b _ _ H. unfold raw_leb in H. unfold raw_le, loc_le.
    destruct (loc_total (gen_loc b) (gen_loc a)) as [H1|[H1|H1]]; [auto | auto |].
    assert (loc_leb (gen_loc a) (gen_loc b) = true) by (apply loc_leb_iff; left; exact H1). congruence.
  - intros a b c _ _ _. apply raw_le_trans.
  - apply Forall_forall. auto.
Qed.

Lemma set_spans_strip : forall l, map strip (set_spans l) = map strip l.
Proof. induction l as [|m l IH]; cbn; [reflexivity|]. rewrite IH. reflexivity. Qed.

Lemma set_spans_spans : forall l, spans (set_spans l).
Proof.
  induction l as [|m l IH]; [exact I|]. cbn [set_spans spans]. split; [|exact IH].
  destruct l as [|m' l]; cbn; [reflexivity|].
  destruct (rm_line m =? rm_line m') eqn:E; split; intros H; try reflexivity; lia.
Qed.

Lemma strip_map_Forall : forall (P : RawMapping -> Prop), (forall m, P m <-> P (strip m)) ->
  forall l l', map strip l = map strip l' -> Forall P l -> Forall P l'.
Proof.
  intros P HP. induction l as [|m l IH]; intros [|m' l'] E H; try discriminate; [constructor|].
  cbn [map] in E. injection E as E1 E2 E3 E4. inv H. constructor; [|apply IH; assumption].
  apply HP. apply HP in H2. unfold strip in *. congruence.
Qed.

Lemma strip_map_sorted : forall l l', map strip l = map strip l' -> StronglySorted raw_le l -> StronglySorted raw_le l'.
Proof.
  induction l as [|m l IH]; intros [|m' l'] E H; try discriminate; [constructor|].
  cbn [map] in E. injection E as E1 E2 E3 E4. inv H. constructor; [apply IH; assumption|].
  assert (HF : Forall (raw_le m) l').
  { revert E4 H3. apply strip_map_Forall. intros x. reflexivity. }
  eapply Forall_impl; [|exact HF]. intros x Hx. unfold raw_le, gen_loc in *. rewrite <- E1, <- E2. exact Hx.
Qed.

Lemma set_spans_u32 : forall l, Forall raw_u32 l -> Forall raw_u32 (set_spans l).
Proof.
  induction l as [|m l IH]; intros H; [constructor|]. inv H. cbn [set_spans]. constructor; [|apply IH; assumption].
  destruct H2 as [H1 [H2 [_ H4]]]. split; [exact H1|]. split; [exact H2|]. split; [|exact H4].
  cbn. destruct l as [|m' l]; [exact I|]. destruct (rm_line m =? rm_line m'); [|exact I].
  inv H3. destruct H5 as [_ [H5 _]]. exact H5.
Qed.

Lemma ref_state : forall s b (t : list RawMapping), lib_state RefLib s b t ->
  exists ms, decode_mappings s = Some ms /\ Forall raw_u32 ms
    /\ (t = isort raw_leb ms /\ b = false \/ exists t', map strip t' = map strip (isort raw_leb ms)
          /\ StronglySorted raw_le t' /\ Forall raw_u32 t' /\ t = set_spans t').
Proof.
  intros s b t H. induction H as [t H| | | |b t H IH].
  - cbn in H. destruct (decode_mappings s) as [ms|] eqn:E; [|discriminate].
    destruct (forallb raw_u32b ms) eqn:E2; [|discriminate]. injection H as <-.
    exists ms. split; [reflexivity|]. split; [|left; auto].
    rewrite forallb_forall in E2. apply Forall_forall. intros x Hx. apply raw_u32b_iff. auto.
  - exact IHlib_state.
  - exact IHlib_state.
  - exact IHlib_state.
  - destruct IH as [ms [E [Hu [[-> _]|[t' [H1 [H2 [H3 ->]]]]]]]]; exists ms; split; try exact E; split; try exact Hu; right.
    + exists (isort raw_leb ms). split; [reflexivity|]. split; [apply isort_raw_sorted|].
      split; [eapply Permutation_Forall; [apply isort_perm|exact Hu] | reflexivity].
    + exists (set_spans t'). split; [rewrite set_spans_strip; exact H1|].
      split; [eapply strip_map_sorted; [symmetry; apply set_spans_strip | exact H2]|].
      split; [apply set_spans_u32; exact H3 | reflexivity].
Qed.

Lemma ref_state_true : forall s (t : list RawMapping), lib_state RefLib s true t ->
  exists t', t = set_spans t'.
Proof.
  intros s t H. remember true as b. induction H; subst; try discriminate; auto. exists t. reflexivity.
Qed.

Lemma strip_idem : forall m, strip (strip m) = strip m.
Proof. reflexivity. Qed.

Definition first_with {A B} (f : A -> B) (x : A * loc) : B * loc := (f (fst x), snd x).

Lemma of_source_raw : forall src l, of_source src l = map (first_with strip) (raw_of_source src l).
Proof.
  intros src. induction l as [|m l IH]; cbn; [reflexivity|].
  destruct (rm_original m) as [o|]; [|exact IH]. destruct (ol_source o =? src); [|exact IH]. cbn. rewrite IH. reflexivity.
Qed.

Lemma raw_of_source_in : forall src l a p, In (a, p) (raw_of_source src l) -> In a l.
Proof.
  intros src. induction l as [|m l IH]; intros a p H; cbn in H; [contradiction|].
  destruct (rm_original m) as [o|]; [|right; eauto]. destruct (ol_source o =? src); [|right; eauto].
  destruct H as [H|H]; [injection H as <- <-; left; reflexivity | right; eauto].
Qed.

Lemma best_map : forall A B (f : A -> B) ok better l,
  best ok better (map (first_with f) l) = option_map (first_with f) (best ok better l).
Proof.
  intros A B f ok better. induction l as [|[a p] l IH]; [reflexivity|]. cbn. rewrite IH. destruct (ok p); [|reflexivity].
  destruct (best ok better l) as [[a' p']|]; [|reflexivity]. cbn. destruct (better p' p); reflexivity.
Qed.

Lemma find_nearest_map : forall A B (f : A -> B) l q b,
  find_nearest (map (first_with f) l) q b = option_map f (find_nearest l q b).
Proof.
  intros A B f l q b. unfold find_nearest.
  assert (E : find (fun x => loc_eqb (snd x) q) (map (first_with f) l)
              = option_map (first_with f) (find (fun x => loc_eqb (snd x) q) l)).
  { induction l as [|[a p] l IH]; [reflexivity|]. cbn. destruct (loc_eqb p q); [reflexivity|exact IH]. }
  rewrite E. destruct (find _ l) as [[a p]|]; [reflexivity|]. cbn [option_map].
  destruct b; rewrite best_map; destruct (best _ _ l) as [[a p]|]; reflexivity.
Qed.

Lemma at_place_map : forall q l, at_place q (map (first_with strip) l) = map strip (at_place q l).
Proof.
  intros q l. unfold at_place. induction l as [|[a p] l IH]; [reflexivity|]. cbn.
  destruct (_ && _); cbn; rewrite IH; reflexivity.
Qed.

Lemma ref_last : forall s b (t : list RawMapping) m, lib_state RefLib s b t -> In m t -> ends_right t m.
Proof.
  intros s b t m H Hm. destruct (ref_state s b t H) as [ms [E [_ [[Et _]|[t' [_ [_ [_ Et]]]]]]]].
  - left. assert (F : Forall (fun m => rm_last_column m = None) t).
    { rewrite Et. eapply Permutation_Forall; [apply isort_perm | eapply decode_no_last; exact E]. }
    rewrite Forall_forall in F. auto.
  - right. exists t. split; [reflexivity|]. split; [rewrite Et; apply set_spans_spans | exact Hm].
Qed.

Lemma filter_strip : forall l, map strip (filter has_original l) = filter has_original (map strip l).
Proof.
  induction l as [|m l IH]; cbn; [reflexivity|]. destruct (has_original m) eqn:E.
  - cbn. unfold has_original in *. cbn. rewrite E, IH. reflexivity.
  - unfold has_original in *. cbn. rewrite E, IH. reflexivity.
Qed.

Lemma orig_sorted : forall l, StronglySorted orig_le (isort orig_leb (filter has_original l)).
Proof.
  intros l. apply (isort_sorted orig_leb orig_le (fun m => has_original m = true)).
  - intros a b _ _ H. unfold orig_leb in H. unfold orig_le.
    destruct (rm_original a) as [o|]; [|discriminate]. destruct (rm_original b) as [o'|]; [|discriminate].
    rewrite orb_true_iff, andb_true_iff, loc_leb_iff in H. destruct H as [H|[H1 H2]]; [left; lia | right; split; [lia|exact H2]].
  - intros a b Ha Hb H. unfold orig_leb in H. unfold orig_le. unfold has_original in *.
    destruct (rm_original a) as [o|]; [|discriminate]. destruct (rm_original b) as [o'|]; [|discriminate].
    rewrite orb_false_iff, andb_false_iff in H. destruct H as [H1 H2].
    destruct (Z_lt_dec (ol_source o') (ol_source o)); [left; assumption | right].
    assert (Es : ol_source o = ol_source o') by lia. split; [congruence|].
    destruct H2 as [H2|H2]; [lia|].
    destruct (loc_total (ol_line o', ol_column o') (ol_line o, ol_column o)) as [H|[H|H]];
      [left; exact H | right; exact H|].
    assert (loc_leb (ol_line o, ol_column o) (ol_line o', ol_column o') = true) by (apply loc_leb_iff; left; exact H).
    congruence.
  - intros a b c Ha Hb Hc. unfold orig_le, has_original in *.
    destruct (rm_original a) as [o|]; [|discriminate]. destruct (rm_original b) as [o'|]; [|discriminate].
    destruct (rm_original c) as [o''|]; [|discriminate].
    intros [H1|[H1 H1']] [H2|[H2 H2']]; try (left; lia). right. split; [lia|]. eapply loc_trans; eassumption.
  - apply Forall_forall. intros x Hx. apply filter_In in Hx. tauto.
Qed.

Lemma RefLib_ok : MapLibOk RefLib.
Proof.
  constructor.
  - intros s ms _ Hc Hd. cbn. rewrite Hd. pose proof (decode_u32 s ms Hc Hd) as Hu.
    assert (E : forallb raw_u32b ms = true).
    { apply forallb_forall. intros x Hx. rewrite Forall_forall in Hu. apply raw_u32b_iff. auto. }
    rewrite E. eexists. split; [reflexivity | apply isort_perm].
  - intros s c Hc Hn. cbn. destruct (decode_mappings s) as [ms|] eqn:E; [|reflexivity].
    exfalso. apply Hn. eapply decode_chars; eassumption.
  - intros s b t H. destruct (ref_state s b t H) as [ms [E [Hu [[-> _]|[t' [H1 [H2 [H3 ->]]]]]]]]; cbn.
    + split; [apply isort_raw_sorted|]. eapply Permutation_Forall; [apply isort_perm | exact Hu].
    + split; [eapply strip_map_sorted; [symmetry; apply set_spans_strip | exact H2] | apply set_spans_u32; exact H3].
  - intros s b t t0 H H0. destruct (ref_state s b t H) as [ms [E [Hu Ht]]].
    cbn in H0. rewrite E in H0. destruct (forallb raw_u32b ms); [|discriminate]. injection H0 as <-.
    cbn [RefLib lm_by_generated].
    destruct Ht as [[-> _]|[t' [H1 [_ [_ ->]]]]]; [reflexivity|]. rewrite set_spans_strip. exact H1.
  - intros s t H. destruct (ref_state_true s t H) as [t' ->]. apply set_spans_spans.
  - intros s b t H. destruct (ref_state s b t H) as [ms [E [_ [[-> _]|[t' [_ [_ [_ ->]]]]]]]].
    + right. cbn. eapply Permutation_Forall; [apply isort_perm | eapply decode_no_last; exact E].
    + left. apply set_spans_spans.
  - intros s b t l c bias _ _ _. apply find_nearest_ok.
  - intros s b t src l c bias _ _ _ _. cbn [RefLib lm_generated_for lm_by_generated fst].
    rewrite <- find_nearest_map, <- of_source_raw. apply find_nearest_ok.
  - intros s b t src l c _ _ _ _ exact_ _. subst exact_. cbn [RefLib lm_all_generated lm_by_generated fst].
    rewrite of_source_raw, at_place_map. apply Permutation_refl.
  - intros s b t _. cbn [RefLib lm_by_original lm_by_generated fst]. split; [|apply orig_sorted].
    rewrite <- filter_strip. apply Permutation_map. symmetry. apply isort_perm.
  - intros s b t m H. cbn [RefLib lm_generated_for lm_all_generated lm_by_original lm_by_generated fst]. split; [|split].
    + intros src l c bias E. apply (ref_last s b t m H).
      pose proof (find_nearest_ok (raw_of_source src t) (l, c) bias) as N. rewrite E in N. destruct N as [p [N _]].
      eapply raw_of_source_in. exact N.
    + intros src l c E. apply (ref_last s b t m H). unfold at_place in E. apply in_map_iff in E. destruct E as [[a p] [Ea E]].
      apply filter_In in E. cbn in Ea. subst a. eapply raw_of_source_in. apply E.
    + intros E. apply (ref_last s b t m H). eapply Permutation_in in E; [|symmetry; apply isort_perm]. apply filter_In in E. apply E.
Qed.

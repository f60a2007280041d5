(** * Lemmas for C80: no shorter text says the same *)
From Verif Require Import F_Base M_Base64Vlq M_ArraySet M_Mapping M_Util M_SourceMap M_MapLib M_Generator
  S_Vlq S_List S_Decode S_Mapping S_Generator S_Far S_Contents F_ArraySet F_Vlq F_Decode F_Serialize F_Generator F_GeneratorProps
  F_MappingList F_Contents F_EndToEnd F_MapLibRef F_Queries.
From Coq Require Import Sorting.Permutation.

(** ** Fields *)
Lemma decode_rest_shorter : forall s v r, vlq_decode s = Some (v, r) -> exists f, s = f ++ r /\ f <> [] /\ vlq_decode f = Some (v, []).
Proof.
  assert (U : forall s u r, vlq_unsigned s = Some (u, r) -> exists f, s = f ++ r /\ f <> [] /\ vlq_unsigned f = Some (u, [])).
  { induction s as [|c s IH]; intros u r H; cbn in H; [discriminate|].
    destruct (b64_value c) as [d|] eqn:Ec; [|discriminate]. destruct (d <? 32) eqn:Ed.
    - injection H as <- <-. exists [c]. split; [reflexivity|]. split; [discriminate|]. cbn. rewrite Ec, Ed. reflexivity.
    - destruct (vlq_unsigned s) as [[hi r0]|] eqn:Es; [|discriminate]. injection H as <- <-.
      destruct (IH _ _ eq_refl) as [f [-> [_ Hf]]]. exists (c :: f). split; [reflexivity|]. split; [discriminate|].
      cbn. rewrite Ec, Ed, Hf. reflexivity. }
  intros s v r H. unfold vlq_decode in *. destruct (vlq_unsigned s) as [[u r0]|] eqn:E; [|discriminate].
  injection H as <- <-. destruct (U _ _ _ E) as [f [H1 [H2 H3]]]. exists f. rewrite H3. auto.
Qed.

Definition field_of (f : str) (v : Z) : Prop := vlq_decode f = Some (v, []).

Lemma vlq_fields_split : forall fuel s vs, vlq_fields fuel s = Some vs ->
  exists fs, s = concat fs /\ Forall2 field_of fs vs.
Proof.
  induction fuel as [|fuel IH]; intros s vs H; (destruct s as [|c s]; [injection H as <-; exists []; split; [reflexivity|constructor]|]);
    cbn [vlq_fields] in H; [discriminate|].
  destruct (vlq_decode (c :: s)) as [[v r]|] eqn:E; [|discriminate].
  destruct (vlq_fields fuel r) as [l|] eqn:El; [|discriminate]. injection H as <-.
  destruct (IH _ _ El) as [fs [-> Hfs]]. destruct (decode_rest_shorter _ _ _ E) as [f [-> [_ Hf]]].
  exists (f :: fs). split; [reflexivity | constructor; assumption].
Qed.

(** A shape decodes with any text behind it. *)
Lemma shape_decode : forall f, vlq_shape f -> exists v, forall r, vlq_decode (f ++ r) = Some (v, r).
Proof.
  assert (U : forall init last, Forall continues init -> final last ->
            exists u, forall r, vlq_unsigned (init ++ [last] ++ r) = Some (u, r)).
  { induction init as [|c init IH]; intros last Hi Hl.
    - destruct Hl as [d [E Hd]]. exists d. intros r. cbn. rewrite E. replace (d <? 32) with true by lia. reflexivity.
    - inv Hi. destruct H1 as [d [E Hd]]. destruct (IH _ H2 Hl) as [u Hu]. exists ((d - 32) + 32 * u). intros r.
      cbn [app vlq_unsigned]. rewrite E. replace (d <? 32) with false by lia. change (last :: r) with ([last] ++ r). rewrite Hu. reflexivity. }
  intros f [init [last [-> [H1 H2]]]]. destruct (U _ _ H1 H2) as [u Hu]. exists (vlq_sign u). intros r.
  unfold vlq_decode. rewrite <- app_assoc, Hu. reflexivity.
Qed.

Lemma shapes_decode : forall fs fuel vs, Forall vlq_shape fs -> vlq_fields fuel (concat fs) = Some vs ->
  Forall2 field_of fs vs.
Proof.
  induction fs as [|f fs IH]; intros fuel vs Hs H.
  - cbn in H. destruct fuel; cbn in H; injection H as <-; constructor.
  - inv Hs. destruct (shape_decode _ H2) as [v Hv]. cbn [concat] in H.
    assert (Hne : f ++ concat fs <> []).
    { destruct H2 as [i [l [-> _]]]. destruct i; discriminate. }
    destruct fuel as [|fuel]; cbn [vlq_fields] in H; (destruct (f ++ concat fs) as [|c s] eqn:E; [contradiction|]); [discriminate|].
    rewrite <- E, Hv in H. destruct (vlq_fields fuel (concat fs)) as [l|] eqn:El; [|discriminate]. injection H as <-.
    constructor; [|eapply IH; eassumption]. specialize (Hv []). rewrite app_nil_r in Hv. exact Hv.
Qed.

Lemma vlq_sign_inj : forall u u', 0 <= u -> 0 <= u' -> u <> 1 -> u' <> 1 -> vlq_sign u = vlq_sign u' -> u = u'.
Proof.
  intros u u' H H' N N' E. unfold vlq_sign in E.
  pose proof (Z.div_mod u 2 ltac:(lia)). pose proof (Z.div_mod u' 2 ltac:(lia)).
  pose proof (Zmod_even u) as M. pose proof (Zmod_even u') as M'.
  destruct (Z.even u), (Z.even u'); lia.
Qed.

Lemma unsigned_same : forall f f' u, vlq_unsigned f = Some (u, []) -> vlq_unsigned f' = Some (u, []) ->
  length f = length f' -> f = f'.
Proof.
  induction f as [|c f IH]; intros [|c' f'] u H H' L; try discriminate.
  cbn [vlq_unsigned] in H, H'. cbn [length] in L. destruct (b64_value c) as [d|] eqn:Ec; [|discriminate]. destruct (b64_value c') as [d'|] eqn:Ec'; [|discriminate].
  pose proof (b64_value_range _ _ Ec). pose proof (b64_value_range _ _ Ec').
  destruct (d <? 32) eqn:Ed.
  - injection H as <- ->. destruct f'; [|discriminate L]. destruct (d' <? 32) eqn:Ed'; [|discriminate H'].
    injection H' as ->. rewrite (b64_value_inj _ _ _ Ec Ec'). reflexivity.
  - destruct (vlq_unsigned f) as [[hi r]|] eqn:Ef; [|discriminate].
    assert (Eu : u = d - 32 + 32 * hi) by congruence. assert (r = []) by congruence. subst r. clear H.
    destruct (d' <? 32) eqn:Ed'; [injection H' as H' ->; destruct f; [discriminate Ef | discriminate L]|].
    destruct (vlq_unsigned f') as [[hi' r']|] eqn:Ef'; [|discriminate].
    assert (Eu' : u = d' - 32 + 32 * hi') by congruence. assert (r' = []) by congruence. subst r'. clear H'.
    assert (d' = d) by lia. assert (hi' = hi) by lia. subst d' hi'.
    rewrite (b64_value_inj _ _ _ Ec Ec'). f_equal. apply (IH f' hi); [reflexivity | exact Ef' | injection L as L; exact L].
Qed.

Lemma field_same : forall f f' v, canonical_field f -> canonical_field f' -> field_of f v -> field_of f' v ->
  length f = length f' -> f = f'.
Proof.
  intros f f' v [_ C] [_ C'] H H' L. unfold field_of, vlq_decode in *.
  destruct (vlq_unsigned f) as [[u r]|] eqn:E; [|discriminate]. destruct (vlq_unsigned f') as [[u' r']|] eqn:E'; [|discriminate].
  injection H as H ->. injection H' as H' ->.
  pose proof (vlq_unsigned_bound _ _ _ E). pose proof (vlq_unsigned_bound _ _ _ E').
  assert (u = u').
  { apply vlq_sign_inj; [lia | lia | intros ->; exact (C eq_refl) | intros ->; exact (C' eq_refl) | congruence]. }
  subst u'. eapply unsigned_same; eassumption.
Qed.

(** ** Segments: the text [t] says the same as [s] in no fewer characters. *)
Definition no_shorter (ok : Prop) (s t : str) : Prop :=
  (length s <= length t)%nat /\ (length t = length s -> ok -> t = s).

Lemma fields_no_shorter : forall fs ft vs, Forall shortest_field fs -> Forall2 field_of fs vs -> Forall2 field_of ft vs ->
  no_shorter (Forall canonical_field ft) (concat fs) (concat ft).
Proof.
  induction fs as [|f fs IH]; intros ft vs Hs H H'.
  - inv H. inv H'. split; [apply le_n | reflexivity].
  - inv Hs. inv H. inv H'. rename x into f'. rename l into ft.
    destruct (IH ft l' H3 H6 H7) as [I1 I2]. destruct H2 as [C Hmin].
    pose proof (Hmin _ _ H4 H5) as M. unfold len in M.
    unfold no_shorter. cbn [concat]. rewrite !app_length. split; [lia|].
    intros L Hc. inv Hc. rewrite I2; [|lia|assumption]. f_equal.
    eapply field_same; try eassumption. lia.
Qed.

Lemma segment_no_shorter : forall s t vs, good_seg shortest_field s -> vlq_decode_all s = Some vs -> vlq_decode_all t = Some vs ->
  no_shorter (good_seg canonical_field t) s t.
Proof.
  intros s t vs [fs [-> [Hf _]]] Hs Ht. unfold vlq_decode_all in *.
  assert (Sh : Forall vlq_shape fs) by (eapply Forall_impl; [|exact Hf]; intros f [[[H _] _] _]; exact H).
  pose proof (shapes_decode _ _ _ Sh Hs) as H1. split.
  - destruct (vlq_fields_split _ _ _ Ht) as [ft [-> H2]].
    exact (proj1 (fields_no_shorter _ _ _ Hf H1 H2)).
  - intros L [ft [-> [Hc _]]].
    assert (Sh' : Forall vlq_shape ft) by (eapply Forall_impl; [|exact Hc]; intros f [[H _] _]; exact H).
    pose proof (shapes_decode _ _ _ Sh' Ht) as H2.
    exact (proj2 (fields_no_shorter _ _ _ Hf H1 H2) L Hc).
Qed.

Lemma decode_segment_same : forall line g r s t m g1 r1 g2 r2,
  decode_segment line g r s = Some (m, g1, r1) -> decode_segment line g r t = Some (m, g2, r2) ->
  g1 = g2 /\ r1 = r2 /\ rm_line m = line /\ exists vs, vlq_decode_all s = Some vs /\ vlq_decode_all t = Some vs.
Proof.
  intros line g r s t m g1 r1 g2 r2 Hs Ht. unfold decode_segment in Hs, Ht.
  destruct (vlq_decode_all s) as [[|a1 [|a2 [|a3 [|a4 [|a5 [|a6 sa]]]]]]|]; try discriminate Hs;
  destruct (vlq_decode_all t) as [[|b1 [|b2 [|b3 [|b4 [|b5 [|b6 sb]]]]]]|]; try discriminate Ht;
  match type of Hs with (if ?c then _ else _) = _ => destruct c; [|discriminate Hs] end;
  match type of Ht with (if ?c then _ else _) = _ => destruct c; [|discriminate Ht] end;
  inversion Hs; subst; cbn [r_source r_line r_column r_name] in Ht; inversion Ht; subst; cbn [rm_line];
  repeat match goal with H : ?g + ?x = ?g + ?y |- _ => apply Z.add_reg_l in H; subst end;
  (split; [reflexivity|]; split; [reflexivity|]; split; [reflexivity|]; eexists; split; reflexivity).
Qed.

Lemma decode_segments_same : forall ss tt line g r ms r1 r2,
  decode_segments line g r ss = Some (ms, r1) -> decode_segments line g r tt = Some (ms, r2) ->
  r1 = r2 /\ Forall2 (fun s t => exists vs, vlq_decode_all s = Some vs /\ vlq_decode_all t = Some vs) ss tt.
Proof.
  induction ss as [|s ss IH]; intros [|t tt] line g r ms r1 r2 Hs Ht; cbn [decode_segments] in Hs, Ht.
  - injection Hs as <- <-. injection Ht as <-. split; [reflexivity | constructor].
  - injection Hs as <- <-. destruct (decode_segment line g r t) as [[[m g'] r']|]; [|discriminate].
    destruct (decode_segments line g' r' tt) as [[? ?]|]; discriminate.
  - injection Ht as <- <-. destruct (decode_segment line g r s) as [[[m g'] r']|]; [|discriminate].
    destruct (decode_segments line g' r' ss) as [[? ?]|]; discriminate.
  - destruct (decode_segment line g r s) as [[[m g1] q1]|] eqn:E1; [|discriminate].
    destruct (decode_segments line g1 q1 ss) as [[ms1 p1]|] eqn:F1; [|discriminate]. injection Hs as <- <-.
    destruct (decode_segment line g r t) as [[[m' g2] q2]|] eqn:E2; [|discriminate].
    destruct (decode_segments line g2 q2 tt) as [[ms2 p2]|] eqn:F2; [|discriminate]. injection Ht as -> -> <-.
    destruct (decode_segment_same _ _ _ _ _ _ _ _ _ _ E1 E2) as [-> [-> [_ Hv]]].
    destruct (IH _ _ _ _ _ _ _ F1 F2) as [-> H]. split; [reflexivity | constructor; assumption].
Qed.

Lemma decode_segments_line : forall ss line g r ms r1, decode_segments line g r ss = Some (ms, r1) ->
  Forall (fun m => rm_line m = line) ms /\ length ms = length ss.
Proof.
  induction ss as [|s ss IH]; intros line g r ms r1 H; cbn [decode_segments] in H.
  - injection H as <- <-. split; [constructor | reflexivity].
  - destruct (decode_segment line g r s) as [[[m g1] q1]|] eqn:E1; [|discriminate].
    destruct (decode_segments line g1 q1 ss) as [[ms1 p1]|] eqn:F1; [|discriminate]. injection H as <- <-.
    destruct (decode_segment_same _ _ _ _ _ _ _ _ _ _ E1 E1) as [_ [_ [E _]]]. destruct (IH _ _ _ _ _ F1) as [H1 H2].
    split; [constructor; assumption | cbn; congruence].
Qed.

(** ** Lines *)
Fixpoint total (l : list str) : nat := match l with [] => 0 | x :: l => S (length x) + total l end.

Lemma split_on_total : forall c s, S (length s) = total (split_on c s).
Proof.
  intros c. induction s as [|x s IH]; [reflexivity|]. cbn [split_on]. destruct (N.eqb x c).
  - cbn. rewrite IH. lia.
  - destruct (split_on_cons c s) as [h [t E]]. rewrite E in *. cbn [total length] in *. lia.
Qed.

Lemma split_on_inj : forall c s t, split_on c s = split_on c t -> s = t.
Proof.
  intros c. induction s as [|x s IH]; intros [|y t] E; [reflexivity| | |].
  - cbn [split_on] in E. destruct (N.eqb y c).
    + destruct (split_on_cons c t) as [h [tl Et]]. rewrite Et in E. discriminate.
    + destruct (split_on_cons c t) as [h [tl Et]]. rewrite Et in E. discriminate.
  - cbn [split_on] in E. destruct (N.eqb x c).
    + destruct (split_on_cons c s) as [h [tl Et]]. rewrite Et in E. discriminate.
    + destruct (split_on_cons c s) as [h [tl Et]]. rewrite Et in E. discriminate.
  - cbn [split_on] in E. destruct (split_on_cons c s) as [h [tl Es]]. destruct (split_on_cons c t) as [h' [tl' Et]].
    rewrite Es, Et in *.
    destruct (N.eqb x c) eqn:Ex, (N.eqb y c) eqn:Ey; try discriminate.
    + apply N.eqb_eq in Ex, Ey. subst. f_equal. apply IH. rewrite Et. congruence.
    + injection E as -> E1 E2. f_equal. apply IH. rewrite Et. congruence.
Qed.

Lemma list_no_shorter : forall (ok : str -> Prop) ss tt, Forall2 (fun s t => no_shorter (ok t) s t) ss tt ->
  (total ss <= total tt)%nat /\ (total tt = total ss -> Forall ok tt -> tt = ss).
Proof.
  intros ok ss tt H. induction H as [|s t ss tt [H1 H2] _ [I1 I2]]; [split; [apply le_n | reflexivity]|].
  cbn [total]. split; [lia|]. intros E Hok. inv Hok. rewrite H2 by (try assumption; lia). rewrite I2 by (try assumption; lia). reflexivity.
Qed.

Lemma line_no_shorter : forall line r s t ms r1 r2, good_line shortest_field s ->
  decode_line line r s = Some (ms, r1) -> decode_line line r t = Some (ms, r2) ->
  r1 = r2 /\ no_shorter (good_line canonical_field t) s t.
Proof.
  intros line r s t ms r1 r2 Hg Hs Ht. unfold decode_line in Hs, Ht.
  assert (Hnil : forall u x, decode_segments line 0 r (split_on (ch ",") u) = Some ([], x) -> False).
  { intros u x H. destruct (split_on_cons (ch ",") u) as [h [tl E]]. rewrite E in H.
    apply decode_segments_line in H. destruct H as [_ H]. discriminate. }
  destruct s as [|c s].
  - injection Hs as <- <-. destruct t as [|c' t]; [|exfalso; exact (Hnil _ _ Ht)].
    injection Ht as <-. split; [reflexivity|]. split; [apply le_n | reflexivity].
  - destruct t as [|c' t]; [injection Ht as <- <-; exfalso; exact (Hnil _ _ Hs)|].
    destruct (decode_segments_same _ _ _ _ _ _ _ _ Hs Ht) as [-> H]. split; [reflexivity|].
    destruct Hg as [Hg|Hg]; [discriminate|].
    assert (H' : Forall2 (fun s t => no_shorter (good_seg canonical_field t) s t) (split_on (ch ",") (c :: s)) (split_on (ch ",") (c' :: t))).
    { clear Hs Ht. revert Hg. induction H as [|x y l l' [vs [V1 V2]] _ IH]; intros Hg; [constructor|]. inv Hg.
      constructor; [exact (segment_no_shorter _ _ _ H1 V1 V2) | apply IH; assumption]. }
    destruct (list_no_shorter _ _ _ H') as [I1 I2].
    pose proof (split_on_total (ch ",") (c :: s)) as T1. pose proof (split_on_total (ch ",") (c' :: t)) as T2.
    split; [lia|]. intros L [X|Hok]; [discriminate|]. apply (split_on_inj (ch ",")). apply I2; [lia | exact Hok].
Qed.

Lemma decode_line_line : forall line r s ms r1, decode_line line r s = Some (ms, r1) -> Forall (fun m => rm_line m = line) ms.
Proof.
  intros line r s ms r1 H. unfold decode_line in H. destruct s; [injection H as <- <-; constructor|].
  apply decode_segments_line in H. apply H.
Qed.

Lemma decode_lines_range : forall ls line r ms, decode_lines line r ls = Some ms ->
  Forall (fun m => line <= rm_line m < line + len ls) ms.
Proof.
  induction ls as [|s ls IH]; intros line r ms H; cbn [decode_lines] in H; [injection H as <-; constructor|].
  destruct (decode_line line r s) as [[m1 r1]|] eqn:E; [|discriminate].
  destruct (decode_lines (line + 1) r1 ls) as [rest|] eqn:F; [|discriminate]. injection H as <-.
  rewrite len_cons. apply Forall_app. split.
  - eapply Forall_impl; [|exact (decode_line_line _ _ _ _ _ E)]. cbn beta. intros m ->. pose proof (len_nonneg _ ls). lia.
  - eapply Forall_impl; [|exact (IH _ _ _ F)]. cbn beta. intros m Hm. lia.
Qed.

Lemma split_by_line : forall (line : Z) (a b a' b' : list RawMapping), Forall (fun m => rm_line m = line) a ->
  Forall (fun m => rm_line m = line) a' -> Forall (fun m => line < rm_line m) b -> Forall (fun m => line < rm_line m) b' ->
  a ++ b = a' ++ b' -> a = a' /\ b = b'.
Proof.
  intros line. induction a as [|x a IH]; intros b [|x' a'] b' Ha Ha' Hb Hb' E; cbn in E.
  - auto.
  - subst b. inv Ha'. inv Hb. lia.
  - subst b'. inv Ha. inv Hb'. lia.
  - injection E as <- E. inv Ha. inv Ha'. destruct (IH b a' b') as [-> ->]; auto.
Qed.

Lemma decode_lines_same : forall ls lt line r ms, decode_lines line r ls = Some ms -> decode_lines line r lt = Some ms ->
  Forall (good_line shortest_field) ls -> (length ls <= length lt)%nat ->
  (total ls <= total lt)%nat /\ (total lt = total ls -> Forall (good_line canonical_field) lt -> lt = ls).
Proof.
  induction ls as [|s ls IH]; intros lt line r ms Hs Ht Hg Hl.
  - split; [apply Nat.le_0_l|]. intros E _. destruct lt; [reflexivity | discriminate].
  - destruct lt as [|t lt]; [cbn in Hl; lia|]. cbn [decode_lines] in Hs, Ht. inv Hg.
    destruct (decode_line line r s) as [[m1 r1]|] eqn:E1; [|discriminate].
    destruct (decode_lines (line + 1) r1 ls) as [n1|] eqn:F1; [|discriminate]. injection Hs as <-.
    destruct (decode_line line r t) as [[m2 r2]|] eqn:E2; [|discriminate].
    destruct (decode_lines (line + 1) r2 lt) as [n2|] eqn:F2; [|discriminate]. injection Ht as Ht.
    assert (R : forall l q n, decode_lines (line + 1) q l = Some n -> Forall (fun m => line < rm_line m) n).
    { intros l q n H. eapply Forall_impl; [|exact (decode_lines_range _ _ _ _ H)]. cbn beta. intros; lia. }
    destruct (split_by_line line _ _ _ _ (decode_line_line _ _ _ _ _ E2) (decode_line_line _ _ _ _ _ E1) (R _ _ _ F2) (R _ _ _ F1) Ht) as [-> ->].
    destruct (line_no_shorter _ _ _ _ _ _ _ H1 E1 E2) as [-> [N1 N2]].
    cbn in Hl. destruct (IH lt (line + 1) r2 n1 F1 F2 H2 ltac:(lia)) as [I1 I2].
    cbn [total]. split; [lia|]. intros E Hok. inv Hok. rewrite N2 by (try assumption; lia). rewrite I2 by (try assumption; lia). reflexivity.
Qed.

Lemma count_split : forall c s, len (split_on c s) = Z.of_nat (count_occ N.eq_dec s c) + 1.
Proof.
  intros c. induction s as [|x s IH]; [reflexivity|]. cbn [split_on count_occ]. destruct (N.eqb x c) eqn:E.
  - apply N.eqb_eq in E. subst x. destruct (N.eq_dec c c) as [_|N]; [|contradiction]. rewrite len_cons. unfold str in *. lia.
  - apply N.eqb_neq in E. destruct (N.eq_dec x c) as [X|_]; [contradiction|].
    destruct (split_on_cons c s) as [h [t Es]]. rewrite Es in *. rewrite len_cons in *. unfold str in *. lia.
Qed.

(** No text that is read the same way is shorter. *)
Lemma text_shortest : forall s ms, good_text shortest_field s -> decode_mappings s = Some ms ->
  (count_occ N.eq_dec s (ch ";") = 0%nat \/ exists m, In m ms /\ rm_line m = Z.of_nat (count_occ N.eq_dec s (ch ";"))) ->
  forall t, decode_mappings t = Some ms ->
  len s <= len t /\ (len t = len s -> good_text canonical_field t -> t = s).
Proof.
  intros s ms Hg Hs Hn t Ht. unfold decode_mappings, good_text in *.
  pose proof (count_split (ch ";") s) as C1. pose proof (count_split (ch ";") t) as C2.
  assert (L : (length (split_on (ch ";") s) <= length (split_on (ch ";") t))%nat).
  { unfold len in C1, C2. destruct Hn as [Hn|[m [Hm Hn]]]; [lia|].
    pose proof (decode_lines_range _ _ _ _ Ht) as R. rewrite Forall_forall in R. specialize (R _ Hm). unfold len in R. lia. }
  destruct (decode_lines_same _ _ _ _ _ Hs Ht Hg L) as [I1 I2].
  pose proof (split_on_total (ch ";") s) as T1. pose proof (split_on_total (ch ";") t) as T2. unfold len.
  split; [lia|]. intros E Hok. apply (split_on_inj (ch ";")). apply I2; [lia | exact Hok].
Qed.

(** ** Generated texts *)
Lemma generated_shortest : forall md U file root skip ops g j g',
  Forall valid_mapping (added_mappings ops) -> steps_fit ops ->
  few_names (2^30) (added_mappings ops) ->
  gen_run md U (gen_new file root skip) ops = Ok g -> gen_as_json md U g = Ok (j, g') ->
  exists s ms, smj_mappings j = Some s /\ decode_mappings s = Some ms /\ good_text canonical_field s
    /\ forall t, decode_mappings t = Some ms ->
       len s <= len t /\ (len t = len s -> good_text canonical_field t -> t = s).
Proof.
  intros md U file root skip ops g j g' H1 H2 H3 Eg Ej.
  destruct (shortest_any_root md U file root skip ops g j g' (conj H1 (conj H2 H3)) Eg Ej)
    as [s [ms [r [Es [Hg [[n [Hn Hc]] [_ [Ed [Er Hin]]]]]]]]].
  exists s, ms. split; [exact Es|]. split; [exact Ed|]. split.
  { eapply good_text_impl; [|exact Hg]. intros t [H _]. exact H. }
  apply text_shortest; try assumption.
  destruct Hn as [_ [[_ ->]|[m [Hm Hl]]]]; [left; lia|]. right.
  destruct (has_raw _ _ _ _ _ Er Hin m Hm) as [a [Ha Hst]]. exists a. split; [exact Ha|].
  apply stands_generated in Hst. rewrite Hst in Hl. cbn [p_line] in Hl. lia.
Qed.

(** ** The size, for any text that is written *)
Lemma encode_size : forall md v s, -2147483648 <= v <= 2147483647 -> base64vlq_encode md v = Ok s -> (length s <= 7)%nat.
Proof.
  intros md v s Hv E. destruct (Z.eq_dec v (-2147483648)) as [->|Hn].
  - destruct md; vm_compute in E; [discriminate E|]. injection E as <-. cbn. lia.
  - destruct (encode_good md v) as [s' [E' [[_ L] _]]]; [lia|]. rewrite E' in E. injection E as <-. unfold len in L. lia.
Qed.

Lemma sub_encode_size : forall md a b d s, i32_sub md a b = Ok d -> base64vlq_encode md d = Ok s -> (length s <= 7)%nat.
Proof. intros md a b d s H E. apply (encode_size md d s); [eapply checked_i32_range; exact H | exact E]. Qed.

Ltac sizes := repeat match goal with A : i32_sub _ _ _ = Ok ?d, B : base64vlq_encode _ ?d = Ok _ |- _ =>
  apply (sub_encode_size _ _ _ _ _ A) in B end.

Lemma ser_segment_size : forall md S N m st seg st', ser_segment md S N m st = Ok (seg, st') -> (length seg <= 35)%nat.
Proof.
  intros md S N m st seg st' H. unfold ser_segment in H. bind_inv H. bind_inv H. bind_inv H. destruct x1 as [t st1]. inv H.
  sizes. rewrite app_length. enough (length t <= 28)%nat by lia.
  unfold ser_tail in H2. destruct (m_source m) as [src|]; [|inv H2; cbn; lia].
  bind_inv H2. bind_inv H2. bind_inv H2. bind_inv H2. bind_inv H2. bind_inv H2. bind_inv H2. bind_inv H2. bind_inv H2.
  destruct (m_name m) as [nm|].
  - bind_inv H2. bind_inv H2. bind_inv H2. sizes. inv H2. rewrite !app_length. lia.
  - sizes. inv H2. rewrite !app_length. lia.
Qed.

Definition others (s : str) : nat := length (filter (fun c => negb (N.eqb c (ch ";"))) s).
Lemma others_app : forall a b, others (a ++ b) = (others a + others b)%nat.
Proof. intros a b. unfold others. rewrite filter_app, app_length. reflexivity. Qed.
Lemma others_length : forall s, (others s <= length s)%nat.
Proof. induction s as [|c s IH]; unfold others in *; cbn [filter length]; [lia|]. destruct (negb _); cbn [length]; lia. Qed.
Lemma others_count : forall s, length s = (count_occ N.eq_dec s (ch ";") + others s)%nat.
Proof.
  induction s as [|c s IH]; [reflexivity|]. unfold others in *. cbn [length count_occ filter].
  destruct (N.eq_dec c (ch ";")) as [->|Hn]; [rewrite N.eqb_refl; cbn [negb]; lia|].
  apply N.eqb_neq in Hn. rewrite Hn. cbn [negb length]. lia.
Qed.
Lemma semicolons_others : forall md fuel line prev next r, semicolon_loop md fuel line prev next = Ok r -> others (fst r) = others next.
Proof.
  intros md. induction fuel as [|fuel IH]; intros line prev next r H; cbn [semicolon_loop] in H; destruct (line =? prev).
  - inv H. reflexivity.
  - discriminate.
  - inv H. reflexivity.
  - bind_inv H. apply IH in H. rewrite H, others_app. change (others (lit ";")) with 0%nat. lia.
Qed.
Lemma ser_loop_others : forall md S N ms prev st result s, ser_loop md S N prev ms st result = Ok s ->
  (others s <= others result + 36 * length ms)%nat.
Proof.
  intros md S N. induction ms as [|m ms IH]; intros prev st result s H; cbn [ser_loop] in H; [inv H; cbn; lia|].
  cbn [length]. destruct (negb (p_line (m_generated m) =? ss_generated_line st)).
  - bind_inv H. destruct x as [next line]. bind_inv H. destruct x as [seg st']. apply semicolons_others in H0. cbn [fst] in H0.
    apply ser_segment_size in H1. pose proof (others_length seg). apply IH in H. rewrite !others_app in H. change (others []) with 0%nat in H0. lia.
  - destruct prev as [p|].
    + bind_inv H. destruct (x =? 0); [apply IH in H; lia|]. bind_inv H. destruct x0 as [seg st']. apply ser_segment_size in H1.
      pose proof (others_length seg). apply IH in H. rewrite !others_app in H. change (others (lit ",")) with 1%nat in H. lia.
    + bind_inv H. destruct x as [seg st']. apply ser_segment_size in H0. pose proof (others_length seg). apply IH in H. rewrite !others_app in H. lia.
Qed.

Lemma generated_size : forall md U file root skip ops g j g',
  Forall encodable (added_mappings ops) -> few_names 2147483648 (added_mappings ops) ->
  gen_run md U (gen_new file root skip) ops = Ok g -> gen_as_json md U g = Ok (j, g') ->
  exists s n, smj_mappings j = Some s /\ is_last_line (added_mappings ops) n
    /\ len s <= n - 1 + 36 * len (added_mappings ops).
Proof.
  intros md U file root skip ops g j g' H1 H2 Eg Ej.
  destruct (structure_any_root md U file root skip ops g j g' H1 H2 Eg Ej) as [s [n [Es [Hn [Hc _]]]]].
  exists s, n. split; [exact Es|]. split; [exact Hn|].
  pose proof (others_count s) as T.
  enough (others s <= 36 * length (added_mappings ops))%nat by (unfold len, str, char in *; lia).
  pose proof (list_run _ _ _ _ _ Eg) as El. cbn [gen_new g_mappings] in El.
  destruct (as_json_inv _ _ _ _ _ Ej) as [a [ml' [s' [sc [Ea [Hs [_ [-> _]]]]]]]]. cbn [smj_mappings] in Es. injection Es as ->.
  destruct (to_array_sorted_permutation_wf md (list_ops ops)) as [l2 [a2 [l2' [Q1 [Q2 [Q3 _]]]]]].
  { rewrite added_list_ops. eapply Forall_impl; [|exact H1]. intros m Hm. apply Hm. }
  rewrite El in Q1. injection Q1 as <-. rewrite Ea in Q2. injection Q2 as <- <-.
  rewrite added_list_ops in Q3. apply Permutation_length in Q3. rewrite Q3.
  apply ser_loop_others in Hs. change (others []) with 0%nat in Hs. lia.
Qed.

(** ** The text is determined by what is read. *)
Lemma lookup_inj : forall l i k s, NoDup l -> lookup l i = Some s -> lookup l k = Some s -> i = k.
Proof.
  intros l i k s Hn Hi Hk. unfold lookup in *. destruct (i <? 0) eqn:Ei, (k <? 0) eqn:Ek; try discriminate.
  assert (Z.to_nat i = Z.to_nat k); [|lia]. apply (proj1 (NoDup_nth_error l) Hn); [apply nth_error_Some; congruence | congruence].
Qed.

Lemma resolve_mapping_inj : forall S N a b m, NoDup S -> NoDup N -> rm_last_column a = None -> rm_last_column b = None ->
  resolve_mapping S N a = Some m -> resolve_mapping S N b = Some m -> a = b.
Proof.
  intros S N [l1 c1 e1 o1] [l2 c2 e2 o2] m HS HN E1 E2 Ha Hb. cbn in E1, E2. subst e1 e2. unfold resolve_mapping in *. cbn [rm_line rm_column rm_original] in *.
  destruct o1 as [[s1 ol1 oc1 n1]|], o2 as [[s2 ol2 oc2 n2]|]; cbn [ol_source ol_line ol_column ol_name] in *.
  - destruct (lookup S s1) as [x1|] eqn:L1; [|discriminate]. destruct (lookup S s2) as [x2|] eqn:L2; [|discriminate].
    destruct n1 as [n1|], n2 as [n2|].
    + destruct (lookup N n1) as [y1|] eqn:M1; [|discriminate]. destruct (lookup N n2) as [y2|] eqn:M2; [|discriminate].
      injection Ha as <-. injection Hb as X1 X2 X3 X4 X5 X6. subst x2 y2.
      rewrite (lookup_inj _ _ _ _ HS L1 L2), (lookup_inj _ _ _ _ HN M1 M2). repeat f_equal; lia.
    + destruct (lookup N n1); [|discriminate]. injection Ha as <-. discriminate Hb.
    + destruct (lookup N n2); [|discriminate]. injection Ha as <-. discriminate Hb.
    + injection Ha as <-. injection Hb as X1 X2 X3 X4 X5. subst x2. rewrite (lookup_inj _ _ _ _ HS L1 L2). repeat f_equal; lia.
  - destruct (lookup S s1); [|discriminate]. injection Hb as <-. destruct n1; [destruct (lookup N _); discriminate | discriminate].
  - destruct (lookup S s2); [|discriminate]. injection Ha as <-. destruct n2; [destruct (lookup N _); discriminate | discriminate].
  - injection Ha as <-. injection Hb as X1 X2. f_equal; lia.
Qed.

Lemma resolve_inj : forall S N a b r, NoDup S -> NoDup N ->
  Forall (fun m => rm_last_column m = None) a -> Forall (fun m => rm_last_column m = None) b ->
  resolve S N a = Some r -> resolve S N b = Some r -> a = b.
Proof.
  intros S N a b r HS HN Ha Hb Ea Eb. unfold resolve in *. apply all_some_Forall2 in Ea, Eb.
  revert a b Ha Hb Ea Eb. induction r as [|m r IH]; intros [|x a] [|y b] Ha Hb Ea Eb; try discriminate; [reflexivity|].
  inv Ha. inv Hb. injection Ea as Ex Ea. injection Eb as Ey Eb. f_equal; [|apply IH; assumption].
  exact (resolve_mapping_inj _ _ _ _ _ HS HN H1 H3 Ex Ey).
Qed.

Lemma text_determined : forall md U file root skip ops g j g' md' U' file' root' skip' ops' h k h',
  Forall valid_mapping (added_mappings ops) -> steps_fit ops ->
  few_names (2^30) (added_mappings ops) ->
  gen_run md U (gen_new file root skip) ops = Ok g -> gen_as_json md U g = Ok (j, g') ->
  Forall valid_mapping (added_mappings ops') -> steps_fit ops' ->
  few_names (2^30) (added_mappings ops') ->
  gen_run md' U' (gen_new file' root' skip') ops' = Ok h -> gen_as_json md' U' h = Ok (k, h') ->
  smj_sources j = smj_sources k -> smj_names j = smj_names k -> read_json j = read_json k ->
  smj_mappings j = smj_mappings k.
Proof.
  intros md U file root skip ops g j g' md' U' file' root' skip' ops' h k h' H1 H2 H3 Eg Ej K1 K2 K3 Eh Ek Es En Er.
  destruct (generated_shortest md U file root skip ops g j g' H1 H2 H3 Eg Ej) as [s [ms [A1 [A2 [A3 A4]]]]].
  destruct (generated_shortest md' U' file' root' skip' ops' h k h' K1 K2 K3 Eh Ek) as [t [mt [B1 [B2 [B3 B4]]]]].
  destruct (generate_arrays md U file root skip ops g j g' Eg Ej) as [_ [Esrc [Enm _]]].
  destruct (shortest_any_root md U file root skip ops g j g' (conj H1 (conj H2 H3)) Eg Ej)
    as [s' [ms' [r [Es' [_ [_ [_ [Ed [Er' _]]]]]]]]].
  rewrite A1 in Es'. injection Es' as <-. rewrite A2 in Ed. injection Ed as <-.
  assert (E : mt = ms).
  { unfold read_json in Er. rewrite <- Es, <- En, Esrc, Enm, A1, A2, B1, B2, Er' in Er.
    eapply resolve_inj; [| | | |symmetry; exact Er | exact Er'].
    - apply distinct_NoDup.
    - apply distinct_NoDup.
    - eapply decode_no_last; exact B2.
    - eapply decode_no_last; exact A2. }
  subst mt. destruct (A4 _ B2) as [L1 S1]. destruct (B4 _ A2) as [L2 S2]. rewrite A1, B1. f_equal. symmetry. apply S1; [lia | exact B3].
Qed.

(** * JSON: the printer follows the grammar, the field rules, the round trip *)
From Verif Require Import Base F_Base M_Util M_Mapping M_SourceMap M_Json S_Json F_Dec F_JsonText.

(** ** Induction on JSON values and on maps *)
Section JsonInd.
  Context (P : json -> Prop)
    (Hnull : P JNull) (Hbool : forall b, P (JBool b)) (Hint : forall z, P (JInt z)) (Hfloat : P JFloat)
    (Hstr : forall s, P (JStr s)) (Hbad : P JBadStr) (Harr : forall l, Forall P l -> P (JArr l))
    (Hobj : forall m, Forall (fun kv => P (snd kv)) m -> P (JObj m)).
  Fixpoint json_ind' (v : json) : P v :=
    match v with
    | JNull => Hnull
    | JBool b => Hbool b
    | JInt z => Hint z
    | JFloat => Hfloat
    | JStr s => Hstr s
    | JBadStr => Hbad
    | JArr l => Harr l ((fix go l := match l return Forall P l with
                          | [] => Forall_nil _
                          | x :: l' => Forall_cons x (json_ind' x) (go l')
                          end) l)
    | JObj m => Hobj m ((fix go m := match m return Forall (fun kv => P (snd kv)) m with
                          | [] => Forall_nil _
                          | x :: m' => Forall_cons x (json_ind' (snd x)) (go m')
                          end) m)
    end.
End JsonInd.

Section MapInd.
  Context (P : SourceMapJson -> Prop) (Q : JSection -> Prop)
    (HP : forall v s n m f r c secs, (forall l, secs = Some l -> Forall Q l) -> P (mkSMJ v s n m f r c secs))
    (HQ : forall o m u, P m -> Q (mkJSection o m u)).
  Fixpoint map_ind' (m : SourceMapJson) : P m :=
    match m with
    | mkSMJ v s n mm f r c secs =>
        HP v s n mm f r c secs
          (match secs as o return forall l, o = Some l -> Forall Q l with
           | None => fun l E => match E in _ = y return match y with None => True | Some l => Forall Q l end
                                with eq_refl => I end
           | Some l0 => fun l E =>
               match E in _ = y return match y with None => True | Some l => Forall Q l end with
               | eq_refl => (fix go l := match l return Forall Q l with
                              | [] => Forall_nil _
                              | x :: l' => Forall_cons x (sec_ind' x) (go l')
                              end) l0
               end
           end)
    end
  with sec_ind' (s : JSection) : Q s :=
    match s with mkJSection o m u => HQ o m u (map_ind' m) end.
End MapInd.

(** ** The printer *)
Lemma hex_digit_hex : forall n, (n < 16)%N -> hex (hex_digit n) n.
Proof.
  intros n H. unfold hex_digit, hex. destruct (n <? 10)%N eqn:E.
  - left. exists n. lia.
  - right. exists (n - 10)%N. lia.
Qed.

Lemma escape_text : forall c s t, string_text s t -> string_text (c :: s) (escape_char c ++ t).
Proof.
  intros c s t H. unfold escape_char.
  destruct (N.eqb_spec c 34) as [->|]; [apply st_escape; [cbn; tauto|exact H]|].
  destruct (N.eqb_spec c 92) as [->|]; [apply st_escape; [cbn; tauto|exact H]|].
  destruct (N.eqb_spec c 8) as [->|]; [apply st_escape; [cbn; tauto|exact H]|].
  destruct (N.eqb_spec c 9) as [->|]; [apply st_escape; [cbn; tauto|exact H]|].
  destruct (N.eqb_spec c 10) as [->|]; [apply st_escape; [cbn; tauto|exact H]|].
  destruct (N.eqb_spec c 12) as [->|]; [apply st_escape; [cbn; tauto|exact H]|].
  destruct (N.eqb_spec c 13) as [->|]; [apply st_escape; [cbn; tauto|exact H]|].
  destruct (c <? 32)%N eqn:E.
  - unfold char in *.
    apply (st_unicode [48%N; 48%N; hex_digit (c / 16); hex_digit (c mod 16)] c s t); [|lia|exact H].
    exists 48%N, 48%N, (hex_digit (c / 16)), (hex_digit (c mod 16)), 0%N, 0%N, (c / 16)%N, (c mod 16)%N.
    split; [reflexivity|].
    split; [left; exists 0%N; split; [lia|split; reflexivity]|].
    split; [left; exists 0%N; split; [lia|split; reflexivity]|].
    assert (c mod 16 < 16)%N by (apply N.mod_lt; lia).
    assert (c / 16 < 16)%N by (apply N.div_lt_upper_bound; lia).
    pose proof (N.div_mod c 16 ltac:(lia)) as D.
    generalize dependent (c / 16)%N. generalize dependent (c mod 16)%N. intros y Hy x Hx D.
    split; [apply hex_digit_hex; lia|]. split; [apply hex_digit_hex; lia|]. lia.
  - apply st_plain; unfold char in *; try lia. exact H.
Qed.

Lemma print_str_text : forall s, exists t, print_str s = quoted t /\ string_text s t.
Proof.
  intros s. exists (concat (map escape_char s)). split; [reflexivity|].
  induction s as [|c s IH]; [constructor|]. cbn. apply escape_text. exact IH.
Qed.

Lemma dec_int_part : forall n, int_part (dec_str n) (Z.of_N n).
Proof.
  intros n. split.
  - apply digits_iff. split; [apply dec_str_digits|apply dec_str_val].
  - apply dec_str_no_zero.
Qed.

Lemma print_int_text : forall z, number_text (JInt z) (print_int z).
Proof.
  intros z. unfold print_int. destruct (z <? 0) eqn:E.
  - replace (JInt z) with (JInt (- (Z.of_N (Z.to_N (- z))))) by (f_equal; lia).
    apply num_neg; [apply dec_int_part|lia].
  - replace (JInt z) with (JInt (Z.of_N (Z.to_N z))) by (f_equal; lia).
    apply num_pos. apply dec_int_part.
Qed.

(** no float inside, all strings and keys readable *)
Inductive no_float : json -> Prop :=
| nf_null : no_float JNull
| nf_bool : forall b, no_float (JBool b)
| nf_int : forall z, no_float (JInt z)
| nf_str : forall s, no_float (JStr s)
| nf_arr : forall l, Forall no_float l -> no_float (JArr l)
| nf_obj : forall m, Forall (fun kv => fst kv <> None) m ->
    Forall (fun kv => no_float (snd kv)) m -> no_float (JObj m).

Lemma join_cons2 : forall sep (a b : str) l, join_str sep (a :: b :: l) = a ++ sep ++ join_str sep (b :: l).
Proof. reflexivity. Qed.

Lemma white_nil : white [].
Proof. constructor. Qed.

Lemma print_elements : forall l v, Forall (fun v => json_text v (print_json v)) (v :: l) ->
  elements_text (v :: l) (join_str (lit ",") (map print_json (v :: l))).
Proof.
  induction l as [|v' l IH]; intros v H; inv H.
  - cbn [map join_str]. rewrite <- (app_nil_r (print_json v)).
    apply (et_one v [] (print_json v) []); auto using white_nil.
  - cbn [map]. rewrite join_cons2.
    apply (et_more v (v' :: l) [] (print_json v) []); auto using white_nil.
    apply IH. assumption.
Qed.

Lemma print_key_text : forall k, k <> None -> exists t, print_key k = quoted t /\ key_text k t.
Proof. intros [s|] H; [apply print_str_text|congruence]. Qed.

Lemma print_members : forall m k v, Forall (fun kv => fst kv <> None) ((k, v) :: m) ->
  Forall (fun kv => json_text (snd kv) (print_json (snd kv))) ((k, v) :: m) ->
  members_text ((k, v) :: m)
    (join_str (lit ",") (map (fun kv => print_key (fst kv) ++ lit ":" ++ print_json (snd kv)) ((k, v) :: m))).
Proof.
  induction m as [|[k' v'] m IH]; intros k v N H; inv H; inv N; cbn [fst snd] in *.
  - cbn [map join_str fst snd]. destruct (print_key_text k) as [kt [-> Hk]]; [assumption|].
    pose proof (mt_one k kt v (print_json v) [] [] [] []) as M. cbn [app] in M.
    rewrite app_nil_r in M. apply M; auto using white_nil.
  - cbn [map]. rewrite join_cons2. cbn [fst snd]. destruct (print_key_text k) as [kt [-> Hk]]; [assumption|].
    pose proof (mt_more k kt v ((k', v') :: m) (print_json v)
      (join_str (lit ",") (map (fun kv => print_key (fst kv) ++ lit ":" ++ print_json (snd kv)) ((k', v') :: m)))
      [] [] [] []) as M. cbn [app] in M.
    rewrite <- !app_assoc. apply M; auto using white_nil.
Qed.

Lemma print_json_text : forall v, no_float v -> json_text v (print_json v).
Proof.
  induction v as [|b|z| |s| |l IH|m IH] using json_ind'; intros N; inv N.
  - constructor.
  - destruct b; constructor.
  - constructor. apply print_int_text.
  - cbn [print_json]. destruct (print_str_text s) as [t [-> H]]. apply jt_string. exact H.
  - cbn [print_json]. destruct l as [|v l]; [apply (jt_array_nil []); constructor|].
    apply jt_array. apply print_elements.
    rewrite Forall_forall in *. intros x Hx. apply IH; auto.
  - cbn [print_json]. destruct m as [|[k v] m]; [apply (jt_object_nil []); constructor|].
    apply jt_object. apply print_members; [assumption|].
    rewrite Forall_forall in *. intros x Hx. apply IH; auto.
Qed.

Lemma print_parse : forall v, no_float v -> parse_json (print_json v) = Some v.
Proof.
  intros v H. apply parse_json_iff. exists [], (print_json v), [].
  split; [constructor|]. split; [constructor|]. split; [apply print_json_text; exact H|].
  rewrite app_nil_r. reflexivity.
Qed.

(** ** Field rules *)
Lemma member_absent : forall k m, Forall (fun kv => fst kv <> None) m ->
  ~ In (Some k) (map fst m) -> member k m = Some None.
Proof.
  induction m as [|[[k'|] v] m IH]; intros N H; cbn; [reflexivity| |inv N; cbn in *; congruence].
  inv N. cbn in H. rewrite (proj2 (str_eqb_neq _ _)) by (intro; subst; tauto). apply IH; tauto.
Qed.

Lemma member_keys : forall k m o, member k m = Some o -> Forall (fun kv => fst kv <> None) m.
Proof.
  induction m as [|[[k'|] v] m IH]; intros o H; cbn in H; [constructor| |discriminate].
  constructor; [discriminate|]. destruct (str_eqb k k').
  - destruct (member k m) as [[x|]|]; try discriminate. eapply IH. reflexivity.
  - eapply IH. exact H.
Qed.

Lemma member_iff : forall k m o, Forall (fun kv => fst kv <> None) m ->
  member (lit k) m = Some o <-> object_field m k o.
Proof.
  intros k m o N. split.
  - clear N. revert o. induction m as [|[[k'|] v] m IH]; intros o H; cbn in H; [| |discriminate].
    + inv H. cbn. tauto.
    + destruct (str_eqb (lit k) k') eqn:E.
      * apply str_eqb_eq in E. subst k'.
        destruct (member (lit k) m) as [[x|]|] eqn:Em; try discriminate. inv H.
        specialize (IH None eq_refl). cbn in IH. exists [], m. split; [reflexivity|exact IH].
      * assert (Nk : lit k <> k') by (intro Hk; rewrite <- str_eqb_eq in Hk; congruence).
        specialize (IH o H). destruct o as [x|]; cbn in *.
        -- destruct IH as [a [b [-> Hn]]]. exists ((Some k', v) :: a), b. split; [reflexivity|].
           cbn. intros [F|F]; [congruence|contradiction].
        -- intros [F|F]; [congruence|contradiction].
  - destruct o as [x|]; cbn.
    + intros [a [b [-> Hn]]]. induction a as [|[[k'|] v] a IH]; cbn in *; inv N.
      * rewrite str_eqb_refl. rewrite member_absent by assumption. reflexivity.
      * rewrite (proj2 (str_eqb_neq _ _)) by (intro; subst; tauto). apply IH; tauto.
      * cbn in *. congruence.
    + apply member_absent. exact N.
Qed.

Lemma omap_iff : forall A B (f : A -> option B) l r,
  omap f l = Some r <-> Forall2 (fun x y => f x = Some y) l r.
Proof.
  intros A B f. induction l as [|x l IH]; intros r; cbn; split; intros H.
  - inv H. constructor.
  - inv H. reflexivity.
  - destruct (f x) as [y|] eqn:E; [|discriminate]. destruct (omap f l) as [ys|] eqn:E2; [|discriminate].
    inv H. constructor; [exact E|]. apply IH. reflexivity.
  - inv H. rewrite H2. rewrite (proj2 (IH l') H4). reflexivity.
Qed.

Lemma Forall2_impl : forall A B (P Q : A -> B -> Prop) l r,
  (forall a b, P a b -> Q a b) -> Forall2 P l r -> Forall2 Q l r.
Proof. intros A B P Q l r H F. induction F; constructor; auto. Qed.

Lemma struct_fields_iff : forall k0 ks v fs,
  struct_fields (k0 :: ks) v = Some fs <-> fields (k0 :: ks) v fs.
Proof.
  intros k0 ks' v fs. remember (k0 :: ks') as ks eqn:Ks. split.
  - destruct v; cbn; try discriminate.
    + destruct (Nat.eqb_spec (List.length l) (List.length ks)); [|discriminate].
      intros H; inv H. constructor. assumption.
    + intros H. apply omap_iff in H.
      assert (N : Forall (fun kv => fst kv <> None) m).
      { subst ks. inv H. eapply member_keys. eassumption. }
      constructor; [exact N|].
      eapply Forall2_impl; [|exact H]. intros k o Ho. apply member_iff; assumption.
  - intros H. destruct H as [m fs N H|l H]; cbn.
    + apply omap_iff. eapply Forall2_impl; [|exact H]. intros k o Ho. apply member_iff; assumption.
    + rewrite H, Nat.eqb_refl. reflexivity.
Qed.

Lemma optional_iff : forall A (f : json -> option A) (R : json -> A -> Prop) fo o,
  (forall v a, f v = Some a <-> R v a) ->
  de_field_option f fo = Some o <-> optional R fo o.
Proof.
  intros A f R fo o H. split.
  - destruct fo as [v|]; cbn; [|intros E; inv E; constructor].
    unfold de_option. destruct v; try (destruct (f _) eqn:E; [|discriminate]; intros E2; inv E2;
      apply opt_value; [discriminate|apply H; exact E]).
    intros E; inv E. constructor.
  - intros Ho. inv Ho; cbn; try reflexivity. unfold de_option.
    apply H in H1. destruct v; try congruence; rewrite H1; reflexivity.
Qed.

Lemma de_i32_iff : forall v z, de_i32 v = Some z <-> is_int v z.
Proof.
  intros v z. unfold is_int. split.
  - destruct v; cbn; try discriminate. destruct (in_i32 z0) eqn:E; [|discriminate].
    intros H; inv H. split; [reflexivity|]. apply in_i32_iff. exact E.
  - intros [-> H]. cbn. apply in_i32_iff in H. rewrite H. reflexivity.
Qed.

Lemma de_str_iff : forall v s, de_str v = Some s <-> is_str v s.
Proof.
  intros v s. unfold is_str. split.
  - destruct v; cbn; try discriminate. intros H; inv H. reflexivity.
  - intros ->. reflexivity.
Qed.

Lemma omap_de_str : forall l r, omap de_str l = Some r <-> l = map JStr r.
Proof.
  intros l r. rewrite omap_iff. split.
  - intros H. induction H as [|x y l r H _ IH]; [reflexivity|].
    apply de_str_iff in H. rewrite H, IH. reflexivity.
  - intros ->. induction r; constructor; auto.
Qed.

Lemma enter_S : forall d, enter (S d) = match d with O => None | S d' => Some (S d') end.
Proof. intros [|d]; reflexivity. Qed.

Lemma de_strs_iff : forall d v l, de_strs (S d) v = Some l <-> is_strs d v l.
Proof.
  intros d v l. unfold is_strs, de_strs. rewrite enter_S. split.
  - destruct v as [| | | | | |a|]; try discriminate. destruct d; [discriminate|].
    intros H. apply omap_de_str in H. subst. split; [lia|reflexivity].
  - intros [H ->]. destruct d; [lia|]. apply omap_de_str. reflexivity.
Qed.

Lemma de_field_iff : forall A (f : json -> option A) (R : json -> A -> Prop) fo a,
  (forall v a, f v = Some a <-> R v a) ->
  de_field f fo = Some a <-> exists v, fo = Some v /\ R v a.
Proof.
  intros A f R fo a H. destruct fo as [v|]; cbn; split.
  - intros E. exists v. split; [reflexivity|]. apply H. exact E.
  - intros [v' [E Hv]]. inv E. apply H. exact Hv.
  - discriminate.
  - intros [v' [E _]]. discriminate.
Qed.

Lemma position_iff : forall d v p, position_of_json (S d) v = Some p <-> position_value d v p.
Proof.
  intros d v p. unfold position_of_json. rewrite enter_S. split.
  - destruct d; [discriminate|].
    destruct (struct_fields _ v) as [fs|] eqn:Ef; [|discriminate]. apply struct_fields_iff in Ef.
    destruct fs as [|l [|c [|]]]; try discriminate.
    destruct (de_field de_i32 l) as [lz|] eqn:El; [|discriminate].
    destruct (de_field de_i32 c) as [cz|] eqn:Ec; [|discriminate]. intros H; inv H.
    rewrite (de_field_iff _ _ is_int) in El, Ec by apply de_i32_iff.
    destruct El as [lv [-> Hl]], Ec as [cv [-> Hc]]. econstructor; eassumption.
  - intros H. inv H. apply struct_fields_iff in H0. rewrite H0.
    cbn [de_field]. apply de_i32_iff in H1, H2. rewrite H1, H2. reflexivity.
Qed.

Lemma map_iff : forall fuel,
  (forall d v m, (d < fuel)%nat -> smj_of_json fuel (S d) v = Some m <-> map_value d v m)
  /\ (forall d v s, (d < fuel)%nat -> section_of_json fuel (S d) v = Some s <-> section_value d v s).
Proof.
  induction fuel as [|fuel [IHm IHs]]; [split; intros; lia|].
  assert (IHl : forall d v l, (d <= fuel)%nat ->
    (match v with
     | JArr l => match enter (S d) with None => None | Some d' => omap (section_of_json fuel d') l end
     | _ => None
     end = Some l <-> sections_value d v l)).
  { intros d v l Hd. rewrite enter_S. split.
    - destruct v as [| | | | | |a|]; try discriminate. destruct d; [discriminate|].
      intros H. apply omap_iff in H. constructor. induction H as [|x y a l Hx _ IH]; [constructor|].
      constructor; [|exact IH]. apply IHs; [lia|exact Hx].
    - intros H. inv H. apply omap_iff. induction H0 as [|d x a s l Hx Ha IH]; constructor; [|apply IH; lia].
      apply IHs; [lia|exact Hx]. }
  split.
  - intros d v m Hd. cbn [smj_of_json]. rewrite enter_S. destruct d.
    { split; [discriminate|]. intros H; inv H. }
    assert (Hd' : (d <= fuel)%nat) by lia.
    split.
    + destruct (struct_fields _ v) as [fs|] eqn:Ef; [|discriminate]. apply struct_fields_iff in Ef.
      destruct fs as [|f1 [|f2 [|f3 [|f4 [|f5 [|f6 [|f7 [|f8 [|]]]]]]]]]; try discriminate.
      destruct (de_field de_i32 f1) as [r1|] eqn:E1; [|discriminate].
      destruct (de_field_option _ f2) as [r2|] eqn:E2; [|discriminate].
      destruct (de_field_option _ f3) as [r3|] eqn:E3; [|discriminate].
      destruct (de_field_option _ f4) as [r4|] eqn:E4; [|discriminate].
      destruct (de_field_option _ f5) as [r5|] eqn:E5; [|discriminate].
      destruct (de_field_option _ f6) as [r6|] eqn:E6; [|discriminate].
      destruct (de_field_option _ f7) as [r7|] eqn:E7; [|discriminate].
      destruct (de_field_option _ f8) as [r8|] eqn:E8; [|discriminate].
      intros H; inv H.
      rewrite (de_field_iff _ _ is_int) in E1 by apply de_i32_iff. destruct E1 as [v1 [-> E1]].
      rewrite (optional_iff _ _ (is_strs d)) in E2, E3, E7 by apply de_strs_iff.
      rewrite (optional_iff _ _ is_str) in E4, E5, E6 by apply de_str_iff.
      rewrite (optional_iff _ _ (sections_value d)) in E8 by (intros; apply IHl; lia).
      econstructor; eassumption.
    + intros H.
      inversion H as [d' v' fv fs fn fm ff fr fc fse ver so na ma fi ro co se
                      E0 E1 E2 E3 E4 E5 E6 E7 E8]; subst.
      apply struct_fields_iff in E0. rewrite E0. cbn [de_field].
      apply de_i32_iff in E1. rewrite E1.
      apply (proj2 (optional_iff _ _ (is_strs d) _ _ (de_strs_iff d))) in E2. rewrite E2.
      apply (proj2 (optional_iff _ _ (is_strs d) _ _ (de_strs_iff d))) in E3. rewrite E3.
      apply (proj2 (optional_iff _ _ (is_strs d) _ _ (de_strs_iff d))) in E7. rewrite E7.
      apply (proj2 (optional_iff _ _ is_str _ _ de_str_iff)) in E4. rewrite E4.
      apply (proj2 (optional_iff _ _ is_str _ _ de_str_iff)) in E5. rewrite E5.
      apply (proj2 (optional_iff _ _ is_str _ _ de_str_iff)) in E6. rewrite E6.
      apply (proj2 (optional_iff _ _ (sections_value d) _ _ (fun v l => IHl d v l Hd'))) in E8.
      rewrite E8. reflexivity.
  - intros d v s Hd. cbn [section_of_json]. rewrite enter_S. destruct d.
    { split; [discriminate|]. intros H; inv H. }
    assert (Hd' : (d < fuel)%nat) by lia.
    split.
    + destruct (struct_fields _ v) as [fs|] eqn:Ef; [|discriminate]. apply struct_fields_iff in Ef.
      destruct fs as [|f1 [|f2 [|f3 [|]]]]; try discriminate.
      destruct (de_field _ f1) as [r1|] eqn:E1; [|discriminate].
      destruct (de_field _ f2) as [r2|] eqn:E2; [|discriminate].
      destruct (de_field_option _ f3) as [r3|] eqn:E3; [|discriminate].
      intros H; inv H.
      rewrite (de_field_iff _ _ _ _ _ (position_iff d)) in E1. destruct E1 as [v1 [-> E1]].
      rewrite (de_field_iff _ _ _ _ _ (fun v m => IHm d v m Hd')) in E2. destruct E2 as [v2 [-> E2]].
      rewrite (optional_iff _ _ is_str) in E3 by apply de_str_iff.
      econstructor; eassumption.
    + intros H. inversion H as [d' v' fo fm fu off mm url H0 H1 H2 H3]; subst. apply struct_fields_iff in H0. rewrite H0. cbn [de_field].
      apply position_iff in H1. rewrite H1. apply IHm in H2; [|exact Hd']. rewrite H2.
      apply (proj2 (optional_iff _ _ is_str _ _ de_str_iff)) in H3. rewrite H3. reflexivity.
Qed.

Lemma smj_from_str_iff : forall s m, smj_from_str s = Some m <-> map_text s m.
Proof.
  intros s m. unfold smj_from_str, map_text. split.
  - destruct (parse_json s) as [v|] eqn:E; [|discriminate]. intros H.
    exists v. split; [apply parse_json_iff; exact E|].
    apply (proj1 (map_iff 128)) in H; [exact H|lia].
  - intros [v [Hv Hm]]. apply parse_json_iff in Hv. rewrite Hv.
    apply (proj1 (map_iff 128)); [lia|exact Hm].
Qed.

(** ** The printed value *)
Definition comb (a b : option (option json)) : option (option json) :=
  match a, b with
  | Some None, x => x
  | x, Some None => x
  | _, _ => None
  end.

Lemma member_app : forall k a b, member k (a ++ b) = comb (member k a) (member k b).
Proof.
  induction a as [|[[k'|] v] a IH]; intros b; cbn [app member]; [cbn; reflexivity| |].
  2: { destruct (member k b) as [[x|]|]; reflexivity. }
  destruct (str_eqb k k'); rewrite IH; [|reflexivity].
  destruct (member k a) as [[x|]|], (member k b) as [[y|]|]; reflexivity.
Qed.

Lemma member_opt : forall A k k' (f : A -> json) o,
  member k (field_opt k' f o) = if str_eqb k (lit k') then Some (option_map f o) else Some None.
Proof.
  intros A k k' f [a|]; cbn [field_opt member option_map].
  - destruct (str_eqb k (lit k')); reflexivity.
  - destruct (str_eqb k (lit k')); reflexivity.
Qed.

Lemma member_null : forall A k k' (f : A -> json) o,
  member k (field_null k' f o)
  = if str_eqb k (lit k') then Some (Some (match o with Some a => f a | None => JNull end)) else Some None.
Proof.
  intros A k k' f o. cbn [field_null member]. destruct (str_eqb k (lit k')); reflexivity.
Qed.

Lemma member_one : forall k k' v,
  member k [(Some (lit k'), v)] = if str_eqb k (lit k') then Some (Some v) else Some None.
Proof. intros. cbn [member]. destruct (str_eqb k (lit k')); reflexivity. Qed.

Lemma comb_none_r : forall a, comb a (Some None) = a.
Proof. intros [[x|]|]; reflexivity. Qed.

(** ** Reading the printed value back *)
Lemma omap_back : forall A B (f : A -> json) (g : json -> option B) (h : A -> B) (n : A -> nat) (d : nat) l,
  Forall (fun a => g (f a) = if (n a <=? d)%nat then Some (h a) else None) l ->
  omap g (map f l) = if (list_max (map n l) <=? d)%nat then Some (map h l) else None.
Proof.
  intros A B f g h n d l H. induction H as [|a l Ha _ IH]; [reflexivity|].
  cbn [map omap]. rewrite Ha, IH. cbn [list_max fold_right].
  change (fold_right Nat.max 0%nat (map n l)) with (list_max (map n l)).
  destruct (Nat.leb_spec (n a) d), (Nat.leb_spec (list_max (map n l)) d),
    (Nat.leb_spec (Nat.max (n a) (list_max (map n l))) d); try lia; reflexivity.
Qed.

Lemma de_strs_back : forall d l, de_strs (S d) (j_strs l) = if (1 <=? d)%nat then Some l else None.
Proof.
  intros d l. unfold de_strs, j_strs. rewrite enter_S. destruct d; [reflexivity|].
  apply omap_de_str. reflexivity.
Qed.

Lemma de_field_strs : forall d o,
  de_field_option (de_strs (S d)) (option_map j_strs o)
  = if (levels_if o <=? d)%nat then Some o else None.
Proof.
  intros d [l|]; [|reflexivity]. cbn [option_map de_field_option levels_if].
  change (de_option (de_strs (S d)) (j_strs l))
    with (match de_strs (S d) (j_strs l) with Some a => Some (Some a) | None => None end).
  rewrite de_strs_back. destruct (1 <=? d)%nat; reflexivity.
Qed.

Lemma de_field_str : forall o, de_field_option de_str (option_map JStr o) = Some o.
Proof. intros [s|]; reflexivity. Qed.

Lemma de_field_str_null : forall o,
  de_field_option de_str (Some (match o with Some s => JStr s | None => JNull end)) = Some o.
Proof. intros [s|]; reflexivity. Qed.

Lemma position_back : forall d p,
  -2147483648 <= p_line p <= 2147483647 -> -2147483648 <= p_column p <= 2147483647 ->
  position_of_json (S d) (json_of_position p) = if (1 <=? d)%nat then Some p else None.
Proof.
  intros d [l c] H1 H2. unfold position_of_json. rewrite enter_S. destruct d; [reflexivity|].
  cbn [p_line p_column] in *. apply in_i32_iff in H1, H2.
  assert (E : struct_fields ["line"; "column"]%string (json_of_position (mkPos l c))
              = Some [Some (JInt l); Some (JInt c)]) by reflexivity.
  rewrite E. cbn [de_field de_i32]. rewrite H1, H2. reflexivity.
Qed.

Lemma map_fields : forall version sources names mappings file root content sections,
  struct_fields ["version"; "sources"; "names"; "mappings"; "file"; "sourceRoot";
                 "sourcesContent"; "sections"]%string
    (json_of_smj (mkSMJ version sources names mappings file root content sections))
  = Some [Some (JInt version); option_map j_strs sources; option_map j_strs names;
          option_map JStr mappings; Some (match file with Some s => JStr s | None => JNull end);
          option_map JStr root; option_map j_strs content;
          option_map (fun l => JArr (map json_of_section l)) sections].
Proof.
  intros. cbn [json_of_smj struct_fields omap].
  rewrite !member_app, !member_opt, !member_null, !member_one.
  repeat match goal with
  | |- context [str_eqb (lit ?a) (lit ?b)] =>
      let x := eval vm_compute in (str_eqb (lit a) (lit b)) in
      change (str_eqb (lit a) (lit b)) with x
  end.
  cbv iota.
  repeat match goal with |- context [comb (Some None) ?x] => change (comb (Some None) x) with x end.
  rewrite !comb_none_r. reflexivity.
Qed.

Lemma section_fields : forall offset m url,
  struct_fields ["offset"; "map"; "url"]%string (json_of_section (mkJSection offset m url))
  = Some [Some (json_of_position offset); Some (json_of_smj m);
          Some (match url with Some s => JStr s | None => JNull end)].
Proof. intros. reflexivity. Qed.

Lemma list_max_cons : forall a l, list_max (a :: l) = Nat.max a (list_max l).
Proof. reflexivity. Qed.

Lemma i32_map_inv : forall m, i32_map m ->
  -2147483648 <= smj_version m <= 2147483647
  /\ forall l, smj_sections m = Some l -> Forall i32_section l.
Proof. intros m H. inv H. auto. Qed.

Lemma map_back : forall m, i32_map m -> forall fuel d, (d < fuel)%nat ->
  smj_of_json fuel (S d) (json_of_smj m) = if (nesting m <=? d)%nat then Some m else None.
Proof.
  apply (map_ind'
    (fun m => i32_map m -> forall fuel d, (d < fuel)%nat ->
       smj_of_json fuel (S d) (json_of_smj m) = if (nesting m <=? d)%nat then Some m else None)
    (fun s => i32_section s -> forall fuel d, (d < fuel)%nat ->
       section_of_json fuel (S d) (json_of_section s)
       = if (section_nesting s <=? d)%nat then Some s else None)).
  - intros version sources names mappings file root content sections IH Hi fuel d F.
    destruct fuel as [|fuel]; [lia|]. cbn [smj_of_json]. rewrite enter_S.
    destruct d as [|d]; [reflexivity|].
    rewrite map_fields. cbn [de_field de_i32].
    apply i32_map_inv in Hi. cbn [smj_version smj_sections] in Hi. destruct Hi as [Hv Hs].
    apply in_i32_iff in Hv. rewrite Hv.
    rewrite !de_field_strs, !de_field_str, de_field_str_null.
    assert (E : de_field_option (fun v => match v with
                  | JArr l => match enter (S d) with None => None
                              | Some d' => omap (section_of_json fuel d') l end
                  | _ => None end)
                  (option_map (fun l => JArr (map json_of_section l)) sections)
                = if (match sections with Some l => S (list_max (map section_nesting l)) | None => O end
                      <=? d)%nat then Some sections else None).
    { destruct sections as [l|]; [|reflexivity].
      cbn [option_map de_field_option de_option]. rewrite enter_S.
      destruct d as [|d]; [reflexivity|].
      specialize (IH l eq_refl). specialize (Hs l eq_refl).
      rewrite (omap_back _ _ _ _ (fun s => s) section_nesting d).
      - rewrite map_id. cbn [Nat.leb]. destruct (list_max (map section_nesting l) <=? d)%nat; reflexivity.
      - rewrite Forall_forall in *. intros x Hx. apply IH; auto. lia. }
    rewrite E. clear E.
    cbn [nesting]. rewrite !list_max_cons. change (list_max []) with O.
    generalize (match sections with Some l => S (list_max (map section_nesting l)) | None => O end).
    intros k. cbn [Nat.leb].
    destruct (Nat.leb_spec (levels_if sources) d), (Nat.leb_spec (levels_if names) d),
      (Nat.leb_spec (levels_if content) d), (Nat.leb_spec k d),
      (Nat.leb_spec (Nat.max (levels_if sources) (Nat.max (levels_if names)
         (Nat.max (levels_if content) (Nat.max k 0)))) d); try lia; reflexivity.
  - intros offset m url IH Hi fuel d F.
    destruct fuel as [|fuel]; [lia|]. cbn [section_of_json]. rewrite enter_S.
    destruct d as [|d]; [reflexivity|].
    rewrite section_fields. cbn [de_field]. inv Hi. cbn [js_offset js_map] in *.
    rewrite position_back, (IH H1), de_field_str_null by (try assumption; lia).
    cbn [section_nesting].
    change (S (Nat.max 1 (nesting m)) <=? S d)%nat with (Nat.max 1 (nesting m) <=? d)%nat.
    destruct (Nat.leb_spec 1 d), (Nat.leb_spec (nesting m) d),
      (Nat.leb_spec (Nat.max 1 (nesting m)) d); try lia; reflexivity.
Qed.

Lemma no_float_strs : forall l, no_float (j_strs l).
Proof. intros l. constructor. apply Forall_forall. intros x Hx. apply in_map_iff in Hx.
  destruct Hx as [s [<- _]]. constructor. Qed.

Lemma no_float_opt : forall A k (f : A -> json) o, (forall a, o = Some a -> no_float (f a)) ->
  Forall (fun kv => no_float (snd kv)) (field_opt k f o).
Proof. intros A k f [a|] H; repeat constructor. cbn. apply H. reflexivity. Qed.

Lemma no_float_null : forall k o,
  Forall (fun kv => no_float (snd kv)) (field_null k JStr o).
Proof. intros k [a|]; repeat constructor. Qed.

Lemma keys_opt : forall A k (f : A -> json) o, Forall (fun kv => fst kv <> None) (field_opt k f o).
Proof. intros A k f [a|]; repeat constructor. cbn. discriminate. Qed.

Lemma keys_null : forall A k (f : A -> json) o, Forall (fun kv => fst kv <> None) (field_null k f o).
Proof. intros A k f o. repeat constructor. cbn. discriminate. Qed.

Lemma no_float_map : forall m, no_float (json_of_smj m).
Proof.
  apply (map_ind' (fun m => no_float (json_of_smj m)) (fun s => no_float (json_of_section s))).
  - intros version sources names mappings file root content sections IH. cbn [json_of_smj]. constructor.
    { repeat (apply Forall_app; split); try apply keys_opt; [|apply keys_null].
      repeat constructor. discriminate. }
    repeat (apply Forall_app; split);
      try (apply no_float_opt; intros; first [apply no_float_strs | constructor]).
    + repeat constructor.
    + apply no_float_null.
    + specialize (IH a H). apply Forall_forall. intros x Hx. apply in_map_iff in Hx.
      destruct Hx as [s [<- Hs]]. rewrite Forall_forall in IH. apply IH. exact Hs.
  - intros offset m url IH. cbn [json_of_section]. constructor.
    { apply Forall_app. split; [|apply keys_null]. repeat constructor; discriminate. }
    apply Forall_app. split; [|apply no_float_null].
    constructor; [cbn; repeat constructor; discriminate|]. constructor; [exact IH|constructor].
Qed.

Lemma json_roundtrip : forall m, i32_map m ->
  smj_from_str (smj_to_string m) = if (nesting m <=? 127)%nat then Some m else None.
Proof.
  intros m H. unfold smj_from_str, smj_to_string. rewrite print_parse by apply no_float_map.
  apply map_back; [exact H|lia].
Qed.

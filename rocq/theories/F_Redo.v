(** * Lemmas for C104 and C105: the same calls with other lines or other names *)
From Verif Require Import F_Base M_Base64Vlq M_ArraySet M_Mapping M_Util M_SourceMap M_Generator
  S_List S_Mapping S_Adds S_Generator S_Redo F_ArraySet F_Mapping F_Serialize F_Generator F_GeneratorProps.
From Coq Require Import Sorting.Sorted Sorting.Permutation.

Definition then_do {A B} (g : A -> B) (r : res A) : res B := let* x := r in Ok (g x).

(** ** maps with other keys *)
Definition keyed_by {V} (f : str -> str) (m : hmap V) : hmap V := map (fun x => (f (fst x), snd x)) m.

Lemma eqb_inj : forall f l s t, one_to_one f l -> In s l -> In t l -> str_eqb (f s) (f t) = str_eqb s t.
Proof.
  intros f l s t I Hs Ht. destruct (str_eqb s t) eqn:E.
  - apply str_eqb_eq in E. subst t. apply str_eqb_refl.
  - apply str_eqb_neq. apply str_eqb_neq in E. intros H. apply E. apply I; assumption.
Qed.

Lemma ostr_inj : forall f l a b, one_to_one f l -> (forall s, a = Some s -> In s l) -> (forall s, b = Some s -> In s l) ->
  ostr_eqb (option_map f a) (option_map f b) = ostr_eqb a b.
Proof.
  intros f l [a|] [b|] I Ha Hb; cbn; try reflexivity. apply (eqb_inj f l); [exact I | apply Ha; reflexivity | apply Hb; reflexivity].
Qed.

Lemma hm_get_keyed : forall V f l (m : hmap V) s, one_to_one f l -> incl (map fst m) l -> In s l ->
  hm_get (f s) (keyed_by f m) = hm_get s m.
Proof.
  intros V f l m s I Hm Hs. induction m as [|[t v] m IH]; [reflexivity|]. cbn [keyed_by map hm_get fst snd].
  rewrite (eqb_inj f l) by (try assumption; apply Hm; left; reflexivity).
  destruct (str_eqb s t); [reflexivity|]. apply IH. intros x Hx. apply Hm. right. exact Hx.
Qed.

Lemma hm_remove_keyed : forall V f l (m : hmap V) s, one_to_one f l -> incl (map fst m) l -> In s l ->
  hm_remove (f s) (keyed_by f m) = keyed_by f (hm_remove s m).
Proof.
  intros V f l m s I Hm Hs. induction m as [|[t v] m IH]; [reflexivity|]. cbn [keyed_by map hm_remove fst snd].
  rewrite (eqb_inj f l) by (try assumption; apply Hm; left; reflexivity).
  assert (incl (map fst m) l) by (intros x Hx; apply Hm; right; exact Hx).
  destruct (str_eqb s t); [apply IH; assumption|]. cbn [keyed_by map fst snd]. f_equal. apply IH. assumption.
Qed.

Lemma hm_remove_keys : forall V (m : hmap V) s, incl (map fst (hm_remove s m)) (map fst m).
Proof.
  intros V m s. induction m as [|[t v] m IH]; [intros x Hx; exact Hx|]. cbn [hm_remove map fst].
  destruct (str_eqb s t); intros x Hx.
  - right. apply IH. exact Hx.
  - destruct Hx as [<-|Hx]; [left; reflexivity | right; apply IH; exact Hx].
Qed.

Lemma keyed_nil : forall V f (m : hmap V), keyed_by f m = [] <-> m = [].
Proof. intros V f [|x m]; cbn; split; intros H; try reflexivity; discriminate. Qed.

(** ** sets with other strings *)
Definition set_by (f : str -> str) (s : ArraySet) : ArraySet :=
  mkArraySet (map f (as_array s)) (keyed_by f (as_set s)).
Definition set_in (l : list str) (s : ArraySet) : Prop := incl (map fst (as_set s)) l /\ incl (as_array s) l.

Lemma has_by : forall f l S x, one_to_one f l -> set_in l S -> In x l -> as_has (set_by f S) (f x) = as_has S x.
Proof.
  intros f l S x I HS Hx. unfold as_has, hm_contains. cbn [set_by as_set]. rewrite (hm_get_keyed Z f l); [reflexivity | exact I | apply HS | exact Hx].
Qed.

Lemma index_by : forall f l S x, one_to_one f l -> set_in l S -> In x l ->
  as_index_of (set_by f S) (f x) = as_index_of S x.
Proof.
  intros f l S x I HS Hx. unfold as_index_of. cbn [set_by as_set].
  rewrite (hm_get_keyed Z f l); [reflexivity | exact I | apply HS | exact Hx].
Qed.

Lemma add_by : forall f l S o, one_to_one f l -> set_in l S -> (forall x, o = Some x -> In x l) ->
  add_if_absent (set_by f S) (option_map f o) = set_by f (add_if_absent S o) /\ set_in l (add_if_absent S o).
Proof.
  intros f l S [x|] I HS Hx; [|split; [reflexivity | exact HS]]. specialize (Hx x eq_refl).
  unfold add_if_absent. cbn [option_map]. rewrite (has_by f l) by assumption.
  destruct (as_has S x) eqn:E; cbn [negb]; [split; [reflexivity | exact HS]|].
  unfold as_add. rewrite (has_by f l) by assumption. rewrite E. cbn [negb orb]. split.
  - unfold set_by. cbn [as_array as_set]. rewrite map_app. cbn [map]. f_equal.
    unfold hm_insert. rewrite (hm_remove_keyed Z f l) by (try assumption; apply HS).
    unfold len. rewrite map_length. reflexivity.
  - destruct HS as [HS HA]. split; cbn [as_set as_array].
    + intros y Hy. cbn in Hy. destruct Hy as [<-|Hy]; [exact Hx|]. apply HS. apply hm_remove_keys in Hy. exact Hy.
    + apply incl_app; [exact HA | intros y [<-|[]]; exact Hx].
Qed.

(** ** the loop over the lines *)
Lemma semis_debug : forall fuel line prev next, prev <= line -> line <= i32_max -> i32_min <= prev ->
  Z.of_nat fuel = line - prev -> semicolon_loop Debug fuel line prev next = Ok (next ++ repeat (ch ";") fuel, line).
Proof.
  induction fuel as [|fuel IH]; intros line prev next H1 H2 H3 E; cbn [semicolon_loop].
  - replace (line =? prev) with true by lia. rewrite app_nil_r. f_equal. f_equal. lia.
  - replace (line =? prev) with false by lia. unfold i32_add, checked_i32, in_i32.
    replace ((i32_min <=? prev + 1) && (prev + 1 <=? i32_max)) with true by lia. cbn [bind].
    rewrite IH by lia. rewrite <- app_assoc. reflexivity.
Qed.

Lemma semis_back : forall fuel line prev next, line < prev -> prev <= i32_max -> i32_min <= line ->
  i32_max - prev < Z.of_nat fuel -> semicolon_loop Debug fuel line prev next = Panic POverflow.
Proof.
  induction fuel as [|fuel IH]; intros line prev next H1 H2 H3 E; [lia|]. cbn [semicolon_loop].
  replace (line =? prev) with false by lia. unfold i32_add, checked_i32, in_i32.
  destruct ((i32_min <=? prev + 1) && (prev + 1 <=? i32_max)) eqn:B; cbn [bind]; [|reflexivity].
  apply IH; lia.
Qed.

Lemma fuel_small : forall line prev, prev <= line -> line - prev < 4294967296 ->
  Z.of_nat (semicolon_fuel line prev) = line - prev.
Proof. intros. rewrite fuel_mod. apply Z.mod_small. lia. Qed.

Definition i32 (z : Z) : Prop := -2147483648 <= z <= 2147483647.

(** what the loop does for any two lines *)
Lemma semis : forall md line prev next, i32 line -> i32 prev ->
  semicolon_loop md (semicolon_fuel line prev) line prev next
  = match md with
    | Debug => if line <? prev then Panic POverflow else Ok (next ++ repeat (ch ";") (semicolon_fuel line prev), line)
    | Release => Ok (next ++ repeat (ch ";") (semicolon_fuel line prev), line)
    end.
Proof.
  unfold i32. intros [|] line prev next Hl Hp.
  - destruct (line <? prev) eqn:E.
    + apply semis_back; unfold i32_min, i32_max; [lia | change (2^31) with 2147483648; lia | change (2^31) with 2147483648; lia |].
      rewrite fuel_mod. replace (line - prev) with ((line - prev + 4294967296) + (-1) * 4294967296) by lia.
      rewrite Z.mod_add by lia. rewrite Z.mod_small by lia. change (2^31) with 2147483648. lia.
    + apply semis_debug; unfold i32_min, i32_max; [lia | change (2^31) with 2147483648; lia | change (2^31) with 2147483648; lia |].
      apply fuel_small; lia.
  - apply semicolon_loop_release; [exact Hl | exact Hp | symmetry; apply fuel_mod].
Qed.

Lemma fuel_moved : forall k line prev, semicolon_fuel (line + k) (prev + k) = semicolon_fuel line prev.
Proof. intros. unfold semicolon_fuel. f_equal. f_equal. lia. Qed.

Lemma semis_line : forall md fuel line prev next x l, semicolon_loop md fuel line prev next = Ok (x, l) -> l = line.
Proof.
  intros md. induction fuel as [|fuel IH]; intros line prev next x l H; cbn [semicolon_loop] in H; destruct (line =? prev) eqn:E.
  - injection H as _ <-. lia.
  - discriminate.
  - injection H as _ <-. lia.
  - destruct (i32_add md prev 1) as [z|p]; cbn [bind] in H; [|discriminate]. exact (IH _ _ _ _ _ H).
Qed.

Lemma mapM_renamed : forall A B C (g : A -> B) (F : B -> res C) (G : A -> res C) l,
  (forall x, In x l -> F (g x) = G x) -> mapM F (map g l) = mapM G l.
Proof.
  intros A B C g F G l H. induction l as [|x l IH]; [reflexivity|]. cbn [map mapM]. rewrite H by (left; reflexivity).
  rewrite IH by (intros y Hy; apply H; right; exact Hy). reflexivity.
Qed.

Section Redo.
  Context (md : mode) (U : UrlLib) (k : Z) (f n : str -> str) (fs ns : list str)
          (inj_f : one_to_one f fs) (inj_n : one_to_one n ns) (down : 0 <= k).

  (** the mapping [k] lines further down with other names *)
  Definition redone (m : Mapping) : Mapping :=
    mkMapping (mkPos (p_line (m_generated m) + k) (p_column (m_generated m)))
              (m_original m) (option_map f (m_source m)) (option_map n (m_name m)) (m_last_generated_column m).

  Definition within (m : Mapping) : Prop :=
    (forall s, m_source m = Some s -> In s fs) /\ (forall s, m_name m = Some s -> In s ns)
    /\ (k = 0 \/ room k m).

  (** *** comparing *)
  Lemma sub_moved : forall a b, i32_sub md (a + k) (b + k) = i32_sub md a b.
  Proof. intros. unfold i32_sub. f_equal. lia. Qed.

  Lemma strcmp_zero : forall a b, strcmp a b =? 0 = ostr_eqb a b.
  Proof.
    intros a b. unfold strcmp. destruct (ostr_eqb a b) eqn:E; [reflexivity|].
    destruct a, b; try reflexivity. destruct (str_compare _ _); reflexivity.
  Qed.

  Definition zero_alike (r r' : res Z) : Prop :=
    match r, r' with
    | Ok c, Ok c' => (c =? 0) = (c' =? 0)
    | Panic p, Panic p' => p = p'
    | _, _ => False
    end.

  Lemma alike_refl : forall r, zero_alike r r.
  Proof. intros [c|p]; reflexivity. Qed.

  Lemma compare_alike : forall a b, within a -> within b ->
    zero_alike (compare_by_generated_pos_inflated md a b) (compare_by_generated_pos_inflated md (redone a) (redone b)).
  Proof.
    intros a b [Sa [Na _]] [Sb [Nb _]]. unfold compare_by_generated_pos_inflated. cbn [redone m_generated p_line p_column m_source m_name m_original].
    rewrite sub_moved.
    destruct (i32_sub md (p_line (m_generated a)) (p_line (m_generated b))) as [c|p]; cbn [bind]; [|reflexivity].
    destruct (negb (c =? 0)); [reflexivity|].
    destruct (i32_sub md (p_column (m_generated a)) (p_column (m_generated b))) as [c1|p]; cbn [bind]; [|reflexivity].
    destruct (negb (c1 =? 0)); [reflexivity|].
    rewrite !strcmp_zero. rewrite (ostr_inj f fs) by assumption.
    destruct (ostr_eqb (m_source a) (m_source b)) eqn:Es; cbn [negb].
    - assert (Z : zero_alike (Ok (strcmp (m_name a) (m_name b)))
        (Ok (strcmp (option_map n (m_name a)) (option_map n (m_name b))))).
      { cbn [zero_alike]. rewrite !strcmp_zero. rewrite (ostr_inj n ns) by assumption. reflexivity. }
      destruct (m_original a) as [oa|]; [|exact Z]. destruct (m_original b) as [ob|]; [|exact Z].
      destruct (i32_sub md (p_line oa) (p_line ob)) as [c2|p]; cbn [bind]; [|reflexivity].
      destruct (negb (c2 =? 0)); [reflexivity|].
      destruct (i32_sub md (p_column oa) (p_column ob)) as [c3|p]; cbn [bind]; [|reflexivity].
      destruct (negb (c3 =? 0)); [reflexivity|]. exact Z.
    - cbn [zero_alike]. rewrite !strcmp_zero. rewrite (ostr_inj f fs) by assumption. reflexivity.
  Qed.

  Lemma to_i32_zero : forall z, -4294967296 < z < 4294967296 -> to_i32 z = 0 -> z = 0.
  Proof.
    intros z Hz H. unfold to_i32 in H. change (2^31) with 2147483648 in H. change (2^32) with 4294967296 in H.
    assert (E : (z + 2147483648) mod 4294967296 = 2147483648) by lia.
    pose proof (Z.div_mod (z + 2147483648) 4294967296 ltac:(lia)) as D. rewrite E in D.
    assert ((z + 2147483648) / 4294967296 = 0) by lia. lia.
  Qed.

  Lemma sub_zero : forall a b c, i32 a -> i32 b -> i32_sub md a b = Ok c -> c = 0 -> a = b.
  Proof.
    unfold i32. intros a b c Ha Hb H Hc. unfold i32_sub, checked_i32 in H. destruct (in_i32 (a - b)).
    - injection H as H. lia.
    - destruct md; [discriminate|]. injection H as H. subst c. apply to_i32_zero in Hc; lia.
  Qed.

  Definition i32_generated (m : Mapping) : Prop := i32 (p_line (m_generated m)) /\ i32 (p_column (m_generated m)).

  Lemma compare_equal : forall ms a b, same_order f n ms -> In a ms -> In b ms -> i32_generated a -> i32_generated b ->
    compare_by_generated_pos_inflated md (redone a) (redone b) = compare_by_generated_pos_inflated md a b.
  Proof.
    intros ms a b O Ha Hb Ia Ib. unfold compare_by_generated_pos_inflated. cbn [redone m_generated p_line p_column m_source m_name m_original].
    rewrite sub_moved.
    destruct (i32_sub md (p_line (m_generated a)) (p_line (m_generated b))) as [c|p] eqn:E0; cbn [bind]; [|reflexivity].
    destruct (c =? 0) eqn:C0; cbn [negb]; [|reflexivity].
    destruct (i32_sub md (p_column (m_generated a)) (p_column (m_generated b))) as [c1|p] eqn:E1; cbn [bind]; [|reflexivity].
    destruct (c1 =? 0) eqn:C1; cbn [negb]; [|reflexivity].
    destruct Ia as [Ia1 Ia2]. destruct Ib as [Ib1 Ib2].
    assert (E : m_generated a = m_generated b).
    { apply sub_zero in E0; [|exact Ia1 | exact Ib1 | lia]. apply sub_zero in E1; [|exact Ia2 | exact Ib2 | lia].
      destruct (m_generated a), (m_generated b). cbn in *. congruence. }
    destruct (O a b Ha Hb E) as [O1 O2]. rewrite O1, O2. reflexivity.
  Qed.

  (** *** the list of mappings *)
  Definition list_redone (l : MappingList) : MappingList :=
    mkMappingList (map redone (ml_array l)) (ml_sorted l) (option_map redone (ml_last l)).

  (** a later one needs no comparison *)
  Definition after_last (l : MappingList) (ms : list Mapping) : Prop :=
    gen_sorted match ml_last l with Some m => m :: ms | None => ms end.

  (** [ms] are all mappings of the history, [rest] those to come *)
  Definition fit (ms : list Mapping) (l : MappingList) (rest : list Mapping) : Prop :=
    incl (ml_array l) ms /\ (forall m, ml_last l = Some m -> In m ms) /\ incl rest ms
    /\ (same_order f n ms /\ Forall i32_generated ms \/ ml_sorted l = true /\ after_last l rest /\ Forall (fun m => 0 <= p_line (m_generated m)) rest).

  Lemma strcmp_none : forall g o, strcmp None (option_map g o) = strcmp None o.
  Proof. intros g [x|]; reflexivity. Qed.

  Lemma after_dummy : forall m, within m ->
    generated_position_after md ml_dummy_last (redone m) = generated_position_after md ml_dummy_last m.
  Proof.
    intros m [_ [_ [K|[R1 R2]]]].
    - unfold generated_position_after, compare_by_generated_pos_inflated.
      cbn [redone m_generated p_line p_column ml_dummy_last m_source m_name m_original].
      rewrite K, Z.add_0_r, !strcmp_none. reflexivity.
    - unfold generated_position_after. cbn [redone m_generated p_line p_column ml_dummy_last].
      replace (-1 <? p_line (m_generated m) + k) with true by lia. replace (-1 <? p_line (m_generated m)) with true by lia.
      reflexivity.
  Qed.

  Lemma after_redone : forall ms l m rest, fit ms l (m :: rest) -> forall a, ml_last l = Some a ->
    generated_position_after md (redone a) (redone m) = generated_position_after md a m.
  Proof.
    intros ms l m rest [_ [L [R C]]] a Ea. unfold generated_position_after. cbn [redone m_generated p_line p_column].
    replace (p_line (m_generated a) + k <? p_line (m_generated m) + k) with (p_line (m_generated a) <? p_line (m_generated m)) by lia.
    replace (p_line (m_generated m) + k =? p_line (m_generated a) + k) with (p_line (m_generated m) =? p_line (m_generated a)) by lia.
    destruct (_ || _) eqn:E; [reflexivity|].
    destruct C as [[O I]|[_ [S _]]].
    - rewrite Forall_forall in I. rewrite (compare_equal ms); [reflexivity | exact O | exact (L a Ea) | apply R; left; reflexivity
        | apply I; exact (L a Ea) | apply I; apply R; left; reflexivity].
    - exfalso. unfold after_last in S. rewrite Ea in S. inversion S as [|? ? _ F]; subst.
      inversion F as [|? ? G _]; subst. unfold gen_le, pos_le in G. lia.
  Qed.

  Lemma add_redone : forall ms l m rest, fit ms l (m :: rest) -> within m ->
    ml_add md (list_redone l) (redone m) = then_do list_redone (ml_add md l m)
    /\ forall l', ml_add md l m = Ok l' -> fit ms l' rest.
  Proof.
    intros ms l m rest F W. unfold ml_add. cbn [list_redone ml_last ml_array ml_sorted].
    assert (E : generated_position_after md
        match option_map redone (ml_last l) with Some x => x | None => ml_dummy_last end (redone m)
      = generated_position_after md match ml_last l with Some x => x | None => ml_dummy_last end m).
    { destruct (ml_last l) as [a|] eqn:Ea; [exact (after_redone ms l m rest F a Ea) | exact (after_dummy m W)]. }
    rewrite E. clear E.
    assert (A : ml_sorted l = true -> after_last l (m :: rest) -> gen_sorted (m :: rest)).
    { intros _ S. unfold after_last in S. destruct (ml_last l); [inversion S; assumption | exact S]. }
    destruct F as [H1 [H2 [H3 C]]].
    destruct (generated_position_after md match ml_last l with Some x => x | None => ml_dummy_last end m) as [b|p] eqn:Eb; [|split; [reflexivity | discriminate]].
    cbn [bind]. destruct b; cbn [then_do bind list_redone ml_array ml_sorted ml_last option_map].
    - split; [unfold list_redone; cbn [ml_array ml_sorted ml_last option_map]; rewrite map_app; reflexivity|]. intros l' E. injection E as <-. unfold fit, after_last. cbn [ml_array ml_sorted ml_last].
      split; [apply incl_app; [exact H1 | intros x [<-|[]]; apply H3; left; reflexivity]|].
      split; [intros x Hx; injection Hx as <-; apply H3; left; reflexivity|].
      split; [intros x Hx; apply H3; right; exact Hx|].
      destruct C as [C|[C1 [C2 C3]]]; [left; exact C | right; split; [exact C1 | split; [exact (A C1 C2) | inversion C3; assumption]]].
    - split; [unfold list_redone; cbn [ml_array ml_sorted ml_last option_map]; rewrite map_app; reflexivity|]. intros l' E. injection E as <-. unfold fit, after_last. cbn [ml_array ml_sorted ml_last].
      split; [apply incl_app; [exact H1 | intros x [<-|[]]; apply H3; left; reflexivity]|].
      split; [exact H2|]. split; [intros x Hx; apply H3; right; exact Hx|].
      destruct C as [C|[C1 [C2 C3]]]; [left; exact C|]. left. exfalso.
      unfold after_last in C2. destruct (ml_last l) as [a|] eqn:Ea.
      + inversion C2 as [|? ? _ F]; subst. inversion F as [|? ? G _]; subst.
        unfold generated_position_after in Eb. unfold gen_le, pos_le in G.
        destruct (_ || _) eqn:E in Eb; [discriminate | lia].
      + inversion C3 as [|? ? G _]; subst. unfold generated_position_after in Eb. cbn [ml_dummy_last m_generated p_line p_column] in Eb.
        replace (-1 <? p_line (m_generated m)) with true in Eb by lia. discriminate.
  Qed.

  Lemma insert_redone : forall (P : Mapping -> Prop) x l,
    (forall a b, P a -> P b -> compare_by_generated_pos_inflated md (redone a) (redone b) = compare_by_generated_pos_inflated md a b) ->
    P x -> Forall P l ->
    sort_insert (compare_by_generated_pos_inflated md) (redone x) (map redone l)
    = then_do (map redone) (sort_insert (compare_by_generated_pos_inflated md) x l).
  Proof.
    intros P x l HC Hx. induction l as [|y l IH]; intros Hl; [reflexivity|]. inv Hl. cbn [sort_insert map].
    rewrite HC by assumption. destruct (compare_by_generated_pos_inflated md x y) as [c|p]; [|reflexivity]. cbn [bind].
    destruct (0 <? c); [|reflexivity]. rewrite IH by assumption.
    destruct (sort_insert _ x l) as [r|p]; reflexivity.
  Qed.

  Lemma sort_redone : forall (P : Mapping -> Prop) l,
    (forall a b, P a -> P b -> compare_by_generated_pos_inflated md (redone a) (redone b) = compare_by_generated_pos_inflated md a b) ->
    Forall P l ->
    sort_by (compare_by_generated_pos_inflated md) (map redone l)
    = then_do (map redone) (sort_by (compare_by_generated_pos_inflated md) l).
  Proof.
    intros P l HC. induction l as [|x l IH]; intros Hl; [reflexivity|]. inv Hl. cbn [sort_by map].
    rewrite IH by assumption.
    destruct (sort_by (compare_by_generated_pos_inflated md) l) as [r|p] eqn:E; [|reflexivity]. cbn [then_do bind].
    apply (insert_redone P); [exact HC | assumption|].
    apply sort_perm in E. apply (Permutation_Forall E). assumption.
  Qed.

  Lemma to_array_redone : forall ms l rest, fit ms l rest ->
    ml_to_array md (list_redone l)
    = then_do (fun r => (map redone (fst r), list_redone (snd r))) (ml_to_array md l)
    /\ forall a l', ml_to_array md l = Ok (a, l') -> fit ms l' rest /\ incl a ms.
  Proof.
    intros ms l rest [H1 [H2 [H3 C]]]. unfold ml_to_array. cbn [list_redone ml_sorted ml_array ml_last].
    destruct (ml_sorted l) eqn:S; cbn [negb].
    - split; [unfold then_do; cbn [bind fst snd]; unfold list_redone; rewrite S; reflexivity|].
      intros a l' E. injection E as <- <-. split; [|exact H1]. unfold fit. rewrite S. auto.
    - destruct C as [[O I]|[C _]]; [|discriminate].
      rewrite (sort_redone (fun m => In m ms)).
      + destruct (sort_by (compare_by_generated_pos_inflated md) (ml_array l)) as [a|p] eqn:E; [|split; [reflexivity | discriminate]].
        split; [reflexivity|]. cbn [bind]. intros a' l' E'. injection E' as <- <-.
        assert (incl a ms).
        { intros x Hx. apply H1. apply sort_perm in E. apply (Permutation_in _ (Permutation_sym E)). exact Hx. }
        split; [|assumption]. unfold fit. cbn [ml_array ml_last ml_sorted]. repeat (split; [assumption|]). left. split; assumption.
      + intros a b Ha Hb. rewrite Forall_forall in I. apply (compare_equal ms); auto.
      + apply Forall_forall. exact H1.
  Qed.

  (** *** writing *)
  Definition state_down (st : SerState) : SerState :=
    mkSer (ss_generated_column st) (ss_generated_line st + k) (ss_original_column st) (ss_original_line st) (ss_name st) (ss_source st).

  Lemma tail_redone : forall S N m st, set_in fs S -> set_in ns N -> within m ->
    ser_tail md (set_by f S) (set_by n N) (redone m) (state_down st)
    = then_do (fun r => (fst r, state_down (snd r))) (ser_tail md S N m st).
  Proof.
    intros S N m st HS HN [Hs [Hn _]]. unfold ser_tail. cbn [redone m_source m_name m_original].
    destruct (m_source m) as [s|]; cbn [option_map]; [|reflexivity].
    rewrite (index_by f fs) by auto. destruct (as_index_of S s) as [i|]; cbn [unwrap bind]; [|reflexivity].
    cbn [state_down ss_source ss_original_line ss_original_column ss_name ss_generated_column ss_generated_line].
    destruct (i32_sub md (to_i32 i) (ss_source st)) as [d|p]; cbn [bind]; [|reflexivity].
    destruct (base64vlq_encode md d) as [f1|p]; cbn [bind]; [|reflexivity].
    destruct (m_original m) as [o|]; cbn [unwrap bind]; [|reflexivity].
    destruct (i32_sub md (p_line o) 1) as [ol|p]; cbn [bind]; [|reflexivity].
    destruct (i32_sub md ol (ss_original_line st)) as [d2|p]; cbn [bind]; [|reflexivity].
    destruct (base64vlq_encode md d2) as [f2|p]; cbn [bind]; [|reflexivity].
    destruct (i32_sub md (p_column o) (ss_original_column st)) as [d3|p]; cbn [bind]; [|reflexivity].
    destruct (base64vlq_encode md d3) as [f3|p]; cbn [bind]; [|reflexivity].
    destruct (m_name m) as [x|]; cbn [option_map]; [|reflexivity].
    rewrite (index_by n ns) by auto. destruct (as_index_of N x) as [j|]; cbn [unwrap bind]; [|reflexivity].
    destruct (i32_sub md (to_i32 j) (ss_name st)) as [d4|p]; cbn [bind]; [|reflexivity].
    destruct (base64vlq_encode md d4) as [f4|p]; cbn [bind]; reflexivity.
  Qed.

  Lemma segment_redone : forall S N m st, set_in fs S -> set_in ns N -> within m ->
    ser_segment md (set_by f S) (set_by n N) (redone m) (state_down st)
    = then_do (fun r => (fst r, state_down (snd r))) (ser_segment md S N m st).
  Proof.
    intros S N m st HS HN W. unfold ser_segment. cbn [redone m_generated p_column state_down ss_generated_column].
    destruct (i32_sub md (p_column (m_generated m)) (ss_generated_column st)) as [d|p]; cbn [bind]; [|reflexivity].
    destruct (base64vlq_encode md d) as [f0|p]; cbn [bind]; [|reflexivity].
    pose proof (tail_redone S N m (mkSer (p_column (m_generated m)) (ss_generated_line st) (ss_original_column st)
      (ss_original_line st) (ss_name st) (ss_source st)) HS HN W) as T. unfold state_down in T at 1.
    cbn [ss_generated_column ss_generated_line ss_original_column ss_original_line ss_name ss_source] in T.
    cbn [state_down ss_original_column ss_original_line ss_name ss_source ss_generated_line].
    rewrite T.
    destruct (ser_tail md S N m _) as [[t st']|p]; reflexivity.
  Qed.

  Lemma segment_line : forall S N m st t st', ser_segment md S N m st = Ok (t, st') ->
    ss_generated_line st' = ss_generated_line st.
  Proof.
    intros S N m st t st' H. unfold ser_segment in H.
    destruct (i32_sub md (p_column (m_generated m)) (ss_generated_column st)) as [d|p]; cbn [bind] in H; [|discriminate].
    destruct (base64vlq_encode md d) as [f0|p]; cbn [bind] in H; [|discriminate].
    destruct (ser_tail md S N m _) as [[u st1]|p] eqn:E; cbn [bind] in H; [|discriminate]. injection H as <- <-.
    unfold ser_tail in E. destruct (m_source m) as [s|]; [|injection E as <- <-; reflexivity].
    cbn [ss_generated_line ss_generated_column ss_original_column ss_original_line ss_name ss_source] in E.
    repeat match type of E with
    | bind ?r _ = _ => destruct r; cbn [bind] in E; [|discriminate]
    | match m_name m with _ => _ end = _ => destruct (m_name m)
    end; injection E as <- <-; reflexivity.
  Qed.

  (** the line the state is at *)
  Definition at_line (z : Z) : Prop := k = 0 \/ 1 <= z <= 2147483647 - k.

  Lemma within_line : forall m, within m -> at_line (p_line (m_generated m)).
  Proof.
    intros m [_ [_ [H|[H1 H2]]]]; [left; exact H | right]. unfold i32_max in H2. change (2^31) with 2147483648 in H2. lia.
  Qed.

  Lemma semis_moved : forall line prev next, at_line line -> at_line prev ->
    semicolon_loop md (semicolon_fuel (line + k) (prev + k)) (line + k) (prev + k) next
    = then_do (fun r => (fst r, snd r + k)) (semicolon_loop md (semicolon_fuel line prev) line prev next).
  Proof.
    intros line prev next [->|Hl] [H0|Hp].
    1, 2: rewrite !Z.add_0_r; destruct (semicolon_loop md _ line prev next) as [[a b]|p]; cbn [then_do bind fst snd];
      rewrite ?Z.add_0_r; reflexivity.
    - rewrite H0, !Z.add_0_r. destruct (semicolon_loop md _ line prev next) as [[a b]|p]; cbn [then_do bind fst snd];
      rewrite ?Z.add_0_r; reflexivity.
    - rewrite (semis md line prev) by (unfold i32; lia). rewrite (semis md (line + k)) by (unfold i32; lia). rewrite fuel_moved.
      replace (line + k <? prev + k) with (line <? prev) by lia.
      destruct md; [destruct (line <? prev)|]; reflexivity.
  Qed.

  Lemma loop_redone : forall S N, set_in fs S -> set_in ns N -> forall ms p st result,
    Forall within ms -> within p -> at_line (ss_generated_line st) ->
    ser_loop md (set_by f S) (set_by n N) (Some (redone p)) (map redone ms) (state_down st) result
    = ser_loop md S N (Some p) ms st result.
  Proof.
    intros S N HS HN. induction ms as [|m ms IH]; intros p st result HF Hp Hst; [reflexivity|]. inv HF.
    cbn [map ser_loop]. cbn [redone m_generated p_line]. cbn [state_down ss_generated_line].
    replace (p_line (m_generated m) + k =? ss_generated_line st + k) with (p_line (m_generated m) =? ss_generated_line st) by lia.
    destruct (p_line (m_generated m) =? ss_generated_line st) eqn:E; cbn [negb].
    - pose proof (compare_alike m p ltac:(assumption) Hp) as C. fold (redone m).
      destruct (compare_by_generated_pos_inflated md m p) as [c|x];
        destruct (compare_by_generated_pos_inflated md (redone m) (redone p)) as [c'|x']; cbn [zero_alike] in C; try contradiction;
        [|subst x'; reflexivity]. cbn [bind]. rewrite <- C. destruct (c =? 0).
      + apply IH; assumption.
      + fold (state_down st). rewrite segment_redone by assumption.
        destruct (ser_segment md S N m st) as [[seg st']|x] eqn:Es; cbn [then_do bind fst snd]; [|reflexivity].
        apply IH; [assumption | assumption |]. rewrite (segment_line _ _ _ _ _ _ Es). exact Hst.
    - cbn [state_down ss_generated_line ss_generated_column ss_original_column ss_original_line ss_name ss_source].
      rewrite semis_moved by (try exact Hst; apply within_line; assumption).
      destruct (semicolon_loop md _ _ _ []) as [[next line]|x] eqn:El; cbn [then_do bind fst snd]; [|reflexivity].
      pose proof (segment_redone S N m (mkSer 0 line (ss_original_column st) (ss_original_line st) (ss_name st) (ss_source st))
        HS HN ltac:(assumption)) as T. unfold state_down in T at 1.
      cbn [ss_generated_column ss_generated_line ss_original_column ss_original_line ss_name ss_source] in T.
      fold (redone m). rewrite T. clear T.
      destruct (ser_segment md S N m _) as [[seg st']|x] eqn:Es; cbn [then_do bind fst snd]; [|reflexivity].
      apply IH; [assumption | assumption |]. rewrite (segment_line _ _ _ _ _ _ Es). cbn [ss_generated_line].
      apply semis_line in El. subst line. apply within_line. assumption.
  Qed.

  (** the first mapping is further down *)
  Lemma text_redone : forall S N ms, set_in fs S -> set_in ns N -> Forall within ms ->
    ser_loop md (set_by f S) (set_by n N) None (map redone ms) ser_init []
    = then_do (fun s => match ms with [] => s | _ => banner k ++ s end) (ser_loop md S N None ms ser_init []).
  Proof.
    intros S N [|m ms] HS HN HF; [reflexivity|]. inv HF.
    assert (Hm : within m) by assumption. assert (Hms : Forall within ms) by assumption.
    pose proof (within_line m Hm) as Hl.
    destruct (Z.eq_dec k 0) as [K|K].
    - replace (banner k) with (@nil char) by (rewrite K; reflexivity).
      assert (E : forall st, state_down st = st) by (intros []; unfold state_down; cbn; rewrite K, Z.add_0_r; reflexivity).
      transitivity (ser_loop md S N None (m :: ms) ser_init []); [|destruct (ser_loop md S N None (m :: ms) ser_init []); reflexivity].
      cbn [map ser_loop]. cbn [redone m_generated p_line]. fold (redone m). rewrite K, Z.add_0_r.
      destruct (negb (p_line (m_generated m) =? ss_generated_line ser_init)).
      + cbn [ss_generated_line ser_init ss_generated_column ss_original_column ss_original_line ss_name ss_source].
        destruct (semicolon_loop md _ _ _ []) as [[next line]|x] eqn:El; cbn [bind]; [|reflexivity].
        pose proof (segment_redone S N m (mkSer 0 line 0 0 0 0) HS HN Hm) as T. rewrite E in T. rewrite T. clear T.
        destruct (ser_segment md S N m _) as [[seg st']|x] eqn:Es; cbn [then_do bind fst snd]; [|reflexivity].
        apply loop_redone; [exact HS | exact HN | exact Hms | exact Hm | left; exact K].
      + pose proof (segment_redone S N m ser_init HS HN Hm) as T. rewrite E in T. rewrite T. clear T.
        destruct (ser_segment md S N m _) as [[seg st']|x] eqn:Es; cbn [then_do bind fst snd]; [|reflexivity].
        apply loop_redone; [exact HS | exact HN | exact Hms | exact Hm | left; exact K].
    - destruct Hl as [Hl|Hl]; [contradiction|].
      assert (El : semicolon_loop md (semicolon_fuel (p_line (m_generated m) + k) 1) (p_line (m_generated m) + k) 1 []
        = Ok (banner k ++ banner (p_line (m_generated m) - 1), p_line (m_generated m) + k)).
      { rewrite semis by (unfold i32; lia). replace (p_line (m_generated m) + k <? 1) with false by lia.
        assert (E : repeat (ch ";") (semicolon_fuel (p_line (m_generated m) + k) 1)
          = banner k ++ banner (p_line (m_generated m) - 1)).
        { unfold banner. rewrite <- repeat_app. f_equal. apply Nat2Z.inj. rewrite fuel_small by lia. lia. }
        rewrite E. destruct md; reflexivity. }
      cbn [map ser_loop]. cbn [redone m_generated p_line]. fold (redone m).
      cbn [ss_generated_line ser_init ss_generated_column ss_original_column ss_original_line ss_name ss_source].
      replace (p_line (m_generated m) + k =? 1) with false by lia. cbn [negb]. rewrite El. cbn [bind].
      pose proof (segment_redone S N m (mkSer 0 (p_line (m_generated m)) 0 0 0 0) HS HN Hm) as T. unfold state_down in T at 1.
      cbn [ss_generated_column ss_generated_line ss_original_column ss_original_line ss_name ss_source] in T. rewrite T. clear T.
      assert (G : forall result, (let* r := then_do (fun r => (fst r, state_down (snd r)))
             (ser_segment md S N m (mkSer 0 (p_line (m_generated m)) 0 0 0 0)) in
           (let '(seg, st) := r in ser_loop md (set_by f S) (set_by n N) (Some (redone m)) (map redone ms) st (result ++ seg)))
         = (let* r := ser_segment md S N m (mkSer 0 (p_line (m_generated m)) 0 0 0 0) in
            (let '(seg, st) := r in ser_loop md S N (Some m) ms st (result ++ seg)))).
      { intros result. destruct (ser_segment md S N m _) as [[seg st']|x] eqn:Es; cbn [then_do bind fst snd]; [|reflexivity].
        apply loop_redone; [exact HS | exact HN | exact Hms | exact Hm |].
        rewrite (segment_line _ _ _ _ _ _ Es). cbn [ss_generated_line]. right. lia. }
      destruct (p_line (m_generated m) =? 1) eqn:E1; cbn [negb].
      + assert (L1 : p_line (m_generated m) = 1) by lia. rewrite L1 in *.
        specialize (G (banner k)). change (banner (1 - 1)) with (@nil char). rewrite app_nil_r.
        transitivity (let* r := ser_segment md S N m ser_init in
            (let '(seg, st) := r in ser_loop md S N (Some m) ms st (banner k ++ seg))); [exact G|].
        destruct (ser_segment md S N m ser_init) as [[seg st']|x]; cbn [then_do bind]; [|reflexivity].
        rewrite ser_loop_acc. rewrite (ser_loop_acc md S N ms (Some m) st' ([] ++ seg)).
        destruct (ser_loop md S N (Some m) ms st' []) as [s|x]; cbn [then_do bind]; [|reflexivity]. rewrite <- app_assoc. reflexivity.
      + assert (E2 : semicolon_loop md (semicolon_fuel (p_line (m_generated m)) 1) (p_line (m_generated m)) 1 []
          = Ok (banner (p_line (m_generated m) - 1), p_line (m_generated m))).
        { rewrite semis by (unfold i32; lia). replace (p_line (m_generated m) <? 1) with false by lia.
          replace (repeat (ch ";") (semicolon_fuel (p_line (m_generated m)) 1)) with (banner (p_line (m_generated m) - 1));
            [destruct md; reflexivity|].
          unfold banner. f_equal. apply Nat2Z.inj. rewrite fuel_small by lia. lia. }
        rewrite E2. cbn [bind].
        specialize (G (banner k ++ banner (p_line (m_generated m) - 1))).
        transitivity (let* r := ser_segment md S N m (mkSer 0 (p_line (m_generated m)) 0 0 0 0) in
            (let '(seg, st) := r in ser_loop md S N (Some m) ms st ((banner k ++ banner (p_line (m_generated m) - 1)) ++ seg)));
          [rewrite <- G; reflexivity|].
        destruct (ser_segment md S N m _) as [[seg st']|x]; cbn [then_do bind]; [|reflexivity].
        rewrite ser_loop_acc. rewrite (ser_loop_acc md S N ms (Some m) st' ([] ++ _)).
        destruct (ser_loop md S N (Some m) ms st' []) as [s|x]; cbn [then_do bind]; [|reflexivity].
        cbn [app]. rewrite <- !app_assoc. reflexivity.
  Qed.

  (** *** the generator *)
  Definition gen_redone (g : Generator) : Generator :=
    mkGen (g_file g) (g_source_root g) (g_skip_validation g) (set_by f (g_sources g)) (set_by n (g_names g))
          (list_redone (g_mappings g)) (keyed_by f (g_source_contents g)).

  Definition redone_call (op : gen_op) : gen_op :=
    match op with
    | GAdd m => GAdd (redone m)
    | GContent s c => GContent (f s) c
    | GJson => GJson
    end.

  Definition redone_map (nothing : bool) (j : SourceMapJson) : SourceMapJson :=
    called_map f n (if nothing then j else with_banner k j).

  (** the contents can be found *)
  Definition contents_fit (g : Generator) (ops : list gen_op) : Prop :=
    (forall s, f s = s)
    \/ (incl (map fst (g_source_contents g)) fs
        /\ (g_source_root g = None \/ g_source_contents g = [] /\ no_content ops)).

  Definition gen_fit (ms : list Mapping) (g : Generator) (ops : list gen_op) : Prop :=
    set_in fs (g_sources g) /\ set_in ns (g_names g) /\ fit ms (g_mappings g) (added_mappings ops)
    /\ contents_fit g ops.

  Lemma keyed_id : forall V (m : hmap V), (forall s, f s = s) -> keyed_by f m = m.
  Proof.
    intros V m H. induction m as [|[s v] m IH]; [reflexivity|]. cbn [keyed_by map fst snd]. rewrite H. f_equal. exact IH.
  Qed.

  Lemma map_id_f : forall l, (forall s, f s = s) -> map f l = l.
  Proof. intros l H. induction l as [|x l IH]; [reflexivity|]. cbn [map]. rewrite H. f_equal. exact IH. Qed.

  Lemma contents_redone : forall g ops, contents_fit g ops -> set_in fs (g_sources g) -> g_source_contents g <> [] ->
    generate_sources_contents md U (gen_redone g) (map f (as_array (g_sources g))) (g_source_root g)
    = generate_sources_contents md U g (as_array (g_sources g)) (g_source_root g).
  Proof.
    intros g ops [I|[Hk [R|[E _]]]] [_ HS] Hne; [| |contradiction].
    - unfold generate_sources_contents. rewrite map_id_f by exact I. cbn [gen_redone g_source_contents]. rewrite keyed_id by exact I. reflexivity.
    - unfold generate_sources_contents. rewrite R. cbn [gen_redone g_source_contents].
      apply mapM_renamed. intros x Hx. cbn [bind].
      unfold hm_contains. rewrite (hm_get_keyed _ f fs) by (try assumption; apply HS; exact Hx). reflexivity.
  Qed.

  Lemma json_redone : forall ms g ops, gen_fit ms g ops -> Forall within ms ->
    gen_as_json md U (gen_redone g)
    = then_do (fun r => (redone_map (match ml_array (g_mappings g) with [] => true | _ => false end) (fst r), gen_redone (snd r)))
              (gen_as_json md U g)
    /\ forall j g', gen_as_json md U g = Ok (j, g') ->
       gen_fit ms g' ops /\ (ml_array (g_mappings g') = [] <-> ml_array (g_mappings g) = []).
  Proof.
    intros ms g ops [HS [HN [HF HC]]] HW.
    destruct (to_array_redone ms (g_mappings g) _ HF) as [Ea Fa].
    assert (Ec : match g_source_contents (gen_redone g) with
                 | [] => Ok None
                 | _ => let* l := generate_sources_contents md U (gen_redone g) (as_to_vec (g_sources (gen_redone g))) (g_source_root (gen_redone g)) in
                        Ok (Some (flatten_options l))
                 end
               = match g_source_contents g with
                 | [] => Ok None
                 | _ => let* l := generate_sources_contents md U g (as_to_vec (g_sources g)) (g_source_root g) in
                        Ok (Some (flatten_options l))
                 end).
    { pose proof (contents_redone g ops HC HS) as E. unfold as_to_vec. cbn [gen_redone g_source_contents g_sources g_source_root set_by as_array] in *.
      destruct (g_source_contents g) as [|x l] eqn:Eg; [reflexivity|]. cbn [keyed_by map].
      rewrite E by discriminate. reflexivity. }
    unfold gen_as_json. rewrite Ec. clear Ec.
    match goal with |- context [bind ?r _] => destruct r as [sc|p] end; cbn [bind]; [|split; [reflexivity | discriminate]].
    unfold serialize_mappings. cbn [gen_redone g_mappings]. rewrite Ea.
    destruct (ml_to_array md (g_mappings g)) as [[a l']|p] eqn:Et; cbn [then_do bind fst snd]; [|split; [reflexivity | discriminate]].
    destruct (Fa a l' eq_refl) as [Fl Fi].
    cbn [gen_redone g_sources g_names g_file g_source_root g_skip_validation g_source_contents].
    rewrite text_redone; [|exact HS | exact HN | apply Forall_forall; intros x Hx; rewrite Forall_forall in HW; apply HW; apply Fi; exact Hx].
    assert (Hnil : match a with [] => true | _ => false end = match ml_array (g_mappings g) with [] => true | _ => false end).
    { apply to_array_perm in Et. destruct a as [|x a], (ml_array (g_mappings g)) as [|y b]; try reflexivity.
      - apply Permutation_sym, Permutation_nil in Et. discriminate.
      - apply Permutation_nil in Et. discriminate. }
    destruct (ser_loop md (g_sources g) (g_names g) None a ser_init []) as [s|p]; cbn [then_do bind fst snd]; [|split; [reflexivity | discriminate]].
    split.
    - f_equal. f_equal. rewrite <- Hnil. destruct a; reflexivity.
    - intros j g' E. injection E as <- <-. cbn [g_mappings]. split.
      + split; [exact HS|]. split; [exact HN|]. split; [exact Fl | exact HC].
      + assert (P : Permutation (ml_array (g_mappings g)) (ml_array l')).
        { unfold ml_to_array in Et. destruct (negb (ml_sorted (g_mappings g))) eqn:Sg.
          - destruct (sort_by _ _) as [x|p] eqn:Es in Et; cbn [bind] in Et; [|discriminate]. injection Et as <- <-.
            cbn [ml_array]. exact (sort_perm _ _ _ _ Es).
          - injection Et as <- <-. apply Permutation_refl. }
        split; intros E; rewrite E in P; [apply Permutation_sym in P|]; apply Permutation_nil in P; exact P.
  Qed.

  Lemma contents_fit_tail : forall g op ops, contents_fit g (op :: ops) -> contents_fit g ops.
  Proof.
    intros g op ops [I|[Hk [R|[E N]]]]; [left; exact I | right; split; [exact Hk | left; exact R] |].
    right. split; [exact Hk|]. right. split; [exact E|]. intros s c H. apply (N s c). right. exact H.
  Qed.

  Lemma run_redone : forall ms, Forall within ms -> forall ops g, gen_fit ms g ops -> incl (files_in ops) fs ->
    gen_run md U (gen_redone g) (map redone_call ops) = then_do gen_redone (gen_run md U g ops)
    /\ forall g', gen_run md U g ops = Ok g' ->
       gen_fit ms g' [] /\ (ml_array (g_mappings g') = [] <-> ml_array (g_mappings g) = [] /\ added_mappings ops = []).
  Proof.
    intros ms HW. induction ops as [|op ops IH]; intros g HG Hfs.
    - split; [reflexivity|]. intros g' E. injection E as <-. split; [exact HG|]. cbn [added_mappings]. tauto.
    - cbn [map gen_run]. destruct op as [m|s c|]; cbn [redone_call gen_step].
      + destruct HG as [HS [HN [HF HC]]]. cbn [added_mappings] in HF.
        assert (Wm : within m) by (rewrite Forall_forall in HW; apply HW; apply HF; left; reflexivity).
        destruct (add_redone ms (g_mappings g) m (added_mappings ops) HF Wm) as [E F].
        unfold gen_add_mapping. cbn [gen_redone g_mappings g_sources g_names g_file g_source_root g_skip_validation g_source_contents].
        cbn [redone m_source m_name]. fold (redone m). rewrite E.
        destruct Wm as [Ws [Wn _]].
        destruct (add_by f fs (g_sources g) (m_source m) inj_f HS Ws) as [E1 I1].
        destruct (add_by n ns (g_names g) (m_name m) inj_n HN Wn) as [E2 I2]. rewrite E1, E2.
        destruct (ml_add md (g_mappings g) m) as [l'|p] eqn:El; cbn [then_do bind]; [|split; [reflexivity | discriminate]].
        match goal with |- context [gen_run md U ?g1 ops] => set (g2 := g1) end.
        destruct (IH g2) as [E3 F3].
        * split; [exact I1|]. split; [exact I2|]. split; [exact (F l' eq_refl) | exact (contents_fit_tail _ _ _ HC)].
        * intros x Hx. apply Hfs. cbn [files_in]. destruct (m_source m); [right|]; exact Hx.
        * split; [exact E3|]. intros g' Eg. destruct (F3 g' Eg) as [G1 G2]. split; [exact G1|]. rewrite G2. cbn [g2 g_mappings added_mappings].
          assert (ml_array l' <> []).
          { unfold ml_add in El. destruct (generated_position_after md _ m) as [b|p]; cbn [bind] in El; [|discriminate].
            destruct b; injection El as <-; cbn [ml_array]; intros H; apply app_eq_nil in H; destruct H; discriminate. }
          split; [intros [H1 _]; contradiction | intros [_ H1]; discriminate].
      + destruct HG as [HS [HN [HF HC]]].
        assert (Hs : In s fs) by (apply Hfs; left; reflexivity).
        unfold gen_set_source_content. cbn [gen_redone g_mappings g_sources g_names g_file g_source_root g_skip_validation g_source_contents].
        assert (E : (let* source := match g_source_root g with Some r => relative md U r (f s) | None => Ok (f s) end in
                     Ok match c with
                        | Some content => hm_insert source content (keyed_by f (g_source_contents g))
                        | None => hm_remove source (keyed_by f (g_source_contents g)) end)
            = then_do (keyed_by f) (let* source := match g_source_root g with Some r => relative md U r s | None => Ok s end in
                     Ok match c with
                        | Some content => hm_insert source content (g_source_contents g)
                        | None => hm_remove source (g_source_contents g) end)).
        { destruct HC as [I|[Hk [R|[_ N]]]].
          - rewrite (I s), (keyed_id _ _ I). destruct (match g_source_root g with Some r => relative md U r s | None => Ok s end) as [x|p]; cbn [then_do bind];
              [rewrite (keyed_id _ _ I)|]; reflexivity.
          - rewrite R. cbn [then_do bind]. unfold hm_insert. rewrite (hm_remove_keyed _ f fs) by assumption.
            destruct c; reflexivity.
          - exfalso. apply (N s c). left. reflexivity. }
        destruct (match g_source_root g with Some r => relative md U r s | None => Ok s end) as [x|p] eqn:Ex;
          destruct (match g_source_root g with Some r => relative md U r (f s) | None => Ok (f s) end) as [x'|p'];
          cbn [then_do bind] in E; cbn [then_do bind]; try discriminate E.
        * assert (E' : match c with
                       | Some content => hm_insert x' content (keyed_by f (g_source_contents g))
                       | None => hm_remove x' (keyed_by f (g_source_contents g)) end
                       = keyed_by f match c with
                       | Some content => hm_insert x content (g_source_contents g)
                       | None => hm_remove x (g_source_contents g) end) by congruence.
          rewrite E'. clear E E'.
          match goal with |- context [gen_run md U ?g1 ops] => set (g2 := g1) end.
          destruct (IH g2) as [E3 F3].
          -- split; [exact HS|]. split; [exact HN|]. split; [exact HF|].
             destruct HC as [I|[Hk [R|[_ N]]]]; [left; exact I| |exfalso; apply (N s c); left; reflexivity].
             right. cbn [g2 g_source_contents g_source_root]. split; [|left; exact R].
             rewrite R in Ex. injection Ex as <-. destruct c as [c|].
             ++ unfold hm_insert. intros y [<-|Hy]; [exact Hs | apply Hk; apply hm_remove_keys in Hy; exact Hy].
             ++ intros y Hy. apply Hk. apply hm_remove_keys in Hy. exact Hy.
          -- intros y Hy. apply Hfs. right. exact Hy.
          -- split; [exact E3 | exact F3].
        * split; [congruence | discriminate].
      + destruct (json_redone ms g (GJson :: ops) HG HW) as [E F]. rewrite E.
        destruct (gen_as_json md U g) as [[j g1]|p]; cbn [then_do bind fst snd]; [|split; [reflexivity | discriminate]].
        destruct (F j g1 eq_refl) as [[F1 [F2 [F3 F4]]] F5].
        destruct (IH g1) as [E3 G3].
        * split; [exact F1|]. split; [exact F2|]. split; [exact F3 | exact (contents_fit_tail _ _ _ F4)].
        * exact Hfs.
        * split; [exact E3|]. intros g' Eg. destruct (G3 g' Eg) as [G1 G2]. split; [exact G1|]. rewrite G2, F5. reflexivity.
  Qed.

  Lemma observe_redone : forall file root skip ops,
    Forall within (added_mappings ops) -> incl (files_in ops) fs ->
    ((forall s, f s = s) \/ root = None \/ no_content ops) ->
    (same_order f n (added_mappings ops) /\ Forall i32_generated (added_mappings ops)
     \/ gen_sorted (added_mappings ops) /\ Forall (fun m => 0 <= p_line (m_generated m)) (added_mappings ops)) ->
    observe_json md U (gen_new file root skip) (map redone_call ops)
    = then_do (redone_map (match added_mappings ops with [] => true | _ => false end))
              (observe_json md U (gen_new file root skip) ops).
  Proof.
    intros file root skip ops HW Hfs HC HO. unfold observe_json.
    assert (HG : gen_fit (added_mappings ops) (gen_new file root skip) ops).
    { split; [split; intros x []|]. split; [split; intros x []|]. split.
      - split; [intros x []|]. split; [intros m Hm; discriminate|]. split; [apply incl_refl|].
        destruct HO as [HO|[O1 O2]]; [left; exact HO | right]. cbn [gen_new g_mappings ml_new ml_sorted]. split; [reflexivity|].
        split; [exact O1 | exact O2].
      - destruct HC as [I|[R|N]]; [left; exact I | right; split; [intros x [] | left; exact R] |].
        right. split; [intros x []|]. right. split; [reflexivity | exact N]. }
    destruct (run_redone _ HW ops _ HG Hfs) as [E F]. change (gen_redone (gen_new file root skip)) with (gen_new file root skip) in E.
    rewrite E. destruct (gen_run md U (gen_new file root skip) ops) as [g|p]; cbn [then_do bind]; [|reflexivity].
    destruct (F g eq_refl) as [G1 G2]. destruct (json_redone _ g [] G1 HW) as [E3 _]. rewrite E3.
    destruct (gen_as_json md U g) as [[j g1]|p]; cbn [then_do bind fst snd]; [|reflexivity]. f_equal. f_equal.
    cbn [gen_new g_mappings ml_new ml_array] in G2.
    destruct (ml_array (g_mappings g)) as [|x l], (added_mappings ops) as [|y r]; try reflexivity.
    - destruct (proj1 G2 eq_refl). discriminate.
    - pose proof (proj2 G2 (conj eq_refl eq_refl)). discriminate.
  Qed.
End Redo.

(** ** C104 *)
Lemma redone_moved : forall k ops, map (redone_call k (fun s => s) (fun s => s)) ops = map (moved_call k) ops.
Proof.
  intros k ops. apply map_ext. intros [m|s c|]; try reflexivity. unfold redone_call, moved_call, redone, moved.
  destruct (m_source m), (m_name m); reflexivity.
Qed.

Lemma names_of_added : forall ops m s, In m (added_mappings ops) -> m_name m = Some s -> In s (names_in ops).
Proof.
  induction ops as [|[x|t c|] ops IH]; cbn [added_mappings names_in]; intros m s Hm E; [destruct Hm| |exact (IH m s Hm E)..].
  destruct Hm as [->|Hm]; [rewrite E; left; reflexivity|]. destruct (m_name x); [right|]; exact (IH m s Hm E).
Qed.

Lemma files_of_added : forall ops m s, In m (added_mappings ops) -> m_source m = Some s -> In s (files_in ops).
Proof.
  induction ops as [|[x|t c|] ops IH]; cbn [added_mappings files_in]; intros m s Hm E; [destruct Hm| |right; exact (IH m s Hm E)|exact (IH m s Hm E)].
  destruct Hm as [->|Hm]; [rewrite E; left; reflexivity|]. destruct (m_source x); [right|]; exact (IH m s Hm E).
Qed.

Lemma called_id : forall j, called_map (fun s => s) (fun s => s) j = j.
Proof.
  intros [v s n m f r c x]. unfold called_map. cbn.
  destruct s as [s|], n as [n|]; cbn [option_map]; rewrite ?map_id; reflexivity.
Qed.

Lemma option_id : forall (o : option str), option_map (fun s => s) o = o.
Proof. intros [x|]; reflexivity. Qed.

Lemma generator_moved : forall md U file root skip ops k, 0 <= k -> Forall (room k) (added_mappings ops) ->
  Forall i32_place (added_mappings ops) ->
  observe_json md U (gen_new file root skip) (map (moved_call k) ops)
  = let* j := observe_json md U (gen_new file root skip) ops in
    Ok (match added_mappings ops with [] => j | _ => with_banner k j end).
Proof.
  intros md U file root skip ops k Hk HR HI. rewrite <- redone_moved.
  rewrite (observe_redone md U k (fun s => s) (fun s => s) (files_in ops) (names_in ops)).
  - unfold then_do. destruct (observe_json md U (gen_new file root skip) ops) as [j|p]; [|reflexivity]. cbn [bind].
    f_equal. unfold redone_map. rewrite called_id. destruct (added_mappings ops); reflexivity.
  - intros s t _ _ E. exact E.
  - intros s t _ _ E. exact E.
  - exact Hk.
  - apply Forall_forall. intros m Hm. rewrite Forall_forall in HR. split; [intros s; apply files_of_added; exact Hm|].
    split; [intros s; apply names_of_added; exact Hm | right; apply HR; exact Hm].
  - apply incl_refl.
  - left. reflexivity.
  - left. split; [intros a b _ _ _; rewrite !option_id; split; reflexivity|].
    revert HI. apply Forall_impl. intros m. unfold i32_place, in_window, i32_generated, i32, i32_min, i32_max.
    change (2^31) with 2147483648. intros [H1 H2]. lia.
Qed.

(** ** C105 *)
Lemma redone_called : forall f n ops, map (redone_call 0 f n) ops = map (called_call f n) ops.
Proof.
  intros f n ops. apply map_ext. intros [m|s c|]; try reflexivity. unfold redone_call, called_call, redone, called.
  rewrite Z.add_0_r. destruct (m_generated m); reflexivity.
Qed.

Lemma banner_none : forall j, with_banner 0 j = j.
Proof. intros [v s n [m|] f r c x]; reflexivity. Qed.

Lemma generator_called : forall md U file root skip ops f n,
  one_to_one f (files_in ops) -> one_to_one n (names_in ops) -> (root = None \/ no_content ops) ->
  (same_order f n (added_mappings ops) /\ Forall i32_place (added_mappings ops)
   \/ gen_sorted (added_mappings ops) /\ Forall (fun m => 0 <= p_line (m_generated m)) (added_mappings ops)) ->
  observe_json md U (gen_new file root skip) (map (called_call f n) ops)
  = let* j := observe_json md U (gen_new file root skip) ops in Ok (called_map f n j).
Proof.
  intros md U file root skip ops f n If In_ HC HO. rewrite <- redone_called.
  rewrite (observe_redone md U 0 f n (files_in ops) (names_in ops)).
  - unfold then_do. destruct (observe_json md U (gen_new file root skip) ops) as [j|p]; [|reflexivity]. cbn [bind].
    f_equal. unfold redone_map. rewrite banner_none. destruct (added_mappings ops); reflexivity.
  - exact If.
  - exact In_.
  - lia.
  - apply Forall_forall. intros m Hm. split; [intros s; apply files_of_added; exact Hm|].
    split; [intros s; apply names_of_added; exact Hm | left; reflexivity].
  - apply incl_refl.
  - right. exact HC.
  - destruct HO as [[O I]|O]; [left; split; [exact O|] | right; exact O].
    revert I. apply Forall_impl. intros m. unfold i32_place, in_window, i32_generated, i32, i32_min, i32_max.
    change (2^31) with 2147483648. intros [H1 H2]. lia.
Qed.

(** * The sections of an indexed map, moved *)
From Verif Require Import F_Base M_ArraySet M_BinarySearch M_Mapping M_Util M_SourceMap M_Generator M_Json M_MapLib
  M_Consumer M_Indexed S_List S_Mapping S_MapLib S_Consumer S_Indexed S_Sections F_Consumer F_Indexed.
From Coq Require Import Sorting.Permutation.

Lemma vget_map : forall A B (f : A -> B) l i, vec_get (map f l) i = option_map f (vec_get l i).
Proof. intros. unfold vec_get, len. rewrite map_length. destruct (_ && _); [apply nth_error_map | reflexivity]. Qed.
Lemma vindex_map : forall A B (f : A -> B) l i,
  vec_index (map f l) i = let* a := vec_index l i in Ok (f a).
Proof. intros. unfold vec_index. rewrite vget_map. destruct (vec_get l i); reflexivity. Qed.
Lemma update_map : forall A B (f : A -> B) l n a, update (map f l) n (f a) = map f (update l n a).
Proof. intros A B f. induction l as [|x l IH]; intros [|n] a; cbn; try reflexivity. rewrite IH. reflexivity. Qed.

(** Searching in a translated list *)
Section Translate.
  Context {T1 T2 T1' T2' : Type} (md : mode) (x : T1) (x' : T1') (F : T2 -> T2') (hay : list T2).
  Context (f1 : T1 -> T2 -> res Z) (g1 : T1' -> T2' -> res Z) (f2 : T2 -> T2 -> res Z) (g2 : T2' -> T2' -> res Z).
  Context (e1 : forall h, g1 x' (F h) = f1 x h) (e2 : forall h h', g2 (F h) (F h') = f2 h h').

  Lemma rs_map : forall fuel low high bias,
    recursive_search md fuel low high x' (map F hay) g1 bias = recursive_search md fuel low high x hay f1 bias.
  Proof.
    induction fuel as [|fuel IH]; intros low high bias; [reflexivity|]. cbn [recursive_search].
    destruct (i32_sub md high low) as [d|p]; [|reflexivity]. cbn [bind].
    destruct (i32_add md (Z.quot d 2) low) as [mid|p]; [|reflexivity]. cbn [bind]. rewrite vindex_map.
    destruct (vec_index hay (to_usize mid)) as [h|p]; [|reflexivity]. cbn [bind].
    rewrite e1. destruct (f1 x h) as [cmp|p]; [|reflexivity]. cbn [bind].
    unfold len. rewrite map_length.
    destruct (cmp =? 0); [reflexivity|]. destruct (0 <? cmp).
    - destruct (i32_sub md high mid) as [hm|p]; [|reflexivity]. cbn [bind]. rewrite IH. reflexivity.
    - destruct (i32_sub md mid low) as [hm|p]; [|reflexivity]. cbn [bind]. rewrite IH. reflexivity.
  Qed.

  Lemma fe_map : forall fuel index, first_equal md fuel index (map F hay) g2 = first_equal md fuel index hay f2.
  Proof.
    induction fuel as [|fuel IH]; intros index; cbn [first_equal]; [reflexivity|].
    destruct (0 <? index); [|reflexivity]. rewrite vindex_map.
    destruct (vec_index hay (to_usize index)) as [a|p]; [|reflexivity]. cbn [bind].
    destruct (i32_sub md index 1) as [i1|p]; [|reflexivity]. cbn [bind]. rewrite vindex_map.
    destruct (vec_index hay (to_usize i1)) as [b|p]; [|reflexivity]. cbn [bind].
    rewrite e2. destruct (f2 a b); [|reflexivity]. cbn [bind]. rewrite IH. reflexivity.
  Qed.

  Lemma search_map : forall bias, search md x' (map F hay) g1 g2 bias = search md x hay f1 f2 bias.
  Proof.
    intros bias.
    set (b := match bias with Some b => b | None => GREATEST_LOWER_BOUND end).
    assert (X : (let* index := recursive_search md (S (S (List.length (map F hay)))) (-1) (to_i32 (len (map F hay))) x' (map F hay) g1 b in
                 if index <? 0 then Ok (-1) else first_equal md (Z.to_nat index) index (map F hay) g2)
              = (let* index := recursive_search md (S (S (List.length hay))) (-1) (to_i32 (len hay)) x hay f1 b in
                 if index <? 0 then Ok (-1) else first_equal md (Z.to_nat index) index hay f2)).
    { unfold len. rewrite map_length, rs_map. destruct (recursive_search _ _ _ _ _ _ _ _) as [i|p]; [|reflexivity]. cbn [bind].
      rewrite fe_map. reflexivity. }
    unfold search. subst b. destruct hay; [reflexivity | exact X].
  Qed.
End Translate.

Section Sections.
  Context (md : mode) (L : MapLib) (U : UrlLib) (k : Z).
  Notation Sec := (Section L).
  Notation IC := (IndexedConsumer L).

  Definition sec_down (s : Sec) : Sec := mkSection (down k (sec_generated_offset s)) (sec_consumer s).
  Definition cell_down (c : RefCell (list Sec)) : RefCell (list Sec) := mkCell (rc_flag c) (map sec_down (rc_val c)).
  Definition ic_down (c : IC) : IC := mkIC (sections_down k (ic_source_map c)) (cell_down (ic_sections c)).
  Definition after_down {A} (r : res (A * IC)) : res (A * IC) := let* x := r in Ok (fst x, ic_down (snd x)).

  (** ** opening *)
  Definition job_down (r : res (Sec * Position)) : res (Sec * Position) :=
    let* x := r in Ok (sec_down (fst x), down k (snd x)).

  Lemma i32_small : forall z, i32_min <= z <= i32_max -> checked_i32 md z = Ok z.
  Proof. intros z H. unfold checked_i32, in_i32. replace (_ && _) with true by lia. reflexivity. Qed.

  Lemma job_moved : forall url last last' s, line_room k s -> last' = down k last \/ last = mkPos (-1) 0 /\ last' = last ->
    section_job md L U url last' (section_down k s) = job_down (section_job md L U url last s).
  Proof.
    intros url last last' s [H1 H2] Hl. unfold section_job. cbn [section_down js_url js_offset js_map].
    destruct (is_some (js_url s)); [reflexivity|]. unfold down at 1 2 3 4 5. cbn [p_line p_column].
    assert (E : ((p_line (js_offset s) + k <? p_line last') || ((p_line (js_offset s) + k =? p_line last') && (p_column (js_offset s) <? p_column last')))
              = ((p_line (js_offset s) <? p_line last) || ((p_line (js_offset s) =? p_line last) && (p_column (js_offset s) <? p_column last)))).
    { destruct Hl as [->|[-> ->]]; cbn [down p_line p_column].
      - replace (p_line (js_offset s) + k <? p_line last + k) with (p_line (js_offset s) <? p_line last) by lia.
        replace (p_line (js_offset s) + k =? p_line last + k) with (p_line (js_offset s) =? p_line last) by lia. reflexivity.
      - replace (p_line (js_offset s) + k <? -1) with false by lia. replace (p_line (js_offset s) <? -1) with false by lia.
        replace (p_line (js_offset s) + k =? -1) with false by lia. replace (p_line (js_offset s) =? -1) with false by lia. reflexivity. }
    rewrite E. clear E. match goal with |- (if ?b then _ else _) = _ => destruct b end; [reflexivity|]. unfold i32_add at 1 3.
    rewrite !i32_small by (unfold i32_min, i32_max in *; lia). cbn [bind].
    destruct (i32_add md (p_column (js_offset s)) 1) as [c1|p]; [|reflexivity]. cbn [bind].
    destruct (bc_from_source_map_json md L U (js_map s) url) as [c|p]; [|reflexivity]. cbn [bind job_down fst snd].
    unfold sec_down, down. cbn [sec_generated_offset sec_consumer p_line p_column]. do 4 f_equal. lia.
  Qed.

  Lemma jobs_moved : forall url l, Forall (line_room k) l -> forall order last last',
    last' = down k last \/ last = mkPos (-1) 0 /\ last' = last ->
    run_jobs md L U url (map (section_down k) l) order last'
    = let* r := run_jobs md L U url l order last in Ok (map (fun x => (fst x, sec_down (snd x))) r).
  Proof.
    intros url l Hl. induction order as [|i order IH]; intros last last' H; [reflexivity|]. cbn [run_jobs]. rewrite vindex_map.
    destruct (vec_index l (Z.of_nat i)) as [s|p] eqn:E; [|reflexivity]. cbn [bind].
    assert (Hs : line_room k s).
    { apply vec_index_ok in E. apply vec_get_some_nth in E. destruct E as [_ E]. rewrite Forall_forall in Hl. apply Hl.
      eapply nth_error_In. exact E. }
    rewrite (job_moved url last last' s Hs H). destruct (section_job md L U url last s) as [[sec o]|p]; [|reflexivity].
    cbn [job_down bind fst snd]. rewrite (IH o (down k o)) by (left; reflexivity).
    destruct (run_jobs md L U url l order o); reflexivity.
  Qed.

  Lemma result_moved : forall i r, job_result L i (map (fun x => (fst x, sec_down (snd x))) r)
    = let* s := job_result L i r in Ok (sec_down s).
  Proof.
    intros i. induction r as [|[j s] r IH]; [reflexivity|]. cbn [map job_result fst snd]. destruct (Nat.eqb i j); [reflexivity | exact IH].
  Qed.

  Lemma open_moved : forall order j url, (forall l, smj_sections j = Some l -> Forall (line_room k) l) ->
    ic_from_source_map_json md L U order (sections_down k j) url
    = let* c := ic_from_source_map_json md L U order j url in Ok (ic_down c).
  Proof.
    intros order j url Hl. unfold ic_from_source_map_json. cbn [sections_down smj_version smj_sections].
    destruct (negb _); [reflexivity|]. destruct (smj_sections j) as [l|] eqn:El; [|reflexivity]. cbn [option_map unwrap bind].
    rewrite (jobs_moved url l (Hl l eq_refl) order (mkPos (-1) 0) (mkPos (-1) 0)) by (right; split; reflexivity).
    destruct (run_jobs md L U url l order (mkPos (-1) 0)) as [r|p]; [|reflexivity]. cbn [bind]. rewrite map_length.
    assert (E : collect_jobs L (length l) (map (fun x => (fst x, sec_down (snd x))) r)
                = let* secs := collect_jobs L (length l) r in Ok (map sec_down secs)).
    { unfold collect_jobs. induction (seq 0 (length l)) as [|i is IH]; [reflexivity|]. cbn [mapM]. rewrite result_moved.
      destruct (job_result L i r) as [s|p]; [|reflexivity]. cbn [bind]. rewrite IH.
      destruct (mapM (fun i0 => job_result L i0 r) is); reflexivity. }
    rewrite E. destruct (collect_jobs L (length l) r) as [secs|p]; reflexivity.
  Qed.

  (** ** calls *)
  Lemma sources_moved : forall v i, sources_of_section L (map sec_down v) i = sources_of_section L v i.
  Proof. intros v i. unfold sources_of_section. rewrite vindex_map. destruct (vec_index v (Z.of_nat i)); reflexivity. Qed.

  Lemma inner_moved : forall i js cell acc, get_sources_inner L (cell_down cell) i js acc
    = let* r := get_sources_inner L cell i js acc in Ok (fst r, cell_down (snd r)).
  Proof.
    intros i. induction js as [|j js IH]; intros [n v] acc; [reflexivity|]. cbn [get_sources_inner]. unfold rc_borrow. cbn [cell_down rc_flag rc_val].
    destruct (n <? 0); [reflexivity|]. cbn [bind rc_val]. rewrite sources_moved.
    destruct (sources_of_section L v i) as [l|p]; [|reflexivity]. cbn [bind].
    destruct (vec_index l (Z.of_nat j)) as [s|p]; [|reflexivity]. cbn [bind]. unfold rc_release. cbn [rc_flag rc_val].
    apply (IH (mkCell (n + 1 - 1) v)).
  Qed.

  Lemma outer_moved : forall is cell acc, get_sources_outer L (cell_down cell) is acc
    = let* r := get_sources_outer L cell is acc in Ok (fst r, cell_down (snd r)).
  Proof.
    induction is as [|i is IH]; intros [n v] acc; [reflexivity|]. cbn [get_sources_outer]. unfold rc_borrow. cbn [cell_down rc_flag rc_val].
    destruct (n <? 0); [reflexivity|]. cbn [bind rc_val]. rewrite sources_moved.
    destruct (sources_of_section L v i) as [l|p]; [|reflexivity]. cbn [bind].
    change (mkCell (n + 1) (map sec_down v)) with (cell_down (mkCell (n + 1) v)).
    rewrite (inner_moved i (seq 0 (length l)) (mkCell (n + 1) v) acc).
    destruct (get_sources_inner L (mkCell (n + 1) v) i (seq 0 (length l)) acc) as [[s cell]|p]; [|reflexivity]. cbn [bind fst snd].
    apply (IH (rc_release cell)).
  Qed.

  Lemma get_moved : forall c, ic_get_sources L (ic_down c) = after_down (ic_get_sources L c).
  Proof.
    intros [j [n v]]. unfold ic_get_sources, rc_borrow. cbn [ic_down cell_down ic_sections rc_flag rc_val].
    destruct (n <? 0); [reflexivity|]. cbn [bind rc_val]. rewrite map_length.
    change (mkCell (n + 1) (map sec_down v)) with (cell_down (mkCell (n + 1) v)).
    rewrite (outer_moved (seq 0 (length v)) (mkCell (n + 1) v) []).
    destruct (get_sources_outer L (mkCell (n + 1) v) (seq 0 (length v)) []) as [[s [n' v']]|p]; reflexivity.
  Qed.

  Lemma cmp1_moved : forall g s, cmp_needle_section md L (down k g) (sec_down s) = cmp_needle_section md L g s.
  Proof.
    intros g s. unfold cmp_needle_section, i32_sub, down, sec_down. cbn [p_line p_column sec_generated_offset down].
    replace (p_line g + k - (p_line (sec_generated_offset s) + k)) with (p_line g - p_line (sec_generated_offset s)) by lia. reflexivity.
  Qed.
  Lemma cmp2_moved : forall a b, cmp_section_section md L (sec_down a) (sec_down b) = cmp_section_section md L a b.
  Proof.
    intros a b. unfold cmp_section_section, i32_sub, sec_down, down. cbn [p_line p_column sec_generated_offset].
    replace (p_line (sec_generated_offset a) + k - (p_line (sec_generated_offset b) + k))
      with (p_line (sec_generated_offset a) - p_line (sec_generated_offset b)) by lia. reflexivity.
  Qed.

  Definition off_room (s : Sec) : Prop :=
    1 <= p_line (sec_generated_offset s) <= i32_max /\ 1 <= p_line (sec_generated_offset s) + k <= i32_max.

  Lemma original_moved : forall c g b, rc_flag (ic_sections c) = 0 -> Forall off_room (sections_of L c) ->
    ic_original_position_for md L (ic_down c) (down k g) b = after_down (ic_original_position_for md L c g b).
  Proof.
    intros [j [n v]] g b Hf Hr. unfold sections_of in Hr. cbn [ic_sections rc_flag rc_val] in Hf, Hr. subst n.
    unfold ic_original_position_for, rc_borrow, rc_borrow_mut, rc_release, rc_release_mut.
    cbn [ic_down cell_down ic_sections rc_flag rc_val bind Z.ltb Z.compare].
    rewrite (search_map md g (down k g) sec_down v (cmp_needle_section md L) (cmp_needle_section md L)
      (cmp_section_section md L) (cmp_section_section md L) (cmp1_moved g) cmp2_moved None).
    destruct (search md g v (cmp_needle_section md L) (cmp_section_section md L) None) as [i|p]; [|reflexivity].
    cbn [bind rc_flag rc_val Z.add Z.sub Z.opp Z.eqb Z.pos_sub]. rewrite vget_map.
    destruct (vec_get v (to_usize i)) as [it|] eqn:Ei; [|reflexivity]. cbn [option_map sec_down sec_generated_offset sec_consumer].
    assert (Hi : off_room it).
    { apply vec_get_some_nth in Ei. destruct Ei as [_ Ei]. rewrite Forall_forall in Hr. apply Hr. eapply nth_error_In. exact Ei. }
    destruct Hi as [R1 R2]. unfold i32_sub at 1 2 5 6. cbn [down p_line p_column].
    rewrite !i32_small by (unfold i32_min, i32_max in *; lia). cbn [bind].
    replace (p_line g + k - (p_line (sec_generated_offset it) + k - 1)) with (p_line g - (p_line (sec_generated_offset it) - 1)) by lia.
    destruct (checked_i32 md (p_line g - (p_line (sec_generated_offset it) - 1))) as [line|p]; [|reflexivity]. cbn [bind].
    replace (p_line (sec_generated_offset it) + k =? p_line g + k) with (p_line (sec_generated_offset it) =? p_line g) by lia.
    destruct (if p_line (sec_generated_offset it) =? p_line g then i32_sub md (p_column (sec_generated_offset it)) 1 else Ok 0) as [shift|p]; [|reflexivity].
    cbn [bind]. destruct (i32_sub md (p_column g) shift) as [column|p]; [|reflexivity]. cbn [bind].
    destruct (bc_original_position_for md L (sec_consumer it) (mkPos line column) b) as [[a bc]|p]; [|reflexivity].
    unfold after_down, ic_down, ic_set_sections, cell_down. cbn [bind fst snd ic_source_map ic_sections rc_flag rc_val].
    rewrite <- update_map. reflexivity.
  Qed.

  Lemma has_moved : forall c, ic_has_contents_of_all_sources L (ic_down c) = after_down (ic_has_contents_of_all_sources L c).
  Proof.
    intros [j [n v]]. unfold ic_has_contents_of_all_sources, rc_borrow. cbn [ic_down cell_down ic_sections rc_flag rc_val].
    destruct (n <? 0); [reflexivity|]. cbn [bind rc_val].
    assert (E : allM (fun it => bc_has_contents_of_all_sources L (sec_consumer it)) (map sec_down v)
      = allM (fun it => bc_has_contents_of_all_sources L (sec_consumer it)) v).
    { induction v as [|s v IH]; [reflexivity|]. cbn [map allM sec_down sec_consumer].
      destruct (bc_has_contents_of_all_sources L (sec_consumer s)) as [[|]|p]; [exact IH | reflexivity | reflexivity]. }
    rewrite E. destruct (allM _ v); reflexivity.
  Qed.

  Lemma content_moved : forall c s p, ic_source_content_for md L U (ic_down c) s p = after_down (ic_source_content_for md L U c s p).
  Proof.
    intros [j [n v]] s p. unfold ic_source_content_for, rc_borrow_mut. cbn [ic_down cell_down ic_sections rc_flag rc_val].
    destruct (n =? 0); [|reflexivity]. cbn [bind rc_val].
    assert (E : source_content_loop md L U (map sec_down v) s p
      = let* r := source_content_loop md L U v s p in Ok (fst r, map sec_down (snd r))).
    { induction v as [|x v IH]; [reflexivity|]. cbn [map source_content_loop sec_down sec_consumer sec_generated_offset].
      destruct (bc_source_content_for md L U (sec_consumer x) s p) as [[[t|] bc]|e]; [reflexivity| |reflexivity]. cbn [bind].
      rewrite IH. destruct (source_content_loop md L U v s p) as [[a rest]|e]; reflexivity. }
    rewrite E. destruct (source_content_loop md L U v s p) as [[[t|] secs]|e]; [reflexivity| |reflexivity]. cbn [bind fst snd].
    destruct (match p with Some b => b | None => true end); reflexivity.
  Qed.

  Lemma spans_moved : forall c, ic_computed_column_spans L (ic_down c) = let* c' := ic_computed_column_spans L c in Ok (ic_down c').
  Proof.
    intros [j [n v]]. unfold ic_computed_column_spans, rc_borrow_mut. cbn [ic_down cell_down ic_sections rc_flag rc_val].
    destruct (n =? 0); [|reflexivity]. cbn [bind rc_val].
    set (f := fun ele : Sec => let* bc := bc_compute_column_spans L (sec_consumer ele) in Ok (mkSection (sec_generated_offset ele) bc)).
    assert (E : mapM f (map sec_down v) = let* secs := mapM f v in Ok (map sec_down secs)).
    { induction v as [|x v IH]; [reflexivity|]. cbn [map mapM]. unfold f at 1 3. cbn [sec_down sec_consumer sec_generated_offset].
      destruct (bc_compute_column_spans L (sec_consumer x)) as [bc|e]; [|reflexivity]. cbn [bind].
      rewrite IH. destruct (mapM f v); reflexivity. }
    rewrite E. destruct (mapM f v); reflexivity.
  Qed.

  (** the calls that always fail *)
  Lemma find_moved : forall c s, rc_flag (ic_sections c) = 0 ->
    ic_find_source_index md L U (ic_down c) s = after_down (ic_find_source_index md L U c s).
  Proof.
    intros c s Hf. destruct (sections_of L c) as [|x v] eqn:E.
    - rewrite (find_empty md L U c s Hf E). apply find_empty; [exact Hf|]. unfold sections_of in *. cbn. rewrite E. reflexivity.
    - rewrite (find_panics md L U c s Hf) by congruence. apply find_panics; [exact Hf|]. unfold sections_of in *. cbn. rewrite E. discriminate.
  Qed.

  Lemma no_find : forall c s i c', rc_flag (ic_sections c) = 0 -> ic_find_source_index md L U c s = Ok (i, c') -> i = None.
  Proof.
    intros c s i c' Hf H. destruct (sections_of L c) as [|x v] eqn:E.
    - rewrite (find_empty md L U c s Hf E) in H. inv H. reflexivity.
    - rewrite (find_panics md L U c s Hf) in H by congruence. discriminate.
  Qed.

  Lemma generated_moved : forall c s line column b, rc_flag (ic_sections c) = 0 ->
    ic_generated_position_for md L U (ic_down c) s line column b = after_down (ic_generated_position_for md L U c s line column b).
  Proof.
    intros c s line column b Hf. unfold ic_generated_position_for. rewrite (find_moved c s Hf).
    destruct (ic_find_source_index md L U c s) as [[i c']|p] eqn:E; [|reflexivity]. rewrite (no_find _ _ _ _ Hf E). reflexivity.
  Qed.
  Lemma all_moved : forall c s line column, rc_flag (ic_sections c) = 0 ->
    ic_all_generated_position_for md L U (ic_down c) s line column = after_down (ic_all_generated_position_for md L U c s line column).
  Proof.
    intros c s line column Hf. unfold ic_all_generated_position_for. rewrite (find_moved c s Hf).
    destruct (ic_find_source_index md L U c s) as [[i c']|p] eqn:E; [|reflexivity]. rewrite (no_find _ _ _ _ Hf E). reflexivity.
  Qed.
  Lemma each_moved : forall c o, rc_flag (ic_sections c) = 0 -> Forall off_room (sections_of L c) ->
    ic_each_mapping md L (ic_down c) o = after_down (ic_each_mapping md L c o).
  Proof.
    intros [j [n v]] o Hf Hr. unfold sections_of in Hr. cbn in Hf, Hr. subst n. unfold ic_each_mapping, rc_borrow_mut.
    cbn [ic_down cell_down ic_sections rc_flag rc_val Z.eqb bind]. destruct v as [|x v]; [reflexivity|]. inv Hr. destruct H1 as [R1 R2].
    cbn [map each_mapping_loop sec_down sec_generated_offset down p_line p_column]. unfold i32_sub at 1 3.
    rewrite !i32_small by (unfold i32_min, i32_max in *; lia). cbn [bind].
    destruct (i32_sub md (p_column (sec_generated_offset x)) 1); reflexivity.
  Qed.

  (** ** histories *)
  Lemma down_answers : forall c, rc_flag (ic_sections c) = 0 -> Forall off_room (sections_of L c) -> answers_down md L U k c (ic_down c).
  Proof.
    intros c Hf Hr.
    assert (X : forall A (r : res (A * IC)), answer (after_down r) = answer r) by (intros A [[a c']|p]; reflexivity).
    constructor; intros.
    - rewrite original_moved by assumption. apply X.
    - rewrite get_moved. apply X.
    - rewrite has_moved. apply X.
    - rewrite content_moved. apply X.
    - rewrite generated_moved by assumption. apply X.
    - rewrite all_moved by assumption. apply X.
    - rewrite each_moved by assumption. apply X.
  Qed.

  Lemma state_down : forall A (r : res (A * IC)), istate L (after_down r) = let* c := istate L r in Ok (ic_down c).
  Proof. intros A [[a c]|p]; reflexivity. Qed.

  Lemma iask_moved : forall c q, rc_flag (ic_sections c) = 0 -> Forall off_room (sections_of L c) ->
    iask md L U (ic_down c) (call_down k q) = let* c' := iask md L U c q in Ok (ic_down c').
  Proof.
    intros c q Hf Hr. destruct q; cbn [iask call_down].
    - rewrite get_moved. apply state_down.
    - rewrite original_moved by assumption. apply state_down.
    - rewrite has_moved. apply state_down.
    - rewrite content_moved. apply state_down.
    - rewrite generated_moved by assumption. apply state_down.
    - rewrite all_moved by assumption. apply state_down.
    - apply spans_moved.
    - rewrite each_moved by assumption. apply state_down.
  Qed.

  Lemma room_follows : forall P c0 c, ifollows md L U P c0 c -> Forall off_room (sections_of L c0) -> Forall off_room (sections_of L c).
  Proof.
    intros P c0 c H H0. pose proof (if_secs _ _ _ _ _ _ H) as F. revert H0. clear H. unfold off_room.
    induction F as [|s s' l l' [E _] F IH]; intros H0; [constructor|]. inv H0. constructor; [rewrite E; assumption | auto].
  Qed.

  Lemma iasked_moved : forall qs P c0 c, ifollows md L U P c0 c -> Forall off_room (sections_of L c0) ->
    iasked md L U (ic_down c) (map (call_down k) qs) = let* c' := iasked md L U c qs in Ok (ic_down c').
  Proof.
    induction qs as [|q qs IH]; intros P c0 c H H0; [reflexivity|]. cbn [map iasked].
    rewrite iask_moved; [|exact (if_flag _ _ _ _ _ _ H) | exact (room_follows _ _ _ H H0)].
    destruct (iask md L U c q) as [c'|p] eqn:E; [|reflexivity]. cbn [bind].
    exact (IH _ c0 c' (iask_follows md L U _ _ _ _ _ H E) H0).
  Qed.

  Lemma opened_room : forall order j url l c, smj_sections j = Some l -> schedule order (length l) -> Forall i32_offset l ->
    Forall (line_room k) l -> ic_from_source_map_json md L U order j url = Ok c -> Forall off_room (sections_of L c).
  Proof.
    intros order j url l c El Hs Hi Hr H. apply opening in H; [|intros l0 E0; rewrite El in E0; inv E0; auto].
    destruct H as [_ [l0 [x [secs [E0 [_ [_ [Hf ->]]]]]]]]. assert (l0 = l) by congruence. subst l0. cbn.
    clear - Hf Hr. revert Hr. induction Hf as [|s a l secs [_ [[Ho _] _]] Hf IH]; intros Hr; [constructor|]. inv Hr. constructor; [|auto].
    destruct H1 as [R1 R2]. unfold off_room. rewrite Ho. cbn [p_line]. rewrite next_small by (unfold i32_min, i32_max in *; lia). lia.
  Qed.
End Sections.

Lemma sections_moved : forall md L U k order j url l qs, smj_sections j = Some l -> schedule order (length l) -> Forall i32_offset l ->
  Forall (line_room k) l ->
  end_down md L U k
    (let* c := ic_from_source_map_json md L U order j url in iasked md L U c qs)
    (let* c := ic_from_source_map_json md L U order (sections_down k j) url in iasked md L U c (map (call_down k) qs)).
Proof.
  intros md L U k order j url l qs El Hs Hi Hr.
  rewrite open_moved by (intros l0 E0; rewrite El in E0; inv E0; exact Hr).
  destruct (ic_from_source_map_json md L U order j url) as [c0|p] eqn:E; [|constructor]. cbn [bind].
  assert (O : iopened md L U c0) by (exists order, j, url, l; auto).
  pose proof (opened_room md L U k order j url l c0 El Hs Hi Hr E) as Hroom.
  rewrite (iasked_moved md L U k qs False c0 c0 (iopened_follows md L U c0 O) Hroom).
  destruct (iasked md L U c0 qs) as [c|p] eqn:Eq; [|constructor]. cbn [bind]. constructor.
  pose proof (ihistory md L U c0 qs c O Eq) as F. apply down_answers; [exact (if_flag _ _ _ _ _ _ F) | exact (room_follows md L U k _ _ _ F Hroom)].
Qed.

(** * Overflow checks only turn results into panics *)
From Verif Require Import Base M_ArraySet M_Base64Vlq M_BinarySearch M_Mapping M_Util M_SourceMap M_Generator M_Json
  M_MapLib M_Consumer M_Indexed S_Modes S_Consumer S_Indexed F_Base.

Notation agree := same_unless_overflow.

Lemma agree_refl : forall A (r : res A), agree r r.
Proof. right. reflexivity. Qed.

Lemma agree_bind : forall A B (m1 m2 : res A) (k1 k2 : A -> res B),
  agree m1 m2 -> (forall a, m1 = Ok a -> agree (k1 a) (k2 a)) -> agree (bind m1 k1) (bind m2 k2).
Proof.
  intros A B m1 m2 k1 k2 [E|E] K; [left; rewrite E; reflexivity|]. subst m2.
  destruct m1; cbn [bind]; [apply K; reflexivity | apply agree_refl].
Qed.

Lemma agree_checked_i32 : forall z, agree (checked_i32 Debug z) (checked_i32 Release z).
Proof. intro z. unfold checked_i32. destruct (in_i32 z); [apply agree_refl | left; reflexivity]. Qed.
Lemma agree_checked_u32 : forall z, agree (checked_u32 Debug z) (checked_u32 Release z).
Proof. intro z. unfold checked_u32. destruct (in_u32 z); [apply agree_refl | left; reflexivity]. Qed.

Create HintDb modes discriminated.
Global Hint Constants Opaque : modes.
Global Hint Resolve agree_checked_i32 agree_checked_u32 : modes.

Ltac modes_step :=
  match goal with
  | |- agree ?x ?x => apply agree_refl
  | |- agree (bind _ _) (bind _ _) => apply agree_bind; [| intros ? _]
  | |- agree (i32_add _ _ _) _ => apply agree_checked_i32
  | |- agree (i32_sub _ _ _) _ => apply agree_checked_i32
  | |- agree (i32_neg _ _) _ => apply agree_checked_i32
  | |- agree (u32_add _ _ _) _ => apply agree_checked_u32
  | |- agree (u32_sub _ _ _) _ => apply agree_checked_u32
  | |- agree (let '(_, _) := ?x in _) _ => destruct x
  | |- agree (match ?x with _ => _ end) _ => destruct x
  | |- agree (if ?x then _ else _) _ => destruct x
  | |- agree _ _ => solve [eauto 3 with modes]
  | |- agree _ _ => progress cbv zeta
  end.
Ltac modes := repeat modes_step.

Lemma agree_mapM : forall A B (f g : A -> res B) l, (forall x, agree (f x) (g x)) -> agree (mapM f l) (mapM g l).
Proof.
  intros A B f g l H. induction l as [|x l IH]; cbn [mapM]; [apply agree_refl|].
  apply agree_bind; [apply H|]. intros y _. apply agree_bind; [exact IH|]. intros; apply agree_refl.
Qed.

Lemma agree_to_vlq_signed : forall v, agree (to_vlq_signed Debug v) (to_vlq_signed Release v).
Proof. intro v. unfold to_vlq_signed. modes. Qed.
Lemma agree_vlq : forall v, agree (base64vlq_encode Debug v) (base64vlq_encode Release v).
Proof. intro v. unfold base64vlq_encode. apply agree_bind; [apply agree_to_vlq_signed | intros; apply agree_refl]. Qed.
Global Hint Resolve agree_vlq : modes.

(** ** Search *)
Lemma agree_recursive_search : forall T1 T2 (f g : T1 -> T2 -> res Z), (forall x y, agree (f x y) (g x y)) ->
  forall fuel low high x l b, agree (recursive_search Debug fuel low high x l f b) (recursive_search Release fuel low high x l g b).
Proof.
  intros T1 T2 f g H. induction fuel as [|n IH]; intros; cbn [recursive_search]; modes.
Qed.
Lemma agree_first_equal : forall T2 (f g : T2 -> T2 -> res Z), (forall x y, agree (f x y) (g x y)) ->
  forall fuel i l, agree (first_equal Debug fuel i l f) (first_equal Release fuel i l g).
Proof.
  intros T2 f g H. induction fuel as [|n IH]; intros; cbn [first_equal]; modes.
Qed.
Lemma agree_search : forall T1 T2 (f1 g1 : T1 -> T2 -> res Z) (f2 g2 : T2 -> T2 -> res Z),
  (forall x y, agree (f1 x y) (g1 x y)) -> (forall x y, agree (f2 x y) (g2 x y)) ->
  forall x l b, agree (search Debug x l f1 f2 b) (search Release x l g1 g2 b).
Proof.
  intros T1 T2 f1 g1 f2 g2 H1 H2 x l b. unfold search. destruct l as [|h l]; [apply agree_refl|].
  apply agree_bind; [apply agree_recursive_search; exact H1|]. intros i _.
  destruct (i <? 0); [apply agree_refl | apply agree_first_equal; exact H2].
Qed.

(** ** Mappings and generator *)
Lemma agree_compare : forall a b,
  agree (compare_by_generated_pos_inflated Debug a b) (compare_by_generated_pos_inflated Release a b).
Proof. intros. unfold compare_by_generated_pos_inflated. modes. Qed.
Global Hint Resolve agree_compare : modes.
Lemma agree_after : forall a b, agree (generated_position_after Debug a b) (generated_position_after Release a b).
Proof. intros. unfold generated_position_after. modes. Qed.
Global Hint Resolve agree_after : modes.
Lemma agree_ml_add : forall l m, agree (ml_add Debug l m) (ml_add Release l m).
Proof. intros. unfold ml_add. modes. Qed.
Lemma agree_sort_insert : forall A (f g : A -> A -> res Z), (forall x y, agree (f x y) (g x y)) ->
  forall x l, agree (sort_insert f x l) (sort_insert g x l).
Proof. intros A f g H x l. induction l as [|y l IH]; cbn [sort_insert]; modes. Qed.
Lemma agree_sort_by : forall A (f g : A -> A -> res Z), (forall x y, agree (f x y) (g x y)) ->
  forall l, agree (sort_by f l) (sort_by g l).
Proof.
  intros A f g H l. induction l as [|y l IH]; cbn [sort_by]; [apply agree_refl|].
  apply agree_bind; [exact IH|]. intros. apply agree_sort_insert; exact H.
Qed.
Lemma agree_ml_to_array : forall l, agree (ml_to_array Debug l) (ml_to_array Release l).
Proof.
  intros. unfold ml_to_array. destruct (ml_sorted l); [apply agree_refl|]. cbn [negb].
  apply agree_bind; [apply agree_sort_by; apply agree_compare | intros; apply agree_refl].
Qed.
Global Hint Resolve agree_ml_add agree_ml_to_array : modes.

Lemma agree_add_mapping : forall g m, agree (gen_add_mapping Debug g m) (gen_add_mapping Release g m).
Proof. intros. unfold gen_add_mapping. modes. Qed.
Lemma agree_semicolon : forall fuel line prev next,
  agree (semicolon_loop Debug fuel line prev next) (semicolon_loop Release fuel line prev next).
Proof. induction fuel as [|n IH]; intros; cbn [semicolon_loop]; modes. Qed.
Global Hint Resolve agree_semicolon : modes.
Lemma agree_ser_tail : forall s n m st, agree (ser_tail Debug s n m st) (ser_tail Release s n m st).
Proof. intros. unfold ser_tail. modes. Qed.
Global Hint Resolve agree_ser_tail : modes.
Lemma agree_ser_segment : forall s n m st, agree (ser_segment Debug s n m st) (ser_segment Release s n m st).
Proof. intros. unfold ser_segment. modes. Qed.
Global Hint Resolve agree_ser_segment : modes.
Lemma agree_ser_loop : forall s n ms prev st r, agree (ser_loop Debug s n prev ms st r) (ser_loop Release s n prev ms st r).
Proof. induction ms as [|m ms IH]; intros; cbn [ser_loop]; modes. Qed.
Global Hint Resolve agree_ser_loop : modes.
Lemma agree_serialize : forall g, agree (serialize_mappings Debug g) (serialize_mappings Release g).
Proof. intros. unfold serialize_mappings. modes. Qed.
Global Hint Resolve agree_serialize : modes.

(** ** URLs *)
Lemma agree_unique_loop : forall fuel p i id,
  agree (unique_segment_loop Debug fuel p i id) (unique_segment_loop Release fuel p i id).
Proof. induction fuel as [|n IH]; intros; cbn [unique_segment_loop]; modes. Qed.
Lemma agree_safe_base : forall i, agree (build_safe_base Debug i) (build_safe_base Release i).
Proof.
  intros. unfold build_safe_base. cbv zeta. apply agree_bind; [apply agree_unique_loop | intros; apply agree_refl].
Qed.
Global Hint Resolve agree_safe_base : modes.
Section Url.
  Context (U : UrlLib).
  Lemma agree_safe_handler : forall cb i, agree (safe_handler Debug U cb i) (safe_handler Release U cb i).
  Proof. intros. unfold safe_handler. modes. Qed.
  Hint Resolve agree_safe_handler : modes.
  Lemma agree_replace : forall r t, agree (replace_if_possible Debug U r t) (replace_if_possible Release U r t).
  Proof. intros. unfold replace_if_possible. modes. Qed.
  Hint Resolve agree_replace : modes.
  Lemma agree_relative : forall r t, agree (relative Debug U r t) (relative Release U r t).
  Proof. intros. unfold relative, NORMALIZE. modes. Qed.
  Lemma agree_join : forall r t, agree (url_join Debug U r t) (url_join Release U r t).
  Proof. intros. unfold url_join, NORMALIZE, ENSURE_DIRECTORY. modes. Qed.
  Hint Resolve agree_join : modes.
  Lemma agree_source_url : forall r s u, agree (compute_source_url Debug U r s u) (compute_source_url Release U r s u).
  Proof. intros. unfold compute_source_url, NORMALIZE, TRIM_FILENAME. modes. Qed.
End Url.
Global Hint Resolve agree_relative agree_join agree_source_url : modes.

Lemma agree_set_content : forall U g s c,
  agree (gen_set_source_content Debug U g s c) (gen_set_source_content Release U g s c).
Proof. intros. unfold gen_set_source_content. modes. Qed.
Lemma agree_sources_contents : forall U g l r,
  agree (generate_sources_contents Debug U g l r) (generate_sources_contents Release U g l r).
Proof. intros. unfold generate_sources_contents. apply agree_mapM. intro s. modes. Qed.
Global Hint Resolve agree_sources_contents : modes.
Lemma agree_as_json : forall U g, agree (gen_as_json Debug U g) (gen_as_json Release U g).
Proof. intros. unfold gen_as_json. modes. Qed.
Global Hint Resolve agree_as_json : modes.
Lemma agree_as_string : forall U g, agree (gen_as_string Debug U g) (gen_as_string Release U g).
Proof. intros. unfold gen_as_string. modes. Qed.
Global Hint Resolve agree_as_string : modes.

(** ** Basic consumer *)
Section Basic.
  Context (L : MapLib) (U : UrlLib).
  Lemma agree_abs : forall j u,
    agree (compute_absolute_sources Debug U j u) (compute_absolute_sources Release U j u).
  Proof.
    intros. unfold compute_absolute_sources. apply agree_bind; [apply agree_refl|]. intros l _.
    apply agree_bind; [apply agree_mapM; intro; apply agree_source_url | intros; apply agree_refl].
  Qed.
  Hint Resolve agree_abs : modes.
  Lemma agree_new : forall s u, agree (bc_new Debug L U s u) (bc_new Release L U s u).
  Proof. intros. unfold bc_new. modes. Qed.
  Hint Resolve agree_new : modes.
  Lemma agree_from_json : forall j u, agree (bc_from_source_map_json Debug L U j u) (bc_from_source_map_json Release L U j u).
  Proof. intros. unfold bc_from_source_map_json. modes. Qed.
  Lemma agree_from_map : forall g u, agree (bc_from_source_map Debug L U g u) (bc_from_source_map Release L U g u).
  Proof. intros. unfold bc_from_source_map. modes. Qed.
  Lemma agree_find : forall c s, agree (bc_find_source_index Debug L U c s) (bc_find_source_index Release L U c s).
  Proof. intros. unfold bc_find_source_index. modes. Qed.
  Hint Resolve agree_find : modes.
  Lemma agree_all_generated : forall c s l o,
    agree (bc_all_generated_position_for Debug L U c s l o) (bc_all_generated_position_for Release L U c s l o).
  Proof. intros. unfold bc_all_generated_position_for. modes. Qed.
  Lemma agree_original_answer : forall c m o, agree (bc_original_answer Debug L c m o) (bc_original_answer Release L c m o).
  Proof. intros. unfold bc_original_answer. modes. Qed.
  Lemma agree_option_map : forall A B (f g : A -> res B) o, (forall x, agree (f x) (g x)) ->
    agree (option_map_res f o) (option_map_res g o).
  Proof. intros A B f g o H. destruct o; cbn [option_map_res]; modes. Qed.
  Lemma agree_original : forall c g b,
    agree (bc_original_position_for Debug L c g b) (bc_original_position_for Release L c g b).
  Proof. intros. unfold bc_original_position_for. modes. apply agree_option_map. intro. apply agree_original_answer. Qed.
  Lemma agree_content : forall c s p,
    agree (bc_source_content_for Debug L U c s p) (bc_source_content_for Release L U c s p).
  Proof. intros. unfold bc_source_content_for. modes. Qed.
  Lemma agree_generated_answer : forall c m o, agree (bc_generated_answer Debug L c m o) (bc_generated_answer Release L c m o).
  Proof. intros. unfold bc_generated_answer. modes. Qed.
  Hint Resolve agree_generated_answer : modes.
  Lemma agree_generated : forall c s l o b,
    agree (bc_generated_position_for Debug L U c s l o b) (bc_generated_position_for Release L U c s l o b).
  Proof. intros. unfold bc_generated_position_for. modes. Qed.
End Basic.
Global Hint Resolve agree_new agree_from_json agree_find agree_all_generated agree_original agree_content agree_generated : modes.

(** ** Indexed consumer *)
Section Indexed.
  Context (L : MapLib) (U : UrlLib).
  Lemma agree_section_job : forall u o s, agree (section_job Debug L U u o s) (section_job Release L U u o s).
  Proof. intros. unfold section_job. modes. Qed.
  Hint Resolve agree_section_job : modes.
  Lemma agree_run_jobs : forall u l order o, agree (run_jobs Debug L U u l order o) (run_jobs Release L U u l order o).
  Proof. induction order as [|i order IH]; intros; cbn [run_jobs]; modes. Qed.
  Hint Resolve agree_run_jobs : modes.
  Lemma agree_ic_from_json : forall order j u,
    agree (ic_from_source_map_json Debug L U order j u) (ic_from_source_map_json Release L U order j u).
  Proof. intros. unfold ic_from_source_map_json. modes. Qed.
  Hint Resolve agree_ic_from_json : modes.
  Lemma agree_ic_new : forall order s u, agree (ic_new Debug L U order s u) (ic_new Release L U order s u).
  Proof. intros. unfold ic_new. modes. Qed.
  Lemma agree_create : forall order s u, agree (create_consumer Debug L U order s u) (create_consumer Release L U order s u).
  Proof. intros. unfold create_consumer. modes. Qed.
  Lemma agree_cmp1 : forall a b, agree (cmp_needle_section Debug L a b) (cmp_needle_section Release L a b).
  Proof. intros. unfold cmp_needle_section. modes. Qed.
  Lemma agree_cmp2 : forall a b, agree (cmp_section_section Debug L a b) (cmp_section_section Release L a b).
  Proof. intros. unfold cmp_section_section. modes. Qed.
  Lemma agree_ic_original : forall c g b,
    agree (ic_original_position_for Debug L c g b) (ic_original_position_for Release L c g b).
  Proof.
    intros. unfold ic_original_position_for. modes. apply agree_search; [apply agree_cmp1 | apply agree_cmp2].
  Qed.
  Lemma agree_content_loop : forall s p l, agree (source_content_loop Debug L U l s p) (source_content_loop Release L U l s p).
  Proof. induction l as [|x l IH]; cbn [source_content_loop]; modes. Qed.
  Hint Resolve agree_content_loop : modes.
  Lemma agree_ic_content : forall c s p,
    agree (ic_source_content_for Debug L U c s p) (ic_source_content_for Release L U c s p).
  Proof. intros. unfold ic_source_content_for. modes. Qed.
  Lemma agree_find_loop : forall s is cell,
    agree (find_source_index_loop Debug L U cell is s) (find_source_index_loop Release L U cell is s).
  Proof. induction is as [|i is IH]; intros; cbn [find_source_index_loop]; modes. Qed.
  Hint Resolve agree_find_loop : modes.
  Lemma agree_ic_find : forall c s, agree (ic_find_source_index Debug L U c s) (ic_find_source_index Release L U c s).
  Proof. intros. unfold ic_find_source_index. modes. Qed.
  Hint Resolve agree_ic_find : modes.
  Lemma agree_shift_i32 : forall (o : option Z) k,
    agree (option_map_res (fun g => i32_add Debug g k) o) (option_map_res (fun g => i32_add Release g k) o).
  Proof. intros. apply agree_option_map. intro. apply agree_checked_i32. Qed.
  Lemma agree_shift_u32 : forall (o : option Z) k,
    agree (option_map_res (fun g => u32_add Debug g k) o) (option_map_res (fun g => u32_add Release g k) o).
  Proof. intros. apply agree_option_map. intro. apply agree_checked_u32. Qed.
  Hint Resolve agree_shift_i32 agree_shift_u32 : modes.
  Lemma agree_ic_generated : forall c s l o b,
    agree (ic_generated_position_for Debug L U c s l o b) (ic_generated_position_for Release L U c s l o b).
  Proof. intros. unfold ic_generated_position_for. modes. Qed.
  Lemma agree_adjust_all : forall cell i m, agree (adjust_all_generated Debug L cell i m) (adjust_all_generated Release L cell i m).
  Proof. intros. unfold adjust_all_generated. modes. Qed.
  Lemma agree_ic_all : forall c s l o,
    agree (ic_all_generated_position_for Debug L U c s l o) (ic_all_generated_position_for Release L U c s l o).
  Proof. intros. unfold ic_all_generated_position_for. modes. apply agree_mapM. intro. apply agree_adjust_all. Qed.
  Lemma agree_adjust_each : forall secs i a b m, agree (adjust_each Debug L secs i a b m) (adjust_each Release L secs i a b m).
  Proof. intros. unfold adjust_each. modes. Qed.
  Lemma agree_each_loop : forall o secs cell i,
    agree (each_mapping_loop Debug L cell i secs o) (each_mapping_loop Release L cell i secs o).
  Proof.
    induction secs as [|s secs IH]; intros; cbn [each_mapping_loop]; modes.
    apply agree_mapM. intro. apply agree_adjust_each.
  Qed.
  Hint Resolve agree_each_loop : modes.
  Lemma agree_ic_each : forall c o, agree (ic_each_mapping Debug L c o) (ic_each_mapping Release L c o).
  Proof. intros. unfold ic_each_mapping. modes. Qed.

  (** ** Histories *)
  Lemma agree_state : forall A B (r1 r2 : res (A * B)), agree r1 r2 ->
    agree (match r1 with Ok (_, b) => Ok b | Panic p => Panic p end) (match r2 with Ok (_, b) => Ok b | Panic p => Panic p end).
  Proof. intros A B r1 r2 [E|E]; subst; [left; reflexivity | apply agree_refl]. Qed.
  Lemma agree_ask : forall c q, agree (ask Debug L U c q) (ask Release L U c q).
  Proof.
    intros c q. destruct q; cbn [ask]; unfold state.
    - apply agree_state, agree_original.
    - apply agree_state, agree_generated.
    - apply agree_state, agree_all_generated.
    - right. reflexivity.
    - apply agree_state, agree_content.
    - right. reflexivity.
  Qed.
  Lemma agree_asked : forall qs c, agree (asked Debug L U c qs) (asked Release L U c qs).
  Proof.
    induction qs as [|q qs IH]; intro c; cbn [asked]; [apply agree_refl|].
    apply agree_bind; [apply agree_ask | intros; apply IH].
  Qed.
  Lemma agree_iask : forall c q, agree (iask Debug L U c q) (iask Release L U c q).
  Proof.
    intros c q. destruct q; cbn [iask]; unfold istate.
    - right. reflexivity.
    - apply agree_state, agree_ic_original.
    - right. reflexivity.
    - apply agree_state, agree_ic_content.
    - apply agree_state, agree_ic_generated.
    - apply agree_state, agree_ic_all.
    - right. reflexivity.
    - apply agree_state, agree_ic_each.
  Qed.
  Lemma agree_iasked : forall qs c, agree (iasked Debug L U c qs) (iasked Release L U c qs).
  Proof.
    induction qs as [|q qs IH]; intro c; cbn [iasked]; [apply agree_refl|].
    apply agree_bind; [apply agree_iask | intros; apply IH].
  Qed.
End Indexed.

(** ** Histories of a generator and of a list *)
From Verif Require Import S_Mapping S_Generator F_MappingList F_Generator.

Lemma agree_ml_run : forall ops l, agree (ml_run Debug l ops) (ml_run Release l ops).
Proof.
  induction ops as [|op ops IH]; intro l; cbn [ml_run]; [apply agree_refl|].
  destruct op; modes.
Qed.
Lemma agree_gen_run : forall U ops g, agree (gen_run Debug U g ops) (gen_run Release U g ops).
Proof.
  intros U. induction ops as [|op ops IH]; intro g; cbn [gen_run]; [apply agree_refl|].
  apply agree_bind; [|intros; apply IH].
  destruct op; cbn [gen_step]; [apply agree_add_mapping | apply agree_set_content | modes].
Qed.

Lemma both_modes : forall A B (r1 r2 : res A) (f1 f2 : A -> res B), agree r1 r2 -> (forall a, agree (f1 a) (f2 a)) ->
  agree (let* a := r1 in f1 a) (let* a := r2 in f2 a).
Proof. intros. apply agree_bind; auto. Qed.
Lemma agree_answer : forall A B (r1 r2 : res (A * B)), agree r1 r2 -> agree (answer r1) (answer r2).
Proof. intros A B r1 r2 [E|E]; subst; [left; reflexivity | apply agree_refl]. Qed.

Lemma modes_primitives :
  (forall v, agree (base64vlq_encode Debug v) (base64vlq_encode Release v))
  /\ (forall a b, agree (compare_by_generated_pos_inflated Debug a b) (compare_by_generated_pos_inflated Release a b))
  /\ (forall T1 T2 (compare1 : T1 -> T2 -> res Z) (compare2 : T2 -> T2 -> res Z) needle hay bias,
        agree (search Debug needle hay compare1 compare2 bias) (search Release needle hay compare1 compare2 bias))
  /\ (forall ops, agree (let* l := ml_run Debug ml_new ops in ml_to_array Debug l)
                        (let* l := ml_run Release ml_new ops in ml_to_array Release l)).
Proof.
  split; [exact agree_vlq|]. split; [exact agree_compare|]. split.
  - intros. apply agree_search; intros; apply agree_refl.
  - intros. apply both_modes; [apply agree_ml_run | apply agree_ml_to_array].
Qed.

Lemma modes_urls : forall U,
  (forall root path, agree (url_join Debug U root path) (url_join Release U root path))
  /\ (forall root target, agree (relative Debug U root target) (relative Release U root target))
  /\ (forall root source url, agree (compute_source_url Debug U root source url) (compute_source_url Release U root source url)).
Proof. intro U. split; [apply agree_join|]. split; [apply agree_relative | apply agree_source_url]. Qed.

Lemma modes_generator : forall U g ops,
  agree (let* g := gen_run Debug U g ops in gen_as_json Debug U g) (let* g := gen_run Release U g ops in gen_as_json Release U g)
  /\ agree (let* g := gen_run Debug U g ops in gen_as_string Debug U g)
           (let* g := gen_run Release U g ops in gen_as_string Release U g).
Proof.
  intros. split; apply both_modes; auto using agree_gen_run, agree_as_json, agree_as_string.
Qed.


Lemma agree_reply : forall A B C (r1 r2 : res (A * B)) (k : A -> C), agree r1 r2 ->
  agree (let* a := answer r1 in Ok (k a)) (let* a := answer r2 in Ok (k a)).
Proof. intros. apply agree_bind; [apply agree_answer; assumption | intros; apply agree_refl]. Qed.

Lemma agree_basic_reply : forall L U c q, agree (basic_reply Debug L U c q) (basic_reply Release L U c q).
Proof.
  intros L U c q. destruct q; unfold basic_reply.
  - apply agree_reply, agree_original.
  - apply agree_reply, agree_generated.
  - apply agree_reply, agree_all_generated.
  - right. reflexivity.
  - apply agree_reply, agree_content.
  - right. reflexivity.
Qed.
Lemma agree_indexed_reply : forall L U c q, agree (indexed_reply Debug L U c q) (indexed_reply Release L U c q).
Proof.
  intros L U c q. destruct q; unfold indexed_reply.
  - right. reflexivity.
  - apply agree_reply, agree_ic_original.
  - right. reflexivity.
  - apply agree_reply, agree_ic_content.
  - apply agree_reply, agree_ic_generated.
  - apply agree_reply, agree_ic_all.
  - right. reflexivity.
  - apply agree_reply, agree_ic_each.
Qed.

Lemma modes_basic : forall L U (open_ : mode -> res (BasicConsumer L))
    (H : (exists s url, open_ = fun md => bc_new md L U s url)
         \/ (exists j url, open_ = fun md => bc_from_source_map_json md L U j url)
         \/ (exists g url, open_ = fun md => answer (bc_from_source_map md L U g url))) qs q,
  agree (let* c := open_ Debug in let* c := asked Debug L U c qs in basic_reply Debug L U c q)
        (let* c := open_ Release in let* c := asked Release L U c qs in basic_reply Release L U c q).
Proof.
  intros L U open_ H qs q. apply both_modes.
  - destruct H as [[s [u ->]]|[[j [u ->]]|[g [u ->]]]];
      [apply agree_new | apply agree_from_json | apply agree_answer, agree_from_map].
  - intro c. apply both_modes; [apply agree_asked|]. intro c'. apply agree_basic_reply.
Qed.

Lemma modes_indexed : forall L U (open_ : mode -> res (IndexedConsumer L))
    (H : (exists order s url, open_ = fun md => ic_new md L U order s url)
         \/ (exists order j url, open_ = fun md => ic_from_source_map_json md L U order j url)) qs q,
  agree (let* c := open_ Debug in let* c := iasked Debug L U c qs in indexed_reply Debug L U c q)
        (let* c := open_ Release in let* c := iasked Release L U c qs in indexed_reply Release L U c q).
Proof.
  intros L U open_ H qs q. apply both_modes.
  - destruct H as [[o [s [u ->]]]|[o [j [u ->]]]]; [apply agree_ic_new | apply agree_ic_from_json].
  - intro c. apply both_modes; [apply agree_iasked|]. intro c'. apply agree_indexed_reply.
Qed.

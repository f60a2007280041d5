(** * C97 and C28: mapping lists with coordinates of any size *)
From Verif Require Import Base M_ArraySet M_Mapping M_Util M_SourceMap M_Generator S_Mapping S_Generator S_Adds F_UrlRef F_Adds.
From Coq Require Import Sorting.Sorted Sorting.Permutation.

(** with overflow checks: whatever was added, what [to_array] returns is in order *)
Theorem C97_debug_sorted : forall (ops : list ml_op) (l : MappingList) (a : list Mapping) (l' : MappingList)
    (history : ml_run Debug ml_new ops = Ok l) (returns : ml_to_array Debug l = Ok (a, l')),
  Permutation (added ops) a /\ gen_sorted a.
Proof. exact debug_sorted. Qed.
Print Assumptions C97_debug_sorted.

(** [add] panics exactly if the mapping is too far before the latest one *)
Theorem C97_add : forall (ops : list ml_op) (l : MappingList) (m : Mapping)
    (history : ml_run Debug ml_new ops = Ok l)
    (range : Forall i32_place (added ops)) (in_range : i32_place m),
  exists M, latest (places (added ops)) M
    /\ (far_before (m_generated m) M -> ml_add Debug l m = Panic POverflow)
    /\ (~ far_before (m_generated m) M -> exists l', ml_add Debug l m = Ok l').
Proof. exact add_exact. Qed.
Print Assumptions C97_add.

(** the same for [add_mapping] of a generator *)
Theorem C97_add_mapping : forall (U : UrlLib) (file root : option str) (skip : bool) (ms : list Mapping)
    (range : Forall i32_place ms),
  (comparable ms -> exists g, gen_run Debug U (gen_new file root skip) (map GAdd ms) = Ok g)
  /\ (~ comparable ms -> gen_run Debug U (gen_new file root skip) (map GAdd ms) = Panic POverflow).
Proof. exact adds_exact. Qed.
Print Assumptions C97_add_mapping.

(** without overflow checks nothing panics and nothing is lost (by a sort that
    returns whatever the comparison says, as that of Rust before 1.81) *)
Theorem C97_release : forall (ops : list ml_op), exists l a l',
  ml_run Release ml_new ops = Ok l /\ ml_to_array Release l = Ok (a, l') /\ Permutation (added ops) a.
Proof. exact release_complete. Qed.
Print Assumptions C97_release.

Definition c97_at (line column : Z) : Mapping := mkMapping (mkPos line column) None None None None.

(** ... but the order may be *)
Theorem C97_release_order_refuted : exists ms l a l', Forall i32_place ms
  /\ ml_run Release ml_new (adds ms) = Ok l /\ ml_to_array Release l = Ok (a, l') /\ ~ gen_sorted a.
Proof.
  exists [c97_at 1 2147483647; c97_at 1 (-2)]. eexists. eexists. eexists. split.
  - repeat constructor; cbn; intros X; discriminate X.
  - split; [vm_compute; reflexivity|]. split; [vm_compute; reflexivity|].
    intros H. inversion H as [|? ? _ F]; subst. inversion F as [|? ? G _]; subst.
    unfold gen_le, pos_le in G. cbn in G. destruct G as [G|[_ G]]; [discriminate G | apply G; reflexivity].
Qed.
Print Assumptions C97_release_order_refuted.

Theorem C97_unavailable : gen_from_source_map = Panic PUnimplemented /\ gen_apply_sourcemap = Panic PUnimplemented.
Proof. exact unavailable. Qed.
Print Assumptions C97_unavailable.

Example C97_case :
  let run ms := let* g := gen_run Debug RefUrl (gen_new None None true) (map GAdd ms) in
                Ok (map m_generated (ml_array (g_mappings g))) in
  let sorted ms := let* l := ml_run Debug ml_new (adds ms) in
                   let* r := ml_to_array Debug l in Ok (map m_generated (fst r)) in
  (* as far before the latest as an i32 reaches, and one further *)
  run [c97_at 1 2147483647; c97_at 1 0; c97_at (-2147483646) 3]
    = Ok [mkPos 1 2147483647; mkPos 1 0; mkPos (-2147483646) 3]
  /\ run [c97_at 1 2147483647; c97_at 1 (-1)] = Panic POverflow
  /\ run [c97_at 1 0; c97_at (-2147483647) 3] = Panic POverflow
  (* columns of different lines are not compared *)
  /\ run [c97_at 2 2147483647; c97_at 1 (-1)] = Ok [mkPos 2 2147483647; mkPos 1 (-1)]
  /\ sorted [c97_at 2 2147483647; c97_at 1 (-1)] = Ok [mkPos 1 (-1); mkPos 2 2147483647]
  (* the sort itself may panic *)
  /\ run [c97_at (-2147483648) 0; c97_at 5 0] = Ok [mkPos (-2147483648) 0; mkPos 5 0]
  /\ sorted [c97_at (-2147483648) 0; c97_at 5 0] = Panic POverflow.
Proof. vm_compute. repeat split; reflexivity. Qed.
Example C97_instance : Forall i32_place [c97_at 1 0; c97_at (-2147483647) 3]
  /\ ~ comparable [c97_at 1 0; c97_at (-2147483647) 3] /\ comparable [c97_at 1 0].
Proof.
  split; [repeat constructor; cbn; intros X; discriminate X|]. split.
  - intros H. apply (H [c97_at 1 0] (c97_at (-2147483647) 3) [] (mkPos 1 0) eq_refl).
    + split; [right; left; reflexivity|]. intros p [<-|[<-|[]]]; unfold pos_le; cbn; lia.
    + left. reflexivity.
  - intros [|b before] m after M E [[<-|L] _] [F|[_ F]]; try discriminate F; cbn in E.
    + injection E as <- _. discriminate F.
    + injection E as <- _. discriminate F.
    + destruct L.
    + destruct L.
    + injection E as _ E. destruct before; discriminate E.
    + injection E as _ E. destruct before; discriminate E.
    + injection E as _ E. destruct before; discriminate E.
    + injection E as _ E. destruct before; discriminate E.
Qed.

(** C28: with overflow checks a map with a generated line below 1 is never written,
    whatever else was done *)
Theorem C28_never_written : forall (U : UrlLib) (file root : option str) (skip : bool) (ops : list gen_op)
    (m : Mapping) (g : Generator) (r : SourceMapJson * Generator)
    (added : In m (added_mappings ops)) (below_one : p_line (m_generated m) < 1)
    (history : gen_run Debug U (gen_new file root skip) ops = Ok g),
  gen_as_json Debug U g <> Ok r.
Proof. exact low_never. Qed.
Print Assumptions C28_never_written.

Example C28_instance : exists g,
  gen_run Debug RefUrl (gen_new None None true)
    [GAdd (c97_at 4 0); GContent (lit "a.js") (Some (lit "text")); GJson;
     GAdd (mkMapping (mkPos 0 3) None (Some (lit "a.js")) None None)] = Ok g.
Proof. eexists. vm_compute. reflexivity. Qed.

(** * Vocabulary: histories of calls whose panics the caller catches (C110) *)
From Verif Require Import Base M_Mapping M_MapLib M_Util M_SourceMap M_Consumer M_Indexed M_Unwind
  S_Consumer S_Indexed.

Section Unwind.
  Context (md : mode) (L : MapLib) (U : UrlLib).

  (** The consumer after the call, whether or not it panicked *)
  Definition keep (c : BasicConsumer L) (q : query) : BasicConsumer L :=
    match q with
    | QOriginal g _ => bc_original_kept L c g
    | QGenerated s l co b => bc_generated_kept md L U c s l co b
    | QAll s l co => bc_all_kept md L U c s l co
    | QSpans => bc_spans_kept L c
    | QContent s _ => bc_content_kept md L U c s
    | QEach o => bc_each_kept L c o
    end.

  Definition ikeep (c : IndexedConsumer L) (q : iquery) : IndexedConsumer L :=
    match q with
    | IOriginal g _ => ic_original_kept md L c g
    | IContent s p => ic_keep_sections L c (content_loop_kept md L U (sections_of L c) s p)
    | ISpans => ic_keep_sections L c (spans_loop_kept L (sections_of L c))
    | ISources | IHasContents | IGenerated _ _ _ _ | IAll _ _ _ | IEach _ => c
    end.

  (** After a history of calls *)
  Definition lived (c : BasicConsumer L) (qs : list query) : BasicConsumer L := fold_left keep qs c.
  Definition ilived (c : IndexedConsumer L) (qs : list iquery) : IndexedConsumer L := fold_left ikeep qs c.

  (** Of the calls, those that pass *)
  Fixpoint passing (c : BasicConsumer L) (qs : list query) : list query :=
    match qs with
    | [] => []
    | q :: qs' => match ask md L U c q with
                  | Ok d => q :: passing d qs'
                  | Panic _ => passing (keep c q) qs'
                  end
    end.

  (** Each generated_position_for among the calls passes. *)
  Fixpoint reverse_passes (c : BasicConsumer L) (qs : list query) : Prop :=
    match qs with
    | [] => True
    | q :: qs' => match q with
                  | QGenerated _ _ _ _ => exists d, ask md L U c q = Ok d
                  | _ => True
                  end /\ reverse_passes (keep c q) qs'
    end.

  (** compute_column_spans passes on fresh consumers of the maps of the first sections, up to the [k]-th. *)
  Definition spans_reach (url : option str) (l : list JSection) (k : nat) : Prop :=
    forall s c1, In s (firstn (S k) l) -> bc_from_source_map_json md L U (js_map s) url = Ok c1 ->
      exists d, bc_compute_column_spans L c1 = Ok d.
End Unwind.

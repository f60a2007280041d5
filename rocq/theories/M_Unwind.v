(** * What a call leaves of a consumer, also when it panics and the caller catches the panic

    A method of src/consumer.rs changes [self] step by step; a panic leaves the steps done so far,
    and drops the guards of RefCell, whose borrow flag is then what it was before the call. *)
From Verif Require Import Base M_ArraySet M_BinarySearch M_Mapping M_Util M_SourceMap M_Generator M_Json M_MapLib
  M_Consumer M_Indexed.

Section Unwind.
  Context (md : mode) (L : MapLib) (U : UrlLib).

  (** src/consumer.rs:184-224, find_source_index: the insertion into the cache is the last step *)
  Definition bc_find_kept (c : BasicConsumer L) (source : str) : BasicConsumer L :=
    match bc_find_source_index md L U c source with
    | Ok (_, c) => c
    | Panic _ => c
    end.

  (** src/consumer.rs:262-266 (and 283-287, 309-313, 397-401): [self.mappings] is set to what the parser
      gives, before it is unwrapped *)
  Definition bc_ensure_kept (c : BasicConsumer L) : BasicConsumer L :=
    match bc_mappings c with
    | Some _ => c
    | None =>
        match smj_mappings (bc_source_map c) with
        | None => c
        | Some s => bc_set_mappings L c (lm_parse L s)
        end
    end.

  (** src/consumer.rs:292-343, original_position_for *)
  Definition bc_original_kept (c : BasicConsumer L) (generated : Position) : BasicConsumer L :=
    if p_line generated <? 1 then c else
    if p_column generated <? 0 then c else bc_ensure_kept c.

  (** src/consumer.rs:375-447, generated_position_for: the library's value is changed on lines 403-410,
      before the answer is built *)
  Definition bc_generated_kept (c : BasicConsumer L) (source : str) (original_line original_column : Z)
      (bias : option Bias) : BasicConsumer L :=
    match bc_find_source_index md L U c source with
    | Panic _ => c
    | Ok (None, c) => c
    | Ok (Some source, c) =>
        if original_line <? 1 then c else
        if original_column <? 0 then c else
        let bias := match bias with Some b => b | None => GreatestLowerBound end in
        let c := bc_ensure_kept c in
        match bc_mappings c, i32_sub md original_line 1 with
        | Some m, Ok ol =>
            bc_set_mappings L c (Some (snd (lm_generated_for L m (to_u32 source) (to_u32 ol)
                                                             (to_u32 original_column) bias)))
        | _, _ => c
        end
    end.

  (** src/consumer.rs:236-276, all_generated_position_for *)
  Definition bc_all_kept (c : BasicConsumer L) (source : str) (original_line : Z) (original_column : option Z)
    : BasicConsumer L :=
    let original_column := match original_column with Some r => r | None => 0 end in
    match bc_find_source_index md L U c source with
    | Panic _ => c
    | Ok (None, c) => c
    | Ok (Some source, c) =>
        if source <? 0 then c else
        if original_line <? 1 then c else
        if original_column <? 0 then c else
        let c := bc_ensure_kept c in
        match bc_mappings c with
        | Some m =>
            bc_set_mappings L c (Some (snd (lm_all_generated L m (to_u32 source) (to_u32 original_line)
                                                             (Some (to_u32 original_column)))))
        | None => c
        end
    end.

  (** src/consumer.rs:278-290, compute_column_spans *)
  Definition bc_spans_kept (c : BasicConsumer L) : BasicConsumer L :=
    if bc_computed_column_spans c then c else
    let c := bc_ensure_kept c in
    match bc_mappings c with
    | Some m => mkBC (bc_source_map c) (bc_source_lookup_cache c) (bc_absolute_sources c) (bc_source_map_url c)
                     (Some (lm_compute_spans L m)) true
    | None => c
    end.

  (** src/consumer.rs:352-373, source_content_for *)
  Definition bc_content_kept (c : BasicConsumer L) (source : str) : BasicConsumer L :=
    match smj_sources_content (bc_source_map c) with
    | None => c
    | Some _ => bc_find_kept c source
    end.

  (** src/consumer.rs:456-469, each_mapping, with a callback that does not panic *)
  Definition bc_each_kept (c : BasicConsumer L) (ord : IterOrd) : BasicConsumer L :=
    let c := bc_ensure_kept c in
    match bc_mappings c, ord with
    | Some m, OriginalOrd => bc_set_mappings L c (Some (snd (lm_by_original L m)))
    | _, _ => c
    end.

  Definition ic_keep_sections (c : IndexedConsumer L) (secs : list (Section L)) : IndexedConsumer L :=
    mkIC (ic_source_map c) (mkCell (rc_flag (ic_sections c)) secs).

  (** src/consumer.rs:603-648, IndexedConsumer::original_position_for *)
  Definition ic_original_kept (c : IndexedConsumer L) (needle : Position) : IndexedConsumer L :=
    let secs := rc_val (ic_sections c) in
    match search md needle secs (cmp_needle_section md L) (cmp_section_section md L) None with
    | Panic _ => c
    | Ok section_index =>
        match vec_get secs (to_usize section_index) with
        | None => c
        | Some it =>
            let position :=
              let* ol1 := i32_sub md (p_line (sec_generated_offset it)) 1 in
              let* line := i32_sub md (p_line needle) ol1 in
              let* shift := if p_line (sec_generated_offset it) =? p_line needle
                            then i32_sub md (p_column (sec_generated_offset it)) 1 else Ok 0 in
              let* column := i32_sub md (p_column needle) shift in
              Ok (mkPos line column) in
            match position with
            | Panic _ => c
            | Ok p =>
                ic_keep_sections c (update secs (Z.to_nat (to_usize section_index))
                  (mkSection (sec_generated_offset it) (bc_original_kept (sec_consumer it) p)))
            end
        end
    end.

  (** src/consumer.rs:667-674: the loop of source_content_for ends at the first answer and at the first panic *)
  Fixpoint content_loop_kept (secs : list (Section L)) (source : str) (panic_on_missing : option bool)
    : list (Section L) :=
    match secs with
    | [] => []
    | section :: rest =>
        let bc := bc_content_kept (sec_consumer section) source in
        mkSection (sec_generated_offset section) bc
        :: match bc_source_content_for md L U (sec_consumer section) source panic_on_missing with
           | Ok (None, _) => content_loop_kept rest source panic_on_missing
           | _ => rest
           end
    end.

  (** src/consumer.rs:807-811: the loop of computed_column_spans ends at the first panic *)
  Fixpoint spans_loop_kept (secs : list (Section L)) : list (Section L) :=
    match secs with
    | [] => []
    | section :: rest =>
        let bc := bc_spans_kept (sec_consumer section) in
        mkSection (sec_generated_offset section) bc
        :: match bc_compute_column_spans L (sec_consumer section) with
           | Ok _ => spans_loop_kept rest
           | Panic _ => rest
           end
    end.

  (** src/consumer.rs:576-601 and 652-657 change nothing.  If there is a section, 684-693 panics on its first
      [borrow_mut()] and 820-871 on the [borrow()] before the section is read; otherwise there is nothing
      to change. *)
End Unwind.

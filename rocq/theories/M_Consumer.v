(** * Model of BasicConsumer in src/consumer.rs *)
From Verif Require Import Base M_ArraySet M_Mapping M_Util M_SourceMap M_Generator M_Json M_MapLib.

(** src/consumer.rs:105-108, enum IterOrd *)
Inductive IterOrd := GeneratedOrd | OriginalOrd.

(** src/consumer.rs:115-122, struct BasicConsumer *)
Record BasicConsumer (L : MapLib) := mkBC {
  bc_source_map : SourceMapJson;
  bc_source_lookup_cache : hmap Z;
  bc_absolute_sources : ArraySet;
  bc_source_map_url : option str;
  bc_mappings : option (lm_t L);
  bc_computed_column_spans : bool }.
Arguments mkBC {L}.
Arguments bc_source_map {L}.
Arguments bc_source_lookup_cache {L}.
Arguments bc_absolute_sources {L}.
Arguments bc_source_map_url {L}.
Arguments bc_mappings {L}.
Arguments bc_computed_column_spans {L}.

Section Basic.
  Context (md : mode) (L : MapLib) (U : UrlLib).

  (** src/consumer.rs:130-145 and 156-171: the absolute_sources field *)
  Definition compute_absolute_sources (source_map : SourceMapJson) (source_map_url : option str)
    : res ArraySet :=
    let* sources := unwrap (smj_sources source_map) in
    let* urls := mapM (fun it => compute_source_url md U (smj_source_root source_map) it source_map_url)
                      sources in
    Ok (as_from_array urls true).

  (** src/consumer.rs:124-149, BasicConsumer::new *)
  Definition bc_new (source_map_raw : str) (source_map_url : option str) : res (BasicConsumer L) :=
    let* source_map := unwrap_ok (smj_from_str source_map_raw) in
    let* abs := compute_absolute_sources source_map source_map_url in
    Ok (mkBC source_map [] abs source_map_url None false).

  (** src/consumer.rs:151-175, BasicConsumer::from_source_map_json *)
  Definition bc_from_source_map_json (source_map : SourceMapJson) (source_map_url : option str)
    : res (BasicConsumer L) :=
    let* abs := compute_absolute_sources source_map source_map_url in
    Ok (mkBC source_map [] abs None None false).

  (** src/generator.rs:207-209, SourceMapGenerator::as_string *)
  Definition gen_as_string (g : Generator) : res (str * Generator) :=
    let* r := gen_as_json md U g in
    let '(j, g) := r in
    Ok (smj_to_string j, g).

  (** src/consumer.rs:177-182, BasicConsumer::from_source_map *)
  Definition bc_from_source_map (source_map : Generator) (source_map_url : option str)
    : res (BasicConsumer L * Generator) :=
    let* r := gen_as_string source_map in
    let '(s, g) := r in
    let* c := bc_new s source_map_url in
    Ok (c, g).

  (** insertion into source_lookup_cache, src/consumer.rs:199-200, 218-219 *)
  Definition bc_cache_insert (c : BasicConsumer L) (source : str) (index : Z) : BasicConsumer L :=
    mkBC (bc_source_map c) (hm_insert source index (bc_source_lookup_cache c))
         (bc_absolute_sources c) (bc_source_map_url c) (bc_mappings c) (bc_computed_column_spans c).

  (** src/consumer.rs:184-224, find_source_index *)
  Definition bc_find_source_index (c : BasicConsumer L) (source : str)
    : res (option Z * BasicConsumer L) :=
    match hm_get source (bc_source_lookup_cache c) with
    | Some index => Ok (Some index, c)
    | None =>
        let* source_as_map_relative := compute_source_url md U None source (bc_source_map_url c) in
        if as_has (bc_absolute_sources c) source_as_map_relative then
          let* index := unwrap (as_index_of (bc_absolute_sources c) source_as_map_relative) in
          Ok (Some (to_i32 index), bc_cache_insert c source (to_i32 index))
        else
          let* source_as_source_root_relative :=
            compute_source_url md U (smj_source_root (bc_source_map c)) source (bc_source_map_url c) in
          if as_has (bc_absolute_sources c) source_as_source_root_relative then
            let* index := unwrap (as_index_of (bc_absolute_sources c) source_as_source_root_relative) in
            Ok (Some (to_i32 index), bc_cache_insert c source (to_i32 index))
          else Ok (None, c)
    end.

  (** src/consumer.rs:226-228, get_sources *)
  Definition bc_get_sources (c : BasicConsumer L) : list str := as_to_vec (bc_absolute_sources c).

  (** src/consumer.rs:230-234, parse_mappings ([None] for Err) *)
  Definition bc_parse_mappings (c : BasicConsumer L) : res (option (lm_t L)) :=
    let* s := unwrap (smj_mappings (bc_source_map c)) in
    Ok (lm_parse L s).

  Definition bc_set_mappings (c : BasicConsumer L) (m : option (lm_t L)) : BasicConsumer L :=
    mkBC (bc_source_map c) (bc_source_lookup_cache c) (bc_absolute_sources c)
         (bc_source_map_url c) m (bc_computed_column_spans c).

  (** src/consumer.rs:262-266 (and 283-287, 309-313, 397-401): parse once, then
      [self.mappings.as_mut().unwrap()]; returns the parsed mappings and the
      consumer holding them. *)
  Definition bc_ensure_mappings (c : BasicConsumer L) : res (lm_t L * BasicConsumer L) :=
    let* c := match bc_mappings c with
              | None => let* m := bc_parse_mappings c in Ok (bc_set_mappings c m)
              | Some _ => Ok c
              end in
    let* m := unwrap (bc_mappings c) in
    Ok (m, c).

  (** src/consumer.rs:236-276, all_generated_position_for *)
  Definition bc_all_generated_position_for (c : BasicConsumer L) (source : str)
      (original_line : Z) (original_column : option Z)
    : res (list RawMapping * BasicConsumer L) :=
    let original_column := match original_column with Some r => r | None => 0 end in
    let* r := bc_find_source_index c source in
    let '(source, c) := r in
    match source with
    | None => Ok ([], c)
    | Some source =>
        if source <? 0 then Ok ([], c) else
        if original_line <? 1 then Panic PLine else
        if original_column <? 0 then Panic PColumn else
        let* r := bc_ensure_mappings c in
        let '(mappings, c) := r in
        let '(l, mappings) := lm_all_generated L mappings (to_u32 source) (to_u32 original_line)
                                (Some (to_u32 original_column)) in
        Ok (l, bc_set_mappings c (Some mappings))
    end.

  (** src/consumer.rs:278-290, compute_column_spans *)
  Definition bc_compute_column_spans (c : BasicConsumer L) : res (BasicConsumer L) :=
    if bc_computed_column_spans c then Ok c else
    let* r := bc_ensure_mappings c in
    let '(mappings, c) := r in
    let c := bc_set_mappings c (Some (lm_compute_spans L mappings)) in
    Ok (mkBC (bc_source_map c) (bc_source_lookup_cache c) (bc_absolute_sources c)
             (bc_source_map_url c) (bc_mappings c) true).

  (** [self.source_map.names.as_ref().unwrap()[it as usize].clone()] *)
  Definition bc_name_at (c : BasicConsumer L) (it : Z) : res str :=
    let* names := unwrap (smj_names (bc_source_map c)) in
    vec_index names (to_usize it).

  Definition option_map_res {A B} (f : A -> res B) (o : option A) : res (option B) :=
    match o with Some a => let* b := f a in Ok (Some b) | None => Ok None end.

  (** src/consumer.rs:323-336: the Mapping built from a library mapping *)
  Definition bc_original_answer (c : BasicConsumer L) (mapping : RawMapping)
      (original : OriginalLocation) : res Mapping :=
    let* name := option_map_res (bc_name_at c) (ol_name original) in
    let source := as_at (bc_absolute_sources c) (to_i32 (ol_source original)) in
    let* ol := u32_add md (ol_line original) 1 in
    let* gl := u32_add md (rm_line mapping) 1 in
    Ok (mkMapping (mkPos (to_i32 gl) (to_i32 (rm_column mapping)))
                  (Some (mkPos (to_i32 ol) (to_i32 (ol_column original))))
                  source name
                  (option_map to_i32 (rm_last_column mapping))).

  (** src/consumer.rs:292-343, original_position_for *)
  Definition bc_original_position_for (c : BasicConsumer L) (generated : Position)
      (bias : option Bias) : res (option Mapping * BasicConsumer L) :=
    let generated_line := p_line generated in
    let generated_column := p_column generated in
    if generated_line <? 1 then Panic PLine else
    if generated_column <? 0 then Panic PColumn else
    let bias := match bias with Some b => b | None => GreatestLowerBound end in
    let* r := bc_ensure_mappings c in
    let '(mappings, c) := r in
    let* l := i32_sub md generated_line 1 in
    match lm_original_for L mappings (to_u32 l) (to_u32 generated_column) bias with
    | Some mapping =>
        if to_i32 (rm_line mapping) =? generated_line then
          let* a := option_map_res (bc_original_answer c mapping) (rm_original mapping) in
          Ok (a, c)
        else Ok (None, c)
    | None => Ok (None, c)
    end.

  (** src/consumer.rs:345-350, has_contents_of_all_sources *)
  Definition bc_has_contents_of_all_sources (c : BasicConsumer L) : res bool :=
    match smj_sources_content (bc_source_map c) with
    | Some s =>
        let* sources := unwrap (smj_sources (bc_source_map c)) in
        Ok (len sources <=? len s)
    | None => Ok false
    end.

  (** src/consumer.rs:352-373, source_content_for *)
  Definition bc_source_content_for (c : BasicConsumer L) (source : str)
      (panic_on_missing : option bool) : res (option str * BasicConsumer L) :=
    match smj_sources_content (bc_source_map c) with
    | None => Ok (None, c)
    | Some sources_content =>
        let panic_on_missing := match panic_on_missing with Some b => b | None => true end in
        let* r := bc_find_source_index c source in
        let '(index, c) := r in
        match index with
        | Some i => let* s := vec_index sources_content (to_usize i) in Ok (Some s, c)
        | None => if panic_on_missing then Panic PMissing else Ok (None, c)
        end
    end.

  (** src/consumer.rs:414-440: the Mapping built from a library mapping whose
      original is [original] *)
  Definition bc_generated_answer (c : BasicConsumer L) (mapping : RawMapping)
      (original : OriginalLocation) : res Mapping :=
    let last_column :=
      if bc_computed_column_spans c && is_none (rm_last_column mapping) then Some (-1)
      else option_map to_i32 (rm_last_column mapping) in
    let* gl := u32_add md (rm_line mapping) 1 in
    let* name := bc_name_at c (ol_source original) in
    Ok (mkMapping (mkPos (to_i32 gl) (to_i32 (rm_column mapping)))
                  (Some (mkPos (to_i32 (ol_line original)) (to_i32 (ol_column original))))
                  (as_at (bc_absolute_sources c) (to_i32 (ol_source original)))
                  (Some name)
                  last_column).

  (** src/consumer.rs:375-447, generated_position_for *)
  Definition bc_generated_position_for (c : BasicConsumer L) (source : str)
      (original_line original_column : Z) (bias : option Bias)
    : res (option Mapping * BasicConsumer L) :=
    let* r := bc_find_source_index c source in
    let '(source, c) := r in
    match source with
    | None => Ok (None, c)
    | Some source =>
        if original_line <? 1 then Panic PLine else
        if original_column <? 0 then Panic PColumn else
        let bias := match bias with Some b => b | None => GreatestLowerBound end in
        let* r := bc_ensure_mappings c in
        let '(mappings, c) := r in
        let* ol := i32_sub md original_line 1 in
        let '(found, mappings) := lm_generated_for L mappings (to_u32 source) (to_u32 ol)
                                    (to_u32 original_column) bias in
        let c := bc_set_mappings c (Some mappings) in
        match found with
        | Some mapping =>
            let* original := unwrap (rm_original mapping) in
            if to_i32 (ol_source original) =? source then
              let* a := bc_generated_answer c mapping original in
              Ok (Some a, c)
            else Ok (None, c)
        | None => Ok (None, c)
        end
    end.

  (** src/consumer.rs:456-469, each_mapping: the sequence of mappings handed to
      the callback.  On a parse error the method returns at once (460). *)
  Definition bc_each_mapping (c : BasicConsumer L) (ord : IterOrd)
    : res (list RawMapping * BasicConsumer L) :=
    let* r := match bc_mappings c with
              | Some m => Ok (Some m)
              | None => bc_parse_mappings c
              end in
    match r with
    | None => Ok ([], c)
    | Some mappings =>
        match ord with
        | OriginalOrd =>
            let '(l, mappings) := lm_by_original L mappings in
            Ok (l, bc_set_mappings c (Some mappings))
        | GeneratedOrd => Ok (lm_by_generated L mappings, bc_set_mappings c (Some mappings))
        end
    end.

  (** src/consumer.rs:451-454, BasicConsumer::consume: the consumer handed to
      the callback *)
  Definition bc_consume (source_map_raw source_map_url : str) : res (BasicConsumer L) :=
    bc_new source_map_raw (Some source_map_url).
End Basic.

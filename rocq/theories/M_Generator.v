(** * Model of src/generator.rs *)
From Verif Require Import Base M_Base64Vlq M_ArraySet M_Mapping M_Util M_SourceMap.

(** src/generator.rs:12-21, struct SourceMapGenerator *)
Record Generator := mkGen {
  g_file : option str;
  g_source_root : option str;
  g_skip_validation : bool;
  g_sources : ArraySet;
  g_names : ArraySet;
  g_mappings : MappingList;
  g_source_contents : hmap str }.

(** src/generator.rs:24-34, new *)
Definition gen_new (file source_root : option str) (skip_validation : bool) : Generator :=
  mkGen file source_root skip_validation as_new as_new ml_new [].

(** src/generator.rs:36-38, from_source_map *)
Definition gen_from_source_map : res unit := Panic PUnimplemented.

(** src/generator.rs:76-78, apply_sourcemap *)
Definition gen_apply_sourcemap : res unit := Panic PUnimplemented.

(** src/generator.rs:47-51 and 53-57: add unless present *)
Definition add_if_absent (s : ArraySet) (o : option str) : ArraySet :=
  match o with
  | Some x => if negb (as_has s x) then as_add s x false else s
  | None => s
  end.

(** src/generator.rs:40-60, add_mapping *)
Definition gen_add_mapping (md : mode) (g : Generator) (mapping : Mapping) : res Generator :=
  let sources := add_if_absent (g_sources g) (m_source mapping) in
  let names := add_if_absent (g_names g) (m_name mapping) in
  let* ml := ml_add md (g_mappings g) mapping in
  Ok (mkGen (g_file g) (g_source_root g) (g_skip_validation g) sources names ml
            (g_source_contents g)).

(** src/generator.rs:62-74, set_source_content *)
Definition gen_set_source_content (md : mode) (U : UrlLib) (g : Generator)
    (source_file : str) (source_content : option str) : res Generator :=
  let* source := match g_source_root g with
                 | Some s => relative md U s source_file
                 | None => Ok source_file
                 end in
  let contents := match source_content with
                  | Some content => hm_insert source content (g_source_contents g)
                  | None => hm_remove source (g_source_contents g)
                  end in
  Ok (mkGen (g_file g) (g_source_root g) (g_skip_validation g) (g_sources g) (g_names g)
            (g_mappings g) contents).

(** src/generator.rs:80-99, validate_mapping ([true] for [Ok(())]).  Private and
    never called. *)
Definition validate_mapping (m : Mapping) : bool :=
  ((0 <=? p_column (m_generated m)) && (0 <? p_line (m_generated m))
   && is_none (m_original m) && is_none (m_source m) && is_none (m_name m))
  || match m_original m with
     | Some o => (0 <? p_line (m_generated m)) && (0 <=? p_column (m_generated m))
                 && (0 <? p_line o) && (0 <=? p_column o) && is_some (m_source m)
     | None => false
     end.

(** The mutable locals of serialize_mappings, src/generator.rs:102-107 *)
Record SerState := mkSer {
  ss_generated_column : Z;
  ss_generated_line : Z;
  ss_original_column : Z;
  ss_original_line : Z;
  ss_name : Z;
  ss_source : Z }.

(** src/generator.rs:102-107 *)
Definition ser_init : SerState := mkSer 0 1 0 0 0 0.

(** src/generator.rs:121-124: while line != previous { ";"; previous += 1 } *)
Fixpoint semicolon_loop (md : mode) (fuel : nat) (line prev : Z) (next : str) : res (str * Z) :=
  if line =? prev then Ok (next, prev) else
  match fuel with
  | O => Panic PFuel
  | S fuel' =>
      let next := next ++ lit ";" in
      let* prev := i32_add md prev 1 in
      semicolon_loop md fuel' line prev next
  end.

(** The number of iterations of that loop, used as fuel. *)
Definition semicolon_fuel (line prev : Z) : nat := Z.to_nat ((line - prev) mod 2^32).

(** src/generator.rs:135-156: the fields after the generated column *)
Definition ser_tail (md : mode) (sources names : ArraySet) (mapping : Mapping) (st : SerState)
  : res (str * SerState) :=
  match m_source mapping with
  | None => Ok ([], st)
  | Some mapping_source =>
      let* i := unwrap (as_index_of sources mapping_source) in
      let source_idx := to_i32 i in
      let* d := i32_sub md source_idx (ss_source st) in
      let* f1 := base64vlq_encode md d in
      let* o := unwrap (m_original mapping) in
      let* ol := i32_sub md (p_line o) 1 in
      let* d := i32_sub md ol (ss_original_line st) in
      let* f2 := base64vlq_encode md d in
      let* d := i32_sub md (p_column o) (ss_original_column st) in
      let* f3 := base64vlq_encode md d in
      let st1 := mkSer (ss_generated_column st) (ss_generated_line st) (p_column o) ol
                       (ss_name st) source_idx in
      match m_name mapping with
      | None => Ok (f1 ++ f2 ++ f3, st1)
      | Some mapping_name =>
          let* i := unwrap (as_index_of names mapping_name) in
          let name_idx := to_i32 i in
          let* d := i32_sub md name_idx (ss_name st1) in
          let* f4 := base64vlq_encode md d in
          Ok (f1 ++ f2 ++ f3 ++ f4,
              mkSer (ss_generated_column st1) (ss_generated_line st1) (ss_original_column st1)
                    (ss_original_line st1) name_idx (ss_source st1))
      end
  end.

(** src/generator.rs:132-157: generated column, then the tail *)
Definition ser_segment (md : mode) (sources names : ArraySet) (mapping : Mapping) (st : SerState)
  : res (str * SerState) :=
  let* d := i32_sub md (p_column (m_generated mapping)) (ss_generated_column st) in
  let* f0 := base64vlq_encode md d in
  let st := mkSer (p_column (m_generated mapping)) (ss_generated_line st)
                  (ss_original_column st) (ss_original_line st) (ss_name st) (ss_source st) in
  let* r := ser_tail md sources names mapping st in
  let '(t, st) := r in
  Ok (f0 ++ t, st).

(** src/generator.rs:115-158: the loop over the sorted mappings.  [prev] is
    mappings[i - 1], [None] when i = 0. *)
Fixpoint ser_loop (md : mode) (sources names : ArraySet) (prev : option Mapping)
    (mappings : list Mapping) (st : SerState) (result : str) : res str :=
  match mappings with
  | [] => Ok result
  | mapping :: rest =>
      if negb (p_line (m_generated mapping) =? ss_generated_line st) then
        (* 119-124 *)
        let st := mkSer 0 (ss_generated_line st) (ss_original_column st)
                        (ss_original_line st) (ss_name st) (ss_source st) in
        let* r := semicolon_loop md
                    (semicolon_fuel (p_line (m_generated mapping)) (ss_generated_line st))
                    (p_line (m_generated mapping)) (ss_generated_line st) [] in
        let '(next, line) := r in
        let st := mkSer (ss_generated_column st) line (ss_original_column st)
                        (ss_original_line st) (ss_name st) (ss_source st) in
        let* r := ser_segment md sources names mapping st in
        let '(seg, st) := r in
        ser_loop md sources names (Some mapping) rest st (result ++ next ++ seg)
      else
        match prev with
        | Some p =>
            (* 125-130 *)
            let* c := compare_by_generated_pos_inflated md mapping p in
            if c =? 0 then ser_loop md sources names (Some mapping) rest st result
            else
              let* r := ser_segment md sources names mapping st in
              let '(seg, st) := r in
              ser_loop md sources names (Some mapping) rest st (result ++ lit "," ++ seg)
        | None =>
            let* r := ser_segment md sources names mapping st in
            let '(seg, st) := r in
            ser_loop md sources names (Some mapping) rest st (result ++ seg)
        end
  end.

(** src/generator.rs:101-161, serialize_mappings *)
Definition serialize_mappings (md : mode) (g : Generator) : res (str * Generator) :=
  let* r := ml_to_array md (g_mappings g) in
  let '(mappings, ml) := r in
  let g := mkGen (g_file g) (g_source_root g) (g_skip_validation g) (g_sources g) (g_names g)
                 ml (g_source_contents g) in
  let* s := ser_loop md (g_sources g) (g_names g) None mappings ser_init [] in
  Ok (s, g).

(** src/generator.rs:163-182, generate_sources_contents *)
Definition generate_sources_contents (md : mode) (U : UrlLib) (g : Generator)
    (sources : list str) (source_root : option str) : res (list (option str)) :=
  mapM (fun source =>
          let* source := match source_root with
                         | Some root => relative md U root source
                         | None => Ok source
                         end in
          Ok (if hm_contains source (g_source_contents g)
              then hm_get source (g_source_contents g) else None))
       sources.

(** [iter.flatten()] on a sequence of options *)
Fixpoint flatten_options {A} (l : list (option A)) : list A :=
  match l with
  | [] => []
  | Some x :: l' => x :: flatten_options l'
  | None :: l' => flatten_options l'
  end.

(** src/generator.rs:184-205, as_json.  Returns the value and the new state. *)
Definition gen_as_json (md : mode) (U : UrlLib) (g : Generator) : res (SourceMapJson * Generator) :=
  let sources_vec := as_to_vec (g_sources g) in
  let* sources_content :=
    match g_source_contents g with
    | [] => Ok None
    | _ => let* l := generate_sources_contents md U g sources_vec (g_source_root g) in
           Ok (Some (flatten_options l))
    end in
  let* r := serialize_mappings md g in
  let '(mappings, g) := r in
  Ok (mkSMJ 3 (Some sources_vec) (Some (as_to_vec (g_names g))) (Some mappings)
            (g_file g) (g_source_root g) sources_content None, g).

(** * Model of IndexedConsumer and create_consumer in src/consumer.rs *)
From Verif Require Import Base M_ArraySet M_BinarySearch M_Mapping M_Util M_SourceMap M_Generator
  M_Json M_MapLib M_Consumer.

(** ** std::cell::RefCell: borrow flag (0 free, n > 0 shared, -1 exclusive) *)
Record RefCell (A : Type) := mkCell { rc_flag : Z; rc_val : A }.
Arguments mkCell {A}.
Arguments rc_flag {A}.
Arguments rc_val {A}.

(** [cell.borrow()]: the guard is acquired *)
Definition rc_borrow {A} (c : RefCell A) : res (RefCell A) :=
  if rc_flag c <? 0 then Panic PBorrow else Ok (mkCell (rc_flag c + 1) (rc_val c)).
(** drop of a [Ref] *)
Definition rc_release {A} (c : RefCell A) : RefCell A := mkCell (rc_flag c - 1) (rc_val c).
(** [cell.borrow_mut()] *)
Definition rc_borrow_mut {A} (c : RefCell A) : res (RefCell A) :=
  if rc_flag c =? 0 then Ok (mkCell (-1) (rc_val c)) else Panic PBorrowMut.
(** drop of a [RefMut], after the value became [a] *)
Definition rc_release_mut {A} (c : RefCell A) (a : A) : RefCell A := mkCell 0 a.

(** src/consumer.rs:472-475, struct Section *)
Record Section (L : MapLib) := mkSection {
  sec_generated_offset : Position; sec_consumer : BasicConsumer L }.
Arguments mkSection {L}.
Arguments sec_generated_offset {L}.
Arguments sec_consumer {L}.

(** src/consumer.rs:477-485, struct IndexedConsumer *)
Record IndexedConsumer (L : MapLib) := mkIC {
  ic_source_map : SourceMapJson; ic_sections : RefCell (list (Section L)) }.
Arguments mkIC {L}.
Arguments ic_source_map {L}.
Arguments ic_sections {L}.

(** src/consumer.rs:33-36, enum Consumer *)
Inductive Consumer (L : MapLib) :=
| CBasic (c : BasicConsumer L)
| CIndexed (c : IndexedConsumer L).
Arguments CBasic {L}.
Arguments CIndexed {L}.

(** src/consumer.rs:487 *)
Definition SUPPORTED_SOURCE_MAP_VERSION : Z := 3.

(** replace element [n] *)
Fixpoint update {A} (l : list A) (n : nat) (a : A) : list A :=
  match l, n with
  | [], _ => []
  | _ :: l', O => a :: l'
  | x :: l', S n' => x :: update l' n' a
  end.

Section Indexed.
  Context (md : mode) (L : MapLib) (U : UrlLib).

  (** src/consumer.rs:539-568: the closure run for one section; [last_offset] is
      the content of the mutex.  The lock is held from line 546 to the end of the
      closure, so whole closures are ordered by lock acquisition.  A panic of any
      closure makes the whole construction panic (rayon propagates it; a poisoned
      mutex makes later closures panic too), so the state after it is not kept. *)
  Definition section_job (source_map_url : option str) (last_offset : Position) (section : JSection)
    : res (Section L * Position) :=
    if is_some (js_url section) then Panic PSectionUrl else
    let line := p_line (js_offset section) in
    let colum := p_column (js_offset section) in
    if (line <? p_line last_offset)
       || ((line =? p_line last_offset) && (colum <? p_column last_offset))
    then Panic PSectionOrder else
    let* l1 := i32_add md line 1 in
    let* c1 := i32_add md colum 1 in
    let* consumer := bc_from_source_map_json md L U (js_map section) source_map_url in
    Ok (mkSection (mkPos l1 c1) consumer, js_offset section).

  (** The section closures in the order [order] in which they take the lock:
      results tagged with their index. *)
  Fixpoint run_jobs (source_map_url : option str) (sections : list JSection) (order : list nat)
      (last_offset : Position) : res (list (nat * Section L)) :=
    match order with
    | [] => Ok []
    | i :: order' =>
        let* s := vec_index sections (Z.of_nat i) in
        let* r := section_job source_map_url last_offset s in
        let '(sec, last_offset) := r in
        let* rest := run_jobs source_map_url sections order' last_offset in
        Ok ((i, sec) :: rest)
    end.

  Fixpoint job_result (i : nat) (l : list (nat * Section L)) : res (Section L) :=
    match l with
    | [] => Panic PFuel           (* the schedule omits a section: not a real run *)
    | (j, s) :: l' => if Nat.eqb i j then Ok s else job_result i l'
    end.

  (** [par_iter().map(..).collect::<Vec<_>>()]: collected by index *)
  Definition collect_jobs (n : nat) (l : list (nat * Section L)) : res (list (Section L)) :=
    mapM (fun i => job_result i l) (seq 0 n).

  (** src/consumer.rs:495-573, IndexedConsumer::from_source_map_json, for the
      schedule [order] (a permutation of the section indices). *)
  Definition ic_from_source_map_json (order : list nat) (source_map : SourceMapJson)
      (source_map_url : option str) : res (IndexedConsumer L) :=
    if negb (smj_version source_map =? SUPPORTED_SOURCE_MAP_VERSION) then Panic PVersion else
    let* sections := unwrap (smj_sections source_map) in
    let* r := run_jobs source_map_url sections order (mkPos (-1) 0) in
    let* secs := collect_jobs (List.length sections) r in
    Ok (mkIC source_map (mkCell 0 secs)).

  (** src/consumer.rs:490-493, IndexedConsumer::new *)
  Definition ic_new (order : list nat) (source_map_raw : str) (source_map_url : option str)
    : res (IndexedConsumer L) :=
    let* source_map := unwrap_ok (smj_from_str source_map_raw) in
    ic_from_source_map_json order source_map source_map_url.

  (** src/consumer.rs:815-818, IndexedConsumer::consume *)
  Definition ic_consume (order : list nat) (source_map_raw source_map_url : str)
    : res (IndexedConsumer L) := ic_new order source_map_raw (Some source_map_url).

  Definition ic_set_sections (c : IndexedConsumer L) (s : RefCell (list (Section L)))
    : IndexedConsumer L := mkIC (ic_source_map c) s.

  (** src/consumer.rs:582-586: [self.sections.borrow()[i].consumer.source_map.sources.as_ref().unwrap()] *)
  Definition sources_of_section (secs : list (Section L)) (i : nat) : res (list str) :=
    let* sec := vec_index secs (Z.of_nat i) in
    unwrap (smj_sources (bc_source_map (sec_consumer sec))).

  (** src/consumer.rs:580-597: the inner loop; each push borrows the cell anew *)
  Fixpoint get_sources_inner (cell : RefCell (list (Section L))) (i : nat) (js : list nat)
      (sources : list str) : res (list str * RefCell (list (Section L))) :=
    match js with
    | [] => Ok (sources, cell)
    | j :: js' =>
        let* cell := rc_borrow cell in
        let* l := sources_of_section (rc_val cell) i in
        let* s := vec_index l (Z.of_nat j) in
        let cell := rc_release cell in
        get_sources_inner cell i js' (sources ++ [s])
    end.

  (** src/consumer.rs:579-598: the outer loop; the [borrow()] in the inner range
      expression lives until the inner loop ends *)
  Fixpoint get_sources_outer (cell : RefCell (list (Section L))) (is : list nat)
      (sources : list str) : res (list str * RefCell (list (Section L))) :=
    match is with
    | [] => Ok (sources, cell)
    | i :: is' =>
        let* cell := rc_borrow cell in
        let* l := sources_of_section (rc_val cell) i in
        let* r := get_sources_inner cell i (seq 0 (List.length l)) sources in
        let '(sources, cell) := r in
        let cell := rc_release cell in
        get_sources_outer cell is' sources
    end.

  (** src/consumer.rs:576-601, get_sources *)
  Definition ic_get_sources (c : IndexedConsumer L) : res (list str * IndexedConsumer L) :=
    let* cell := rc_borrow (ic_sections c) in
    let* r := get_sources_outer cell (seq 0 (List.length (rc_val cell))) [] in
    let '(sources, cell) := r in
    Ok (sources, ic_set_sections c (rc_release cell)).

  (** src/consumer.rs:613-619 *)
  Definition cmp_needle_section (a : Position) (b : Section L) : res Z :=
    let* d := i32_sub md (p_line a) (p_line (sec_generated_offset b)) in
    if negb (d =? 0) then i32_sub md (p_line a) (p_line (sec_generated_offset b))
    else i32_sub md (p_column a) (p_column (sec_generated_offset b)).

  (** src/consumer.rs:620-626 *)
  Definition cmp_section_section (a b : Section L) : res Z :=
    let* d := i32_sub md (p_line (sec_generated_offset a)) (p_line (sec_generated_offset b)) in
    if negb (d =? 0)
    then i32_sub md (p_line (sec_generated_offset a)) (p_line (sec_generated_offset b))
    else i32_sub md (p_column (sec_generated_offset a)) (p_column (sec_generated_offset b)).

  (** src/consumer.rs:603-648, original_position_for *)
  Definition ic_original_position_for (c : IndexedConsumer L) (input : Position)
      (bias : option Bias) : res (option Mapping * IndexedConsumer L) :=
    let needle := input in
    (* 610-628: the borrow ends with the statement *)
    let* cell := rc_borrow (ic_sections c) in
    let* section_index := search md needle (rc_val cell) cmp_needle_section cmp_section_section None in
    let cell := rc_release cell in
    (* 630-647 *)
    let* cell := rc_borrow_mut cell in
    let secs := rc_val cell in
    match vec_get secs (to_usize section_index) with
    | None => Ok (None, ic_set_sections c (rc_release_mut cell secs))
    | Some it =>
        let* ol1 := i32_sub md (p_line (sec_generated_offset it)) 1 in
        let* line := i32_sub md (p_line needle) ol1 in
        let* shift := if p_line (sec_generated_offset it) =? p_line needle
                      then i32_sub md (p_column (sec_generated_offset it)) 1
                      else Ok 0 in
        let* column := i32_sub md (p_column needle) shift in
        let* r := bc_original_position_for md L (sec_consumer it) (mkPos line column) bias in
        let '(a, bc) := r in
        let it := mkSection (sec_generated_offset it) bc in
        Ok (a, ic_set_sections c
                 (rc_release_mut cell (update secs (Z.to_nat (to_usize section_index)) it)))
    end.

  (** [iter().all(..)] with a predicate that may panic, left to right, stopping
      at the first false *)
  Fixpoint allM {A} (f : A -> res bool) (l : list A) : res bool :=
    match l with
    | [] => Ok true
    | x :: l' => let* b := f x in if b then allM f l' else Ok false
    end.

  (** src/consumer.rs:652-657, has_contents_of_all_sources *)
  Definition ic_has_contents_of_all_sources (c : IndexedConsumer L) : res (bool * IndexedConsumer L) :=
    let* cell := rc_borrow (ic_sections c) in
    let* b := allM (fun it => bc_has_contents_of_all_sources L (sec_consumer it)) (rc_val cell) in
    Ok (b, ic_set_sections c (rc_release cell)).

  (** src/consumer.rs:667-674: the loop over sections; the sections after the
      answering one are not touched *)
  Fixpoint source_content_loop (secs : list (Section L)) (source : str)
      (panic_on_missing : option bool) : res (option str * list (Section L)) :=
    match secs with
    | [] => Ok (None, [])
    | section :: rest =>
        let* r := bc_source_content_for md L U (sec_consumer section) source panic_on_missing in
        let '(it, bc) := r in
        let section := mkSection (sec_generated_offset section) bc in
        match it with
        | Some it => Ok (Some it, section :: rest)
        | None =>
            let* r := source_content_loop rest source panic_on_missing in
            let '(a, rest) := r in
            Ok (a, section :: rest)
        end
    end.

  (** src/consumer.rs:662-682, source_content_for *)
  Definition ic_source_content_for (c : IndexedConsumer L) (source : str)
      (panic_on_missing : option bool) : res (option str * IndexedConsumer L) :=
    let* cell := rc_borrow_mut (ic_sections c) in
    let* r := source_content_loop (rc_val cell) source panic_on_missing in
    let '(a, secs) := r in
    let c := ic_set_sections c (rc_release_mut cell secs) in
    match a with
    | Some it => Ok (Some it, c)
    | None =>
        if match panic_on_missing with Some b => b | None => true end
        then Panic PMissing else Ok (None, c)
    end.

  (** src/consumer.rs:685-690: the loop body of find_source_index; [cell] is
      the cell as the range expression's guard leaves it.  The guard of
      [borrow_mut()] on line 686 lives to the end of the loop body ([consumer]
      borrows from it). *)
  Fixpoint find_source_index_loop (cell : RefCell (list (Section L))) (is : list nat) (source : str)
    : res (option Z * RefCell (list (Section L))) :=
    match is with
    | [] => Ok (None, cell)
    | i :: is' =>
        let* cell := rc_borrow_mut cell in
        let secs := rc_val cell in
        let* sec := vec_index secs (Z.of_nat i) in
        let* r := bc_find_source_index md L U (sec_consumer sec) source in
        let '(index, bc) := r in
        let cell := rc_release_mut cell (update secs i (mkSection (sec_generated_offset sec) bc)) in
        match index with
        | Some index => Ok (Some index, cell)
        | None => find_source_index_loop cell is' source
        end
    end.

  (** src/consumer.rs:684-693, find_source_index.  The [Ref] made by
      [self.sections.borrow()] in [0..self.sections.borrow().len()] is a
      temporary of the [for] head, so it lives until the loop has ended. *)
  Definition ic_find_source_index (c : IndexedConsumer L) (source : str)
    : res (option Z * IndexedConsumer L) :=
    let* cell := rc_borrow (ic_sections c) in
    let* r := find_source_index_loop cell (seq 0 (List.length (rc_val cell))) source in
    let '(a, cell) := r in
    Ok (a, ic_set_sections c (rc_release cell)).

  (** src/consumer.rs:700-751, generated_position_for.  The guard of the
      [borrow_mut()] in the [if let] on line 709 lives to the end of the
      [if let], hence across the [borrow()] on line 729. *)
  Definition ic_generated_position_for (c : IndexedConsumer L) (source : str)
      (original_line original_column : Z) (bias : option Bias)
    : res (option Position * IndexedConsumer L) :=
    let* r := ic_find_source_index c source in
    let '(index, c) := r in
    match index with
    | None => Ok (None, c)
    | Some index =>
        let* cell := rc_borrow_mut (ic_sections c) in
        let secs := rc_val cell in
        match vec_get secs (to_usize index) with
        | None => Ok (None, ic_set_sections c (rc_release_mut cell secs))
        | Some section =>
            let* r := bc_generated_position_for md L U (sec_consumer section) source
                        original_line original_column bias in
            let '(gp, bc) := r in
            let secs := update secs (Z.to_nat (to_usize index))
                               (mkSection (sec_generated_offset section) bc) in
            match gp with
            | None => Ok (None, ic_set_sections c (rc_release_mut cell secs))
            | Some gp =>
                (* 717-718 *)
                let* line_shift := i32_sub md (p_line (m_generated gp)) 1 in
                let* column_shift := i32_sub md (p_column (m_generated gp)) 1 in
                (* 720-725 *)
                let* r :=
                  if p_line (m_generated gp) =? 1 then
                    let* col := i32_add md (p_column (m_generated gp)) column_shift in
                    let* last := option_map_res (fun g => i32_add md g column_shift)
                                                (m_last_generated_column gp) in
                    Ok (col, last)
                  else Ok (p_column (m_generated gp), m_last_generated_column gp) in
                let '(col, last) := r in
                (* 727-730 *)
                let* cell2 := rc_borrow cell in
                match last, vec_get (rc_val cell2) (to_usize index + 1) with
                | Some last_column, Some next_section =>
                    (* 731-739: only last_generated_column is changed, which is
                       not part of the answer *)
                    let* _ := if (last_column =? -1)
                                 && (p_line (m_generated gp) =? p_line (sec_generated_offset next_section))
                              then i32_sub md (p_column (sec_generated_offset next_section)) 2
                              else Ok 0 in
                    let* line := i32_add md (p_line (m_generated gp)) line_shift in
                    Ok (Some (mkPos line col),
                        ic_set_sections c (rc_release_mut (rc_release cell2) secs))
                | _, _ => Ok (None, ic_set_sections c (rc_release_mut (rc_release cell2) secs))
                end
            end
        end
    end.

  (** src/consumer.rs:767-798: the adjustment of one mapping; [cell] is the cell
      while the [borrow_mut()] guard of line 761 is alive *)
  Definition adjust_all_generated (cell : RefCell (list (Section L))) (index : Z)
      (mapping : RawMapping) : res RawMapping :=
    let* line_shift := u32_sub md (rm_line mapping) 1 in
    let* column_shift := u32_sub md (rm_column mapping) 1 in
    let* mapping :=
      if rm_line mapping =? 1 then
        let* col := u32_add md (rm_column mapping) column_shift in
        let* last := option_map_res (fun g => u32_add md g column_shift) (rm_last_column mapping) in
        Ok (mkRaw (rm_line mapping) col last (rm_original mapping))
      else Ok mapping in
    if is_some (rm_last_column mapping) then
      let* cell2 := rc_borrow cell in
      let* mapping :=
        match vec_get (rc_val cell2) (to_usize index + 1) with
        | Some next_section =>
            if rm_line mapping =? to_u32 (p_line (sec_generated_offset next_section)) then
              let* l := i32_sub md (p_column (sec_generated_offset next_section)) 2 in
              Ok (mkRaw (rm_line mapping) (rm_column mapping) (Some (to_u32 l)) (rm_original mapping))
            else Ok mapping
        | None => Ok mapping
        end in
      let* line := u32_add md (rm_line mapping) line_shift in
      Ok (mkRaw line (rm_column mapping) (rm_last_column mapping) (rm_original mapping))
    else Ok mapping.

  (** src/consumer.rs:753-805, all_generated_position_for *)
  Definition ic_all_generated_position_for (c : IndexedConsumer L) (source : str)
      (original_line : Z) (original_column : option Z)
    : res (list RawMapping * IndexedConsumer L) :=
    let* r := ic_find_source_index c source in
    let '(index, c) := r in
    match index with
    | None => Ok ([], c)
    | Some index =>
        let* cell := rc_borrow_mut (ic_sections c) in
        let secs := rc_val cell in
        match vec_get secs (to_usize index) with
        | None => Ok ([], ic_set_sections c (rc_release_mut cell secs))
        | Some section =>
            let* r := bc_all_generated_position_for md L U (sec_consumer section) source
                        original_line original_column in
            let '(l, bc) := r in
            let secs := update secs (Z.to_nat (to_usize index))
                               (mkSection (sec_generated_offset section) bc) in
            let* l := mapM (adjust_all_generated cell index) l in
            Ok (l, ic_set_sections c (rc_release_mut cell secs))
        end
    end.

  (** src/consumer.rs:807-811, computed_column_spans *)
  Definition ic_computed_column_spans (c : IndexedConsumer L) : res (IndexedConsumer L) :=
    let* cell := rc_borrow_mut (ic_sections c) in
    let* secs := mapM (fun ele =>
                   let* bc := bc_compute_column_spans L (sec_consumer ele) in
                   Ok (mkSection (sec_generated_offset ele) bc)) (rc_val cell) in
    Ok (ic_set_sections c (rc_release_mut cell secs)).

  (** src/consumer.rs:844-865: the closure given to the section's each_mapping;
      returns the mapping handed to the user's callback *)
  Definition adjust_each (secs : list (Section L)) (index : nat) (line_shift column_shift : Z)
      (mapping : RawMapping) : res RawMapping :=
    let* mapping :=
      if rm_line mapping =? 1 then
        let* col := u32_add md (rm_column mapping) (to_u32 column_shift) in
        let* last := option_map_res (fun g => u32_add md g (to_u32 column_shift)) (rm_last_column mapping) in
        Ok (mkRaw (rm_line mapping) col last (rm_original mapping))
      else Ok mapping in
    let* mapping :=
      match vec_get secs (Z.of_nat index + 1) with
      | Some next_section =>
          if rm_line mapping =? to_u32 (p_line (sec_generated_offset next_section)) then
            let* l := u32_sub md (to_u32 (p_column (sec_generated_offset next_section))) 2 in
            Ok (mkRaw (rm_line mapping) (rm_column mapping) (Some l) (rm_original mapping))
          else Ok mapping
      | None => Ok mapping
      end in
    let* line := u32_add md (rm_line mapping) (to_u32 line_shift) in
    Ok (mkRaw line (rm_column mapping) (rm_last_column mapping) (rm_original mapping)).

  (** src/consumer.rs:829-869: one step of the loop over sections; [cell] is the
      cell while the [borrow_mut()] guard of line 822 is alive *)
  Fixpoint each_mapping_loop (cell : RefCell (list (Section L))) (index : nat)
      (secs : list (Section L)) (ord : IterOrd) : res (list RawMapping * list (Section L)) :=
    match secs with
    | [] => Ok ([], [])
    | section :: rest =>
        let* line_shift := i32_sub md (p_line (sec_generated_offset section)) 1 in
        let* column_shift := i32_sub md (p_column (sec_generated_offset section)) 1 in
        let* cell2 := rc_borrow cell in                                   (* 842 *)
        let* r := bc_each_mapping L (sec_consumer section) ord in
        let '(l, bc) := r in
        let* l := mapM (adjust_each (rc_val cell2) index line_shift column_shift) l in
        let cell := rc_release cell2 in
        let* r := each_mapping_loop cell (S index) rest ord in
        let '(l', rest) := r in
        Ok (l ++ l', mkSection (sec_generated_offset section) bc :: rest)
    end.

  (** src/consumer.rs:820-871, each_mapping: the mappings handed to the callback *)
  Definition ic_each_mapping (c : IndexedConsumer L) (ord : IterOrd)
    : res (list RawMapping * IndexedConsumer L) :=
    let* cell := rc_borrow_mut (ic_sections c) in
    let* r := each_mapping_loop cell 0 (rc_val cell) ord in
    let '(l, secs) := r in
    Ok (l, ic_set_sections c (rc_release_mut cell secs)).

  (** src/consumer.rs:17-31, create_consumer ([Ok None] for [Err(_)]); [order] is
      the schedule used if the map has sections *)
  Definition create_consumer (order : list nat) (source_map_raw : str) (source_map_url : option str)
    : res (option (Consumer L)) :=
    match smj_from_str source_map_raw with
    | None => Ok None
    | Some source_map =>
        if is_some (smj_sections source_map) then
          let* c := ic_from_source_map_json order source_map source_map_url in
          Ok (Some (CIndexed c))
        else
          let* c := bc_from_source_map_json md L U source_map source_map_url in
          Ok (Some (CBasic c))
    end.

  (** src/consumer.rs:39-45 and 55-61, as_basic_consumer(_mut) *)
  Definition as_basic_consumer (c : Consumer L) : res (BasicConsumer L) :=
    match c with CBasic b => Ok b | CIndexed _ => Panic PNotThatConsumer end.
  (** src/consumer.rs:47-53 and 63-69, as_indexed_consumer(_mut) *)
  Definition as_indexed_consumer (c : Consumer L) : res (IndexedConsumer L) :=
    match c with CIndexed b => Ok b | CBasic _ => Panic PNotThatConsumer end.
  (** src/consumer.rs:71-77 and 87-93, try_as_basic_consumer(_mut) *)
  Definition try_as_basic_consumer (c : Consumer L) : option (BasicConsumer L) :=
    match c with CBasic b => Some b | CIndexed _ => None end.
  (** src/consumer.rs:79-85 and 95-101, try_as_indexed_consumer(_mut) *)
  Definition try_as_indexed_consumer (c : Consumer L) : option (IndexedConsumer L) :=
    match c with CIndexed b => Some b | CBasic _ => None end.
End Indexed.

(** * Model of src/mapping.rs, of Position in src/source_map.rs, of the
    comparison functions of src/util.rs and of src/mapping_list.rs *)
From Verif Require Import Base.

(** src/source_map.rs:33-36, struct Position (both fields i32) *)
Record Position := mkPos { p_line : Z; p_column : Z }.

(** src/mapping.rs:4-10, struct Mapping *)
Record Mapping := mkMapping {
  m_generated : Position;
  m_original : option Position;
  m_source : option str;
  m_name : option str;
  m_last_generated_column : option Z }.

(** src/util.rs:10-28, strcmp *)
Definition strcmp (a b : option str) : Z :=
  if ostr_eqb a b then 0
  else match a, b with
       | None, _ => 1
       | _, None => -1
       | Some x, Some y => match str_compare x y with Gt => 1 | _ => -1 end
       end.

(** src/util.rs:30-58, compare_by_generated_pos_inflated *)
Definition compare_by_generated_pos_inflated (md : mode) (a b : Mapping) : res Z :=
  let* cmp := i32_sub md (p_line (m_generated a)) (p_line (m_generated b)) in
  if negb (cmp =? 0) then Ok cmp else
  let* cmp := i32_sub md (p_column (m_generated a)) (p_column (m_generated b)) in
  if negb (cmp =? 0) then Ok cmp else
  let cmp := strcmp (m_source a) (m_source b) in
  if negb (cmp =? 0) then Ok cmp else
  match m_original a, m_original b with
  | Some oa, Some ob =>
      let* cmp := i32_sub md (p_line oa) (p_line ob) in
      if negb (cmp =? 0) then Ok cmp else
      let* cmp := i32_sub md (p_column oa) (p_column ob) in
      if negb (cmp =? 0) then Ok cmp else
      Ok (strcmp (m_name a) (m_name b))
  | _, _ => Ok (strcmp (m_name a) (m_name b))
  end.

(** src/mapping_list.rs:5-13, generated_position_after.  The third disjunct is
    evaluated only when the first two are false (short circuit). *)
Definition generated_position_after (md : mode) (a b : Mapping) : res bool :=
  let line_a := p_line (m_generated a) in
  let line_b := p_line (m_generated b) in
  let column_a := p_column (m_generated a) in
  let column_b := p_column (m_generated b) in
  if (line_a <? line_b) || ((line_b =? line_a) && (column_a <=? column_b))
  then Ok true
  else let* c := compare_by_generated_pos_inflated md a b in Ok (c <=? 0).

(** src/mapping_list.rs:14-18, struct MappingList *)
Record MappingList := mkMappingList {
  ml_array : list Mapping; ml_sorted : bool; ml_last : option Mapping }.

(** src/mapping_list.rs:20-33, Default / new *)
Definition ml_new : MappingList := mkMappingList [] true None.

(** src/mapping_list.rs:47-56, the stand-in used when there is no last mapping *)
Definition ml_dummy_last : Mapping := mkMapping (mkPos (-1) (-1)) None None None None.

(** src/mapping_list.rs:45-65, add *)
Definition ml_add (md : mode) (l : MappingList) (mapping : Mapping) : res MappingList :=
  let last := match ml_last l with Some m => m | None => ml_dummy_last end in
  let* after := generated_position_after md last mapping in
  if after
  then Ok (mkMappingList (ml_array l ++ [mapping]) (ml_sorted l) (Some mapping))
  else Ok (mkMappingList (ml_array l ++ [mapping]) false (ml_last l)).

(** [slice::sort_by] of std: a stable sort.  Modelled as insertion sort; the
    comparator may panic.  An element is put before the first element that is
    not smaller than it ([cmp x y] is not [Greater]). *)
Fixpoint sort_insert {A} (cmp : A -> A -> res Z) (x : A) (l : list A) : res (list A) :=
  match l with
  | [] => Ok [x]
  | y :: l' =>
      let* c := cmp x y in
      if 0 <? c then let* r := sort_insert cmp x l' in Ok (y :: r)
      else Ok (x :: y :: l')
  end.

Fixpoint sort_by {A} (cmp : A -> A -> res Z) (l : list A) : res (list A) :=
  match l with
  | [] => Ok []
  | x :: l' => let* s := sort_by cmp l' in sort_insert cmp x s
  end.

(** src/mapping_list.rs:67-81, to_array.  Returns the copy and the new state. *)
Definition ml_to_array (md : mode) (l : MappingList) : res (list Mapping * MappingList) :=
  if negb (ml_sorted l)
  then let* a := sort_by (compare_by_generated_pos_inflated md) (ml_array l) in
       Ok (a, mkMappingList a true (ml_last l))
  else Ok (ml_array l, l).

(** src/mapping_list.rs:39-43, unsorted_for_each: the sequence of callback
    arguments. *)
Definition ml_unsorted_for_each (l : MappingList) : list (Mapping * Z) :=
  combine (ml_array l) (map Z.of_nat (seq 0 (List.length (ml_array l)))).

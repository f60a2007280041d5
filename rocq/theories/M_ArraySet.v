(** * Model of src/array_set.rs *)
From Verif Require Import Base.

(** src/array_set.rs:4-7, struct ArraySet *)
Record ArraySet := mkArraySet { as_array : list str; as_set : hmap Z }.

(** src/array_set.rs:18-20, new (Default::default()) *)
Definition as_new : ArraySet := mkArraySet [] [].

(** src/array_set.rs:78-80, has *)
Definition as_has (s : ArraySet) (data : str) : bool := hm_contains data (as_set s).

(** src/array_set.rs:59-69, add *)
Definition as_add (s : ArraySet) (data : str) (allow_duplicates : bool) : ArraySet :=
  let is_duplicate := as_has s data in
  let idx := len (as_array s) in
  let array := if negb is_duplicate || allow_duplicates
               then as_array s ++ [data] else as_array s in
  let set := if negb is_duplicate then hm_insert data idx (as_set s) else as_set s in
  mkArraySet array set.

(** src/array_set.rs:30-36, from_array *)
Definition as_from_array (arr : list str) (allow_duplicates : bool) : ArraySet :=
  fold_left (fun s i => as_add s i allow_duplicates) arr as_new.

(** src/array_set.rs:46-48, size *)
Definition as_size (s : ArraySet) : Z := hm_len (as_set s).

(** src/array_set.rs:89-91, index_of *)
Definition as_index_of (s : ArraySet) (data : str) : option Z := hm_get data (as_set s).

(** src/array_set.rs:100-106, at *)
Definition as_at (s : ArraySet) (idx : Z) : option str :=
  if (0 <=? idx) && (idx <? to_i32 (len (as_array s)))
  then vec_get (as_array s) (to_usize idx)
  else None.

(** src/array_set.rs:119-121, to_vec *)
Definition as_to_vec (s : ArraySet) : list str := as_array s.

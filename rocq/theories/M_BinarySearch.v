(** * Model of src/binary_search.rs *)
From Verif Require Import Base.

(** src/binary_search.rs:1 *)
Definition GREATEST_LOWER_BOUND : Z := 1.
(** src/binary_search.rs:2 *)
Definition LEAST_UPPER_BOUND : Z := 2.

Section Search.
  Context {T1 T2 : Type}.

  (** src/binary_search.rs:17-75, recursive_search.  The comparison closure may
      panic (its Rust uses subtract i32s).  Recursion on explicit fuel. *)
  Fixpoint recursive_search (md : mode) (fuel : nat) (low high : Z) (needle : T1)
      (hay_stack : list T2) (compare : T1 -> T2 -> res Z) (bias : Z) : res Z :=
    match fuel with
    | O => Panic PFuel
    | S fuel' =>
        (* line 35: (high - low) / 2 + low *)
        let* d := i32_sub md high low in
        let* mid := i32_add md (Z.quot d 2) low in
        (* line 36 *)
        let* h := vec_index hay_stack (to_usize mid) in
        let* cmp := compare needle h in
        if cmp =? 0 then Ok mid                                   (* 39-41 *)
        else if 0 <? cmp then                                     (* 42 *)
          let* hm := i32_sub md high mid in
          if 1 <? hm                                              (* 44 *)
          then recursive_search md fuel' mid high needle hay_stack compare bias
          else if bias =? LEAST_UPPER_BOUND                       (* 50-56 *)
          then Ok (if high <? to_i32 (len hay_stack) then high else -1)
          else Ok mid                                             (* 57 *)
        else
          let* ml := i32_sub md mid low in
          if 1 <? ml                                              (* 61 *)
          then recursive_search md fuel' low mid needle hay_stack compare bias
          else if bias =? LEAST_UPPER_BOUND then Ok mid           (* 66-68 *)
          else Ok (if low <? 0 then -1 else low)                  (* 70-74 *)
    end.

  (** src/binary_search.rs:103-108, the while loop of search.  [fuel] is the
      index itself, so it cannot run out before [index] reaches 0. *)
  Fixpoint first_equal (md : mode) (fuel : nat) (index : Z) (hay_stack : list T2)
      (compare2 : T2 -> T2 -> res Z) : res Z :=
    if 0 <? index then
      match fuel with
      | O => Panic PFuel
      | S fuel' =>
          let* a := vec_index hay_stack (to_usize index) in
          let* i1 := i32_sub md index 1 in
          let* b := vec_index hay_stack (to_usize i1) in
          let* c := compare2 a b in
          if negb (c =? 0) then Ok index
          else let* index := i32_sub md index 1 in
               first_equal md fuel' index hay_stack compare2
      end
    else Ok index.

  (** src/binary_search.rs:77-111, search *)
  Definition search (md : mode) (needle : T1) (hay_stack : list T2)
      (compare1 : T1 -> T2 -> res Z) (compare2 : T2 -> T2 -> res Z)
      (bias : option Z) : res Z :=
    match hay_stack with
    | [] => Ok (-1)                                               (* 84-86 *)
    | _ =>
        let* index := recursive_search md (S (S (List.length hay_stack))) (-1)
            (to_i32 (len hay_stack)) needle hay_stack compare1
            (match bias with Some b => b | None => GREATEST_LOWER_BOUND end) in
        if index <? 0 then Ok (-1)                                (* 96-98 *)
        else first_equal md (Z.to_nat index) index hay_stack compare2
    end.
End Search.

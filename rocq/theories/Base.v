(** * Base: Rust results, integers, strings and maps used by the whole model.

    Nothing here models a particular function of /repo; these are the Rust
    language and [std] notions the model is written in. *)

From Coq Require Export Ascii String.
From Coq Require Export ZArith NArith List Bool Lia.
Export ListNotations.
Open Scope Z_scope.

(** ** Panics and results *)

(** The reason of a panic.  [PFuel] is not a Rust panic: it marks exhaustion of
    the explicit fuel of a modelled loop and is excluded by theorems. *)
Inductive panic_kind :=
| POverflow        (* arithmetic overflow, only with overflow checks *)
| PUnwrapNone      (* Option::unwrap on None *)
| PUnwrapErr       (* Result::unwrap on Err *)
| PIndex           (* slice / Vec / HashMap index *)
| PBorrow          (* RefCell::borrow while mutably borrowed *)
| PBorrowMut       (* RefCell::borrow_mut while borrowed *)
| PLine            (* "Line numbers must be >= 1" *)
| PColumn          (* "Column numbers must be >= 0" *)
| PMissing         (* "... is not in the SourceMap." *)
| PVersion         (* "Unsupported version" *)
| PSectionUrl      (* "Section with url is not supported." *)
| PSectionOrder    (* "Section offsets must be ordered and non-overlapping." *)
| PNotThatConsumer (* "The consumer is not a basic consumer" *)
| PUnimplemented   (* unimplemented!() *)
| PFuel.

(** Outcome of a call that may panic. *)
Inductive res (A : Type) :=
| Ok (a : A)
| Panic (p : panic_kind).
Arguments Ok {A} a.
Arguments Panic {A} p.

Definition bind {A B} (m : res A) (k : A -> res B) : res B :=
  match m with Ok a => k a | Panic p => Panic p end.

Notation "'let*' x := a 'in' b" := (bind a (fun x => b))
  (at level 200, x pattern, a at level 100, b at level 200, right associativity).

Definition is_ok {A} (m : res A) : bool :=
  match m with Ok _ => true | Panic _ => false end.

Definition is_panic {A} (m : res A) : Prop := exists p, m = Panic p.

(** [Option::unwrap]. *)
Definition unwrap {A} (o : option A) : res A :=
  match o with Some a => Ok a | None => Panic PUnwrapNone end.

(** [Option::is_some] / [is_none]. *)
Definition is_some {A} (o : option A) : bool :=
  match o with Some _ => true | None => false end.
Definition is_none {A} (o : option A) : bool := negb (is_some o).

Fixpoint mapM {A B} (f : A -> res B) (l : list A) : res (list B) :=
  match l with
  | [] => Ok []
  | x :: l' => let* y := f x in let* ys := mapM f l' in Ok (y :: ys)
  end.

(** ** Machine integers *)

(** Overflow checks: on ([Debug], the dev/test profile) or off ([Release]). *)
Inductive mode := Debug | Release.

Definition i32_min : Z := -(2^31).
Definition i32_max : Z := 2^31 - 1.

Definition in_i32 (z : Z) : bool := (i32_min <=? z) && (z <=? i32_max).
Definition in_u32 (z : Z) : bool := (0 <=? z) && (z <? 2^32).

(** [as i32] from any wider or unsigned type. *)
Definition to_i32 (z : Z) : Z := (z + 2^31) mod 2^32 - 2^31.
(** [as u32]. *)
Definition to_u32 (z : Z) : Z := z mod 2^32.
(** [as usize] (64 bit, sign-extending). *)
Definition to_usize (z : Z) : Z := z mod 2^64.

Definition checked_i32 (md : mode) (z : Z) : res Z :=
  if in_i32 z then Ok z
  else match md with Debug => Panic POverflow | Release => Ok (to_i32 z) end.

Definition i32_add (md : mode) (a b : Z) : res Z := checked_i32 md (a + b).
Definition i32_sub (md : mode) (a b : Z) : res Z := checked_i32 md (a - b).
Definition i32_neg (md : mode) (a : Z) : res Z := checked_i32 md (- a).
(** [a << k] on i32 for k < 32: never checked, bits are lost. *)
Definition i32_shl (a k : Z) : Z := to_i32 (Z.shiftl a k).

Definition checked_u32 (md : mode) (z : Z) : res Z :=
  if in_u32 z then Ok z
  else match md with Debug => Panic POverflow | Release => Ok (to_u32 z) end.

Definition u32_add (md : mode) (a b : Z) : res Z := checked_u32 md (a + b).
Definition u32_sub (md : mode) (a b : Z) : res Z := checked_u32 md (a - b).

(** ** Vectors *)

Definition len {A} (l : list A) : Z := Z.of_nat (List.length l).

(** [v.get(i)] for a usize index. *)
Definition vec_get {A} (l : list A) (i : Z) : option A :=
  if (0 <=? i) && (i <? len l) then nth_error l (Z.to_nat i) else None.

(** [v[i]]. *)
Definition vec_index {A} (l : list A) (i : Z) : res A :=
  match vec_get l i with Some a => Ok a | None => Panic PIndex end.

(** ** Strings: lists of Unicode code points *)

Definition char := N.
Definition str := list char.

Fixpoint lit (s : string) : str :=
  match s with
  | EmptyString => []
  | String a s' => N_of_ascii a :: lit s'
  end.

Definition ch (a : ascii) : char := N_of_ascii a.

Definition char_eqb (a b : char) : bool := N.eqb a b.

Fixpoint str_eqb (a b : str) : bool :=
  match a, b with
  | [], [] => true
  | x :: a', y :: b' => N.eqb x y && str_eqb a' b'
  | _, _ => false
  end.

(** [Ord for String]: lexicographic by code point (= by UTF-8 byte). *)
Fixpoint str_compare (a b : str) : comparison :=
  match a, b with
  | [], [] => Eq
  | [], _ :: _ => Lt
  | _ :: _, [] => Gt
  | x :: a', y :: b' =>
      match N.compare x y with Eq => str_compare a' b' | c => c end
  end.

Definition ostr_eqb (a b : option str) : bool :=
  match a, b with
  | None, None => true
  | Some x, Some y => str_eqb x y
  | _, _ => false
  end.

(** ** HashMap<String, V> *)

Definition hmap (V : Type) := list (str * V).

Fixpoint hm_get {V} (k : str) (m : hmap V) : option V :=
  match m with
  | [] => None
  | (k', v) :: m' => if str_eqb k k' then Some v else hm_get k m'
  end.

Definition hm_contains {V} (k : str) (m : hmap V) : bool := is_some (hm_get k m).

Fixpoint hm_remove {V} (k : str) (m : hmap V) : hmap V :=
  match m with
  | [] => []
  | (k', v) :: m' => if str_eqb k k' then hm_remove k m' else (k', v) :: hm_remove k m'
  end.

Definition hm_insert {V} (k : str) (v : V) (m : hmap V) : hmap V :=
  (k, v) :: hm_remove k m.

Definition hm_len {V} (m : hmap V) : Z := len m.

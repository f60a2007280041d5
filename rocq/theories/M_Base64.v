(** * Model of src/base64.rs *)
From Verif Require Import Base.

(** src/base64.rs:1-6, INT_TO_CHAR_MAP.  The Rust table holds one-character
    strings; here it is the list of those characters. *)
Definition INT_TO_CHAR_MAP : list char :=
  lit "ABCDEFGHIJKLMNOPQRSTUVWXYZabcdefghijklmnopqrstuvwxyz0123456789+/".

(** src/base64.rs:8-14, encode.  [INT_TO_CHAR_MAP[num as usize].parse().unwrap()]
    is the single character of the entry. *)
Definition base64_encode (num : Z) : option char :=
  if (0 <=? num) && (num <? to_i32 (len INT_TO_CHAR_MAP))
  then vec_get INT_TO_CHAR_MAP (to_usize num)
  else None.

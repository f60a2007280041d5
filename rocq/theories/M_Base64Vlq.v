(** * Model of src/base64_vlq.rs *)
From Verif Require Import Base M_Base64.

(** src/base64_vlq.rs:15, VLQ_BASE_SHIFT *)
Definition VLQ_BASE_SHIFT : Z := 5.
(** src/base64_vlq.rs:18, VLQ_BASE *)
Definition VLQ_BASE : Z := Z.shiftl 1 VLQ_BASE_SHIFT.
(** src/base64_vlq.rs:21, VLQ_BASE_MASK *)
Definition VLQ_BASE_MASK : Z := VLQ_BASE - 1.
(** src/base64_vlq.rs:24, VLQ_CONTINUATION_BIT *)
Definition VLQ_CONTINUATION_BIT : Z := VLQ_BASE.

(** src/base64_vlq.rs:26-32, to_vlq_signed *)
Definition to_vlq_signed (md : mode) (value : Z) : res Z :=
  if value <? 0
  then let* n := i32_neg md value in i32_add md (i32_shl n 1) 1
  else Ok (i32_shl value 1).

(** src/base64_vlq.rs:40-53, the loop of base64vlq_encode.  [encoded] is the
    string pushed so far.  Fuel is explicit; [PFuel] is proved unreachable. *)
Fixpoint vlq_loop (fuel : nat) (vlq : Z) (encoded : str) : res str :=
  match fuel with
  | O => Panic PFuel
  | S fuel' =>
      (* line 41 *)
      let digit := to_i32 (Z.land (to_usize vlq) VLQ_BASE_MASK) in
      (* line 42 *)
      let vlq := to_i32 (Z.shiftr (to_usize vlq) VLQ_BASE_SHIFT) in
      (* lines 44-48 *)
      let digit := if 0 <? vlq
                   then to_i32 (Z.lor (to_usize digit) VLQ_CONTINUATION_BIT)
                   else digit in
      (* line 49 *)
      let* c := unwrap (base64_encode digit) in
      let encoded := encoded ++ [c] in
      (* lines 50-52 *)
      if vlq <=? 0 then Ok encoded else vlq_loop fuel' vlq encoded
  end.

(** src/base64_vlq.rs:34-55, base64vlq_encode *)
Definition base64vlq_encode (md : mode) (value : Z) : res str :=
  let* vlq := to_vlq_signed md value in
  vlq_loop 8 vlq [].

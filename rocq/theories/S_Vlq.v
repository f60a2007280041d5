(** * Specification of base64 digits and of VLQ numbers (Source Map v3)

    Independent of the model. *)
From Verif Require Import Base.

(** RFC 4648, table 1: the value of a base64 digit. *)
Definition b64_value (c : char) : option Z :=
  let z := Z.of_N c in
  if (65 <=? z) && (z <=? 90) then Some (z - 65)              (* A-Z *)
  else if (97 <=? z) && (z <=? 122) then Some (z - 97 + 26)   (* a-z *)
  else if (48 <=? z) && (z <=? 57) then Some (z - 48 + 52)    (* 0-9 *)
  else if z =? 43 then Some 62                                (* + *)
  else if z =? 47 then Some 63                                (* / *)
  else None.

(** A VLQ number: base-32 digits, least significant first; digits of 32 and more
    have the continuation bit. *)
Fixpoint vlq_unsigned (s : str) : option (Z * str) :=
  match s with
  | [] => None
  | c :: s' =>
      match b64_value c with
      | None => None
      | Some d =>
          if d <? 32 then Some (d, s')
          else match vlq_unsigned s' with
               | None => None
               | Some (hi, r) => Some ((d - 32) + 32 * hi, r)
               end
      end
  end.

(** The sign is the least significant bit. *)
Definition vlq_sign (u : Z) : Z := if Z.even u then u / 2 else - (u / 2).

(** [vlq_decode s = Some (v, rest)]: [s] starts with a VLQ number of value [v],
    followed by [rest]. *)
Definition vlq_decode (s : str) : option (Z * str) :=
  match vlq_unsigned s with
  | None => None
  | Some (u, r) => Some (vlq_sign u, r)
  end.

(** The unsigned value carrying [v] and its sign. *)
Definition vlq_signed (v : Z) : Z := if v <? 0 then 2 * (- v) + 1 else 2 * v.

(** Number of base-32 digits. *)
Definition base32_digits (u : Z) : Z := Z.log2 u / 5 + 1.

(** The digit [c] is a base64 digit with / without continuation bit. *)
Definition continues (c : char) : Prop := exists d, b64_value c = Some d /\ 32 <= d.
Definition final (c : char) : Prop := exists d, b64_value c = Some d /\ d < 32.

(** A field: continuation digits and one final digit. *)
Definition vlq_shape (s : str) : Prop :=
  exists init last, s = init ++ [last] /\ Forall continues init /\ final last.

(** Fields of a segment, up to the end of the text. *)
Fixpoint vlq_fields (fuel : nat) (s : str) : option (list Z) :=
  match s with
  | [] => Some []
  | _ =>
      match fuel with
      | O => None
      | S fuel' =>
          match vlq_decode s with
          | None => None
          | Some (v, r) => match vlq_fields fuel' r with
                           | None => None
                           | Some l => Some (v :: l)
                           end
          end
      end
  end.

Definition vlq_decode_all (s : str) : option (list Z) := vlq_fields (List.length s) s.

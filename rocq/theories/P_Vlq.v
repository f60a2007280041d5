(** * C01-C05: VLQ numbers *)
From Verif Require Import Base M_Base64 M_Base64Vlq S_Vlq F_Vlq.

(** C01: encoding a number below 2^30 in magnitude and decoding it by the v3
    rules, with anything behind it, gives the number and leaves the rest. *)
Theorem C01_vlq_roundtrip : forall (md : mode) (v : Z) (small : Z.abs v < 2^30),
  exists s, base64vlq_encode md v = Ok s /\ forall rest, vlq_decode (s ++ rest) = Some (v, rest).
Proof. exact encode_decode_rest. Qed.
Print Assumptions C01_vlq_roundtrip.

Example C01_case :
  map (fun v => match base64vlq_encode Debug v with Ok s => vlq_decode (s ++ lit ",AA") | Panic _ => None end)
      [0; 1; -1; 15; 16; -16; 31; 32; -511; 512; 1023; 1024; 1073741823; -1073741823]
  = map (fun v => Some (v, lit ",AA")) [0; 1; -1; 15; 16; -16; 31; 32; -511; 512; 1023; 1024; 1073741823; -1073741823]
  /\ base64vlq_encode Debug (-123456) = Ok (lit "hkxH")
  /\ vlq_decode (lit "hkxH,AAAA") = Some (-123456, lit ",AAAA") /\ Z.abs (-123456) < 2^30.
Proof. vm_compute. repeat split; reflexivity. Qed.

(** C02: shape of the text, for every i32 for which there is one; exact and
    minimal length in the range where the number survives. *)
Theorem C02_vlq_shape : forall (md : mode) (v : Z) (s : str)
    (i32 : in_i32 v = true) (encoded : base64vlq_encode md v = Ok s),
  s <> [] /\ Forall (fun c => exists d, b64_value c = Some d) s
  /\ ~ In (ch ",") s /\ ~ In (ch ";") s /\ vlq_shape s.
Proof. exact encode_chars. Qed.
Print Assumptions C02_vlq_shape.

Theorem C02_vlq_length : forall (md : mode) (v : Z) (s : str)
    (small : Z.abs v < 2^30) (encoded : base64vlq_encode md v = Ok s),
  len s = base32_digits (vlq_signed v) /\ 1 <= len s <= 7
  /\ forall s', vlq_decode s' = Some (v, []) -> len s <= len s'.
Proof. exact encode_minimal. Qed.
Print Assumptions C02_vlq_length.

Example C02_case :
  base64vlq_encode Release 1073741823 = Ok (lit "+/////B") /\ base32_digits (vlq_signed 1073741823) = 7
  /\ base64vlq_encode Release 15 = Ok (lit "e") /\ base64vlq_encode Release 16 = Ok (lit "gB")
  /\ base64vlq_encode Release 0 = Ok (lit "A") /\ base64vlq_encode Release (-1) = Ok (lit "D").
Proof. vm_compute. repeat split; reflexivity. Qed.

(** C03: among all i32, exactly those below 2^30 in magnitude round-trip; for all
    others one character comes out, which means another number, except that
    i32::MIN panics with overflow checks. *)
Theorem C03_vlq_range : forall (md : mode) (v : Z) (i32 : in_i32 v = true),
  ((exists s, base64vlq_encode md v = Ok s /\ vlq_decode s = Some (v, [])) <-> Z.abs v < 2^30)
  /\ (2^30 <= Z.abs v ->
      (v = i32_min /\ md = Debug /\ base64vlq_encode md v = Panic POverflow)
      \/ (exists c w, base64vlq_encode md v = Ok [c] /\ vlq_decode [c] = Some (w, []) /\ w <> v
            /\ ~ (v = i32_min /\ md = Debug))).
Proof. exact encode_range. Qed.
Print Assumptions C03_vlq_range.

Example C03_case :
  in_i32 1073741824 = true /\ base64vlq_encode Debug 1073741824 = Ok (lit "A")
  /\ base64vlq_encode Debug 1073741823 = Ok (lit "+/////B") /\ vlq_decode (lit "+/////B") = Some (1073741823, [])
  /\ vlq_decode (lit "A") = Some (0, [])
  /\ base64vlq_encode Debug i32_min = Panic POverflow /\ base64vlq_encode Release i32_min = Ok (lit "B").
Proof. vm_compute. repeat split; reflexivity. Qed.

(** C04: sequences of numbers. *)
Theorem C04_vlq_sequences : forall (md : mode) (vs : list Z)
    (small : Forall (fun v => Z.abs v < 2^30) vs),
  exists ss, mapM (base64vlq_encode md) vs = Ok ss /\ vlq_decode_all (concat ss) = Some vs.
Proof. exact encode_list_roundtrip. Qed.
Print Assumptions C04_vlq_sequences.

Theorem C04_vlq_injective : forall (md : mode) (vs ws : list Z) (ss ts : list str)
    (small_v : Forall (fun v => Z.abs v < 2^30) vs) (small_w : Forall (fun v => Z.abs v < 2^30) ws)
    (encoded_v : mapM (base64vlq_encode md) vs = Ok ss)
    (encoded_w : mapM (base64vlq_encode md) ws = Ok ts)
    (same_text : concat ss = concat ts),
  vs = ws.
Proof. exact encode_list_injective. Qed.
Print Assumptions C04_vlq_injective.

Example C04_case :
  mapM (base64vlq_encode Debug) [0; 16; -1; 511] = Ok [lit "A"; lit "gB"; lit "D"; lit "+f"]
  /\ vlq_decode_all (lit "AgBD+f") = Some [0; 16; -1; 511].
Proof. vm_compute. repeat split; reflexivity. Qed.

(** C05: the digit table. *)
Theorem C05_base64_table :
  (forall n, (exists c, base64_encode n = Some c) <-> 0 <= n < 64)
  /\ (forall n c, base64_encode n = Some c <-> b64_value c = Some n)
  /\ (forall n m c, base64_encode n = Some c -> base64_encode m = Some c -> n = m).
Proof. exact base64_table. Qed.
Print Assumptions C05_base64_table.

Example C05_case :
  map base64_encode [0; 25; 26; 51; 52; 61; 62; 63] = map Some (lit "AZaz09+/")
  /\ base64_encode 64 = None /\ base64_encode (-1) = None.
Proof. vm_compute. repeat split; reflexivity. Qed.

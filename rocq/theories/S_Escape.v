(** * Specification for names with spaces and characters beyond ASCII (C77)

    [escape] (S_Url.v) replaces space, quote, angle brackets and characters beyond
    ASCII by their UTF-8 bytes as "%XX". *)
From Verif Require Import Base S_Url.

(** Plain text in which characters may also stand unescaped *)
Inductive written : str -> Prop :=
| written_nil : written []
| written_cons : forall c s, plain_char c = true \/ escaped_char c = true -> written s -> written (c :: s)
| written_escape : forall a b s, hex_char a = true -> hex_char b = true ->
    ~ (a = ch "2" /\ (b = ch "E" \/ b = ch "e")) -> written s -> written (ch "%" :: a :: b :: s).

(** Such a path, neither beginning nor ending in a space *)
Definition written_path (p : path) : Prop :=
  Forall (fun d => d <> [] /\ written d) (dirs p) /\ written (file p) /\ no_outer_space (path_text p).

(** A reference that can be classified before and after escaping *)
Definition escapable (s : str) : Prop :=
  reference (escape s) /\ no_outer_space s /\ 2 <= len s /\ len (escape s) <= 2147483645.

(** The source as compute_source_url takes it: below a root without its '/' *)
Definition taken (root : option str) (s : str) : str :=
  match root, s with
  | Some _, c :: d :: t => if N.eqb c (ch "/") && negb (N.eqb d (ch "/")) then d :: t else s
  | _, _ => s
  end.

(** * The four kinds of reference, by their text *)
From Verif Require Import Base M_Util.

(** The characters a scheme may consist of (a first digit or sign is not
    excluded, unlike in RFC 3986). *)
Definition scheme_letter (c : char) : Prop :=
  In c (lit "ABCDEFGHIJKLMNOPQRSTUVWXYZabcdefghijklmnopqrstuvwxyz0123456789+-.").

(** scheme ":/" anything *)
Definition has_scheme (s : str) : Prop :=
  exists scheme rest, s = scheme ++ lit ":/" ++ rest /\ scheme <> [] /\ Forall scheme_letter scheme.

Definition kind_of (s : str) (t : UrlType) : Prop :=
  match t with
  | SchemeRelative => exists rest, s = lit "//" ++ rest
  | PathAbsolute => exists c rest, s = lit "/" ++ c :: rest /\ c <> ch "/"
  | Absolute => has_scheme s
  | PathRelative => 2 <= len s /\ ~ has_scheme s /\ forall rest, s <> lit "/" ++ rest
  end.

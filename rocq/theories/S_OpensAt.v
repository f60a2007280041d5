(** * Specification: which maps open under a map URL (C94) *)
From Verif Require Import Base S_Url S_Refs S_MapUrl S_Opens.

(** What is taken for the directory of the map URL [m]: C92 for relative ones,
    otherwise its directories run together (C36). *)
Definition directory_of (m d : ref) : Prop :=
  match m with
  | RRel p q f => exists n name, max_dotdots (ref_text m) n /\ internal_name (ref_text m) name
                    /\ d = RRel (map_directory n name p (glue q ++ glue f)) None None
  | _ => d = map_ref (in_order m)
  end.

(** A map URL, if there is one, and the directory taken for it *)
Definition map_at (m d : option ref) : Prop :=
  match m, d with
  | None, None => True
  | Some m, Some d => plain_ref m /\ len (ref_text m) <= 2147483645 /\ directory_of m d
  | _, _ => False
  end.

(** Two characters must be left of the source in its root, and of the directory. *)
Definition acceptable_at (d root : option ref) (s : ref) : Prop :=
  acceptable root s
  /\ match d with
     | Some d => 2 <= len (ref_text (location root s)) /\ 2 <= len (ref_text d)
     | None => True
     end.

Definition location_at (d root : option ref) (s : ref) : ref :=
  match d with Some d => resolved d (location root s) | None => location root s end.

Definition short_enough (d root : option ref) (s : ref) : Prop :=
  root_length root + len (ref_text s) <= 2147483643
  /\ match d with Some d => len (ref_text d) + len (ref_text (location root s)) <= 2147483644 | None => True end.

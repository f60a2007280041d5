(** * Specification: maps whose URL has a scheme but no "//" (C98) *)
From Verif Require Import Base S_Url S_Refs S_MapUrl.

Definition not_slash (c : char) : bool := negb (N.eqb c (ch "/")).

(** The directory taken for "scheme:text?q#f": the text up to its last '/', without
    its other '/', below as many ".." as the URL has of them (disjoint, as many as can be) and one more.
    Of a text without '/' nothing is left but these "..", the query and the fragment. *)
Definition data_directory (s t : str) (q f : option str) (d : ref) : Prop :=
  exists k, max_dotdots (opaque_url s t q f) k
    /\ ((exists a b, t = a ++ lit "/" ++ b /\ ~ In (ch "/") b
           /\ d = RRel (mkPath (repeat dotdot (S k)) (filter not_slash a ++ glue q ++ glue f)) None None)
        \/ (~ In (ch "/") t
           /\ d = RRel (match k with
                        | O => mkPath [] (glue q ++ glue f)
                        | S j => mkPath (repeat dotdot j) (dotdot ++ glue q ++ glue f)
                        end) None None)).

(** A data: URL, or one like it, as a map URL *)
Definition data_map (m : str) (d : ref) : Prop :=
  exists s t q f, m = opaque_url s t q f /\ any_scheme s /\ opaque_text t /\ plain_opt q /\ plain_opt f
    /\ len m <= 2147483645 /\ data_directory s t q f d /\ (2 <= len (ref_text d) -> plain_ref d).

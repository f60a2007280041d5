(** * References that the url crate refuses *)
From Verif Require Import Base M_Util.

(** [s] cannot be joined to any URL, as "http://[/a.js" *)
Definition refused (U : UrlLib) (s : str) : Prop := forall u, ul_join U u s = None.
(** one '/', then something else *)
Definition one_slash (s : str) : Prop := exists c t, s = lit "/" ++ c :: t /\ c <> ch "/".

(** * What a generated map depends on (C112) *)
From Verif Require Import Base M_Util M_Mapping M_SourceMap M_Generator S_List S_Generator S_Contents.

(** Both histories leave the same contents for every file, or with a root for every path relative to it. *)
Definition same_contents (md : mode) (U : UrlLib) (root : option str) (ops ops' : list gen_op) : Prop :=
  match root with
  | None => forall s, last_content s ops None = last_content s ops' None
  | Some r => exists key, (forall s k, relative md U r s = Ok k -> key s = k)
      /\ forall k, last_content k (renamed key ops) None = last_content k (renamed key ops') None
  end.

(** Sources and names are used for the first time in the same order. *)
Definition same_first_uses (ms ms' : list Mapping) : Prop :=
  distinct (present (map m_source ms)) = distinct (present (map m_source ms'))
  /\ distinct (present (map m_name ms)) = distinct (present (map m_name ms')).

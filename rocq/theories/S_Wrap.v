(** * A map as the only section of an indexed map *)
From Verif Require Import Base M_Mapping M_SourceMap M_MapLib M_Consumer M_Indexed S_Consumer S_Indexed.

(** [j] is an indexed map whose only section is [m], at the very beginning. *)
Definition wraps (j m : SourceMapJson) : Prop :=
  smj_version j = 3 /\ smj_sections j = Some [mkJSection (mkPos 0 0) m None].

(** All positions but the first column of the first line *)
Definition past_start (g : Position) : bool := (1 <? p_line g) || ((p_line g =? 1) && (1 <=? p_column g)).

(** Positions as the field types allow; the smallest number is left out. *)
Definition in_range (g : Position) : Prop :=
  i32_min < p_line g <= i32_max /\ i32_min < p_column g <= i32_max.
Definition call_in_range (q : iquery) : Prop :=
  match q with IOriginal g _ => in_range g | _ => True end.

(** The calls on the indexed map that reach the section *)
Definition passed_on (q : iquery) : list query :=
  match q with
  | IOriginal g b => if past_start g then [QOriginal g b] else []
  | IContent s p => [QContent s p]
  | ISpans => [QSpans]
  | _ => []
  end.

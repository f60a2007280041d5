(** * Vocabulary for positions that are far apart *)
From Verif Require Import Base M_Mapping S_Mapping S_Generator.

(** What the mappings text has to say for [ms]: how far each position is from the
    one before it.  Columns start again at 0 on every generated line; original
    positions count from the last mapping that has one. *)
Fixpoint steps (generated original : Position) (ms : list Mapping) : list Z :=
  match ms with
  | [] => []
  | m :: ms' =>
      (p_column (m_generated m)
       - (if p_line (m_generated m) =? p_line generated then p_column generated else 0))
      :: match m_original m with
         | Some o => (p_line o - p_line original) :: (p_column o - p_column original) :: steps (m_generated m) o ms'
         | None => steps (m_generated m) original ms'
         end
  end.

Definition near (d : Z) : Prop := Z.abs d < 2^30.
Definition near_by (ms : list Mapping) : Prop := Forall near (steps (mkPos 1 0) (mkPos 1 0) ms).

(** No step between the mappings that a history writes one after the other, C22,
    reaches 2^30. *)
Definition steps_fit (ops : list gen_op) : Prop :=
  forall a r, held (list_ops ops ++ [ToArray]) a -> collapsed (map written a) r -> near_by r.

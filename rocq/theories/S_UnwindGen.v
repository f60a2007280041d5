(** * Vocabulary: histories of calls on a generator whose panics the caller catches (C111) *)
From Verif Require Import Base M_ArraySet M_Mapping M_Util M_SourceMap M_Generator M_UnwindGen S_Generator.

(** What a call that panics may leave of [g] *)
Definition panic_leaves (md : mode) (U : UrlLib) (g : Generator) (op : gen_op) (g' : Generator) : Prop :=
  match op with
  | GAdd m => g' = gen_add_left g m
  | GContent _ _ => g' = gen_content_left g
  | GJson => gen_json_left md U g g'
  end.

(** The calls [ops] take [g] to [g']; those of them that pass are [ps]. *)
Inductive caught (md : mode) (U : UrlLib) : Generator -> list gen_op -> list gen_op -> Generator -> Prop :=
| caught_none : forall g, caught md U g [] [] g
| caught_pass : forall g op g1 ops ps g',
    gen_step md U g op = Ok g1 -> caught md U g1 ops ps g' -> caught md U g (op :: ops) (op :: ps) g'
| caught_panic : forall g op p g1 ops ps g',
    gen_step md U g op = Panic p -> panic_leaves md U g op g1 -> caught md U g1 ops ps g' -> caught md U g (op :: ops) ps g'.

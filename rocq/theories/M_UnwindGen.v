(** * What a call that panics leaves of a generator *)
From Verif Require Import Base M_ArraySet M_Mapping M_Util M_SourceMap M_Generator.
From Coq Require Import Sorting.Permutation.

Definition gen_set_mappings (g : Generator) (ml : MappingList) : Generator :=
  mkGen (g_file g) (g_source_root g) (g_skip_validation g) (g_sources g) (g_names g) ml (g_source_contents g).

(** src/generator.rs:40-60, add_mapping: the lists of sources and names have grown before MappingList::add,
    which compares before it changes anything (src/mapping_list.rs:45-64) *)
Definition gen_add_left (g : Generator) (mapping : Mapping) : Generator :=
  mkGen (g_file g) (g_source_root g) (g_skip_validation g) (add_if_absent (g_sources g) (m_source mapping))
        (add_if_absent (g_names g) (m_name mapping)) (g_mappings g) (g_source_contents g).

(** src/generator.rs:62-74, set_source_content: only [relative] panics, before the contents change *)
Definition gen_content_left (g : Generator) : Generator := g.

(** src/generator.rs:185-194: the contents, which as_json computes first *)
Definition gen_json_contents (md : mode) (U : UrlLib) (g : Generator) : res (option (list str)) :=
  match g_source_contents g with
  | [] => Ok None
  | _ => let* l := generate_sources_contents md U g (as_to_vec (g_sources g)) (g_source_root g) in
         Ok (Some (flatten_options l))
  end.

(** src/generator.rs:184-205, as_json, and src/mapping_list.rs:66-80, to_array.  If a comparison panics
    during [sort_by], the list holds the same mappings in an order that std does not specify. *)
Inductive gen_json_left (md : mode) (U : UrlLib) (g : Generator) : Generator -> Prop :=
| left_contents : forall p, gen_json_contents md U g = Panic p -> gen_json_left md U g g
| left_sort : forall sc p a, gen_json_contents md U g = Ok sc -> ml_to_array md (g_mappings g) = Panic p ->
    Permutation (ml_array (g_mappings g)) a ->
    gen_json_left md U g (gen_set_mappings g (mkMappingList a (ml_sorted (g_mappings g)) (ml_last (g_mappings g))))
| left_loop : forall sc a ml p, gen_json_contents md U g = Ok sc -> ml_to_array md (g_mappings g) = Ok (a, ml) ->
    ser_loop md (g_sources g) (g_names g) None a ser_init [] = Panic p ->
    gen_json_left md U g (gen_set_mappings g ml).

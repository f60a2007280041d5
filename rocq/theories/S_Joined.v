(** * Specification: indexed maps opened in order (C116) *)
From Verif Require Import Base M_Mapping M_MapLib M_Util M_SourceMap M_Consumer M_Indexed S_Indexed.

(** The consumer of an indexed map with these sections, taken in order *)
Definition opens_in_order (md : mode) (L : MapLib) (U : UrlLib) (url : option str) (l : list JSection) (c : IndexedConsumer L) : Prop :=
    exists j, smj_sections j = Some l /\ Forall i32_offset l
      /\ ic_from_source_map_json md L U (seq 0 (length l)) j url = Ok c.

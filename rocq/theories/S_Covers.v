(** * Specification: the section a position is looked up in (C115) *)
From Verif Require Import Base M_Mapping M_MapLib M_Util M_SourceMap M_Consumer M_Indexed S_Mapping S_Indexed.

(** The last section that starts strictly before the position; the first of several at one offset *)
Definition covers (l : list JSection) (g : Position) (k : nat) (s : JSection) : Prop :=
  nth_error l k = Some s /\ starts_before (js_offset s) g
  /\ (forall s', In s' l -> starts_before (js_offset s') g -> pos_le (js_offset s') (js_offset s))
  /\ (forall k' s', nth_error l k' = Some s' -> js_offset s' = js_offset s -> (k <= k')%nat).

(** The consumer after the calls, on an indexed map with these sections (opened in order); the search for the position
    does not overflow. *)
Section On.
  Context (md : mode) (L : MapLib) (U : UrlLib).
  Definition on_sections (url : option str) (l : list JSection) (g : Position) (qs : list iquery) (c : IndexedConsumer L) : Prop :=
    exists j c0, smj_sections j = Some l /\ Forall small_offset l /\ len l < 2147483647
      /\ ic_from_source_map_json md L U (seq 0 (List.length l)) j url = Ok c0 /\ iasked md L U c0 qs = Ok c
      /\ in_reach (map start_of (map js_offset l)) g.
End On.

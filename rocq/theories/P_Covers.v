(** * C115: only the map of the section a position lies in matters *)
From Verif Require Import Base M_ArraySet M_Mapping M_Util M_SourceMap M_Json M_MapLib M_Consumer M_Indexed
  S_Mapping S_Consumer S_Indexed S_Quiet S_Fields S_Covers F_UrlRef F_MapLibRef F_IndexedProps F_Covers.

(** Two positions, in one or two indexed maps, at the same place in sections with the same map, get the same answer,
    whatever the other sections and calls (computed_column_spans was called on both or on neither). *)
Theorem C115_same_section : forall (md : mode) (L : MapLib) (U : UrlLib) (url : option str) (l l' : list JSection) (g g' : Position)
    (qs qs' : list iquery) (c c' : IndexedConsumer L) (k k' : nat) (s s' : JSection) (b : option Bias)
    (on : on_sections md L U url l g qs c) (on' : on_sections md L U url l' g' qs' c')
    (section : covers l g k s) (section' : covers l' g' k' s') (maps : same_places (js_map s) (js_map s'))
    (place : relative_position (js_offset s) g = relative_position (js_offset s') g') (spans : calls_spans qs = calls_spans qs'),
  answer (ic_original_position_for md L c g b) = answer (ic_original_position_for md L c' g' b).
Proof. exact same_cover. Qed.
Print Assumptions C115_same_section.

(** Sections added behind the position *)
Theorem C115_behind : forall (md : mode) (L : MapLib) (U : UrlLib) (url : option str) (l more : list JSection) (g : Position)
    (qs qs' : list iquery) (c c' : IndexedConsumer L) (b : option Bias)
    (on : on_sections md L U url l g qs c) (on' : on_sections md L U url (l ++ more) g qs' c')
    (behind : forall t, In t more -> ~ starts_before (js_offset t) g) (spans : calls_spans qs = calls_spans qs'),
  answer (ic_original_position_for md L c g b) = answer (ic_original_position_for md L c' g b).
Proof. exact appended. Qed.
Print Assumptions C115_behind.

(** Sections added in front of the one the position lies in *)
Theorem C115_front : forall (md : mode) (L : MapLib) (U : UrlLib) (url : option str) (front l : list JSection) (g : Position)
    (qs qs' : list iquery) (c c' : IndexedConsumer L) (k : nat) (s : JSection) (b : option Bias)
    (on : on_sections md L U url l g qs c) (on' : on_sections md L U url (front ++ l) g qs' c')
    (section : covers l g k s) (in_front : forall t, In t front -> pos_lt (js_offset t) (js_offset s))
    (spans : calls_spans qs = calls_spans qs'),
  answer (ic_original_position_for md L c g b) = answer (ic_original_position_for md L c' g b).
Proof. exact put_in_front. Qed.
Print Assumptions C115_front.

(** Every position lies in one section at most; in one exactly unless no section starts before it. *)
Theorem C115_one_section : forall (l : list JSection) (g : Position) (k : nat) (s : JSection) (k' : nat) (s' : JSection)
    (section : covers l g k s) (section' : covers l g k' s'), k = k' /\ s = s'.
Proof. exact covers_unique. Qed.
Print Assumptions C115_one_section.

Theorem C115_section_or_none : forall (md : mode) (L : MapLib) (U : UrlLib) (url : option str) (l : list JSection) (g : Position)
    (qs : list iquery) (c : IndexedConsumer L) (b : option Bias) (on : on_sections md L U url l g qs c),
  (exists k s, covers l g k s)
  \/ ((forall s, In s l -> ~ starts_before (js_offset s) g) /\ answer (ic_original_position_for md L c g b) = Ok None).
Proof. exact covered_or_none. Qed.
Print Assumptions C115_section_or_none.

(** ** Examples *)
Definition c115_map (source mappings : string) : SourceMapJson :=
  mkSMJ 3 (Some [lit source]) (Some []) (Some (lit mappings)) None None None None.
Definition c115_sec (line column : Z) (j : SourceMapJson) : JSection := mkJSection (mkPos line column) j None.
Definition c115_a : SourceMapJson := c115_map "a.js" "AAAA;AACA;IACA".
Definition c115_b : SourceMapJson := c115_map "b.js" "AAAA;;AACA".
Definition c115_one : list JSection := [c115_sec 0 0 c115_b; c115_sec 4 2 c115_a].
(** the same map again, further behind and on another column *)
Definition c115_two : list JSection := c115_one ++ [c115_sec 9 5 c115_a].
Definition c115_json (l : list JSection) : SourceMapJson := mkSMJ 3 None None None None None None (Some l).
Definition c115_at (l : list JSection) (line column : Z) : res (option Mapping) :=
  let* c := ic_from_source_map_json Debug RefLib RefUrl (seq 0 (length l)) (c115_json l) None in
  answer (ic_original_position_for Debug RefLib c (mkPos line column) (Some LeastUpperBound)).

Example C115_case :
  c115_at c115_one 5 7 = Ok (Some (mkMapping (mkPos 2 0) (Some (mkPos 2 0)) (Some (lit "a.js")) None None))
  (* a section behind; sections in front *)
  /\ c115_at c115_two 5 7 = c115_at c115_one 5 7
  /\ c115_at [c115_sec 4 2 c115_a] 5 7 = c115_at c115_one 5 7
  /\ c115_at ([c115_sec 0 0 c115_a; c115_sec 3 0 c115_b] ++ [c115_sec 4 2 c115_a]) 5 7 = c115_at c115_one 5 7
  (* the same place in the other section with that map *)
  /\ c115_at c115_two 10 10 = c115_at c115_one 5 7
  (* a section that starts before the position matters *)
  /\ c115_at (c115_one ++ [c115_sec 4 4 c115_b]) 5 7 <> c115_at c115_one 5 7.
Proof. repeat split; try (vm_compute; reflexivity). vm_compute. discriminate. Qed.

Example C115_instance :
  covers c115_one (mkPos 5 7) 1 (c115_sec 4 2 c115_a) /\ covers c115_two (mkPos 10 10) 2 (c115_sec 9 5 c115_a)
  /\ relative_position (mkPos 4 2) (mkPos 5 7) = relative_position (mkPos 9 5) (mkPos 10 10)
  /\ exists c, on_sections Debug RefLib RefUrl None c115_two (mkPos 10 10) [] c.
Proof.
  split; [|split; [|split]].
  - repeat split; cbn; [unfold starts_before; cbn; lia| |].
    + intros s [<-|[<-|[]]] _; unfold pos_le; cbn; lia.
    + intros [|[|[|k]]] s E; cbn in E; inversion E; subst; cbn; try discriminate; lia.
  - repeat split; cbn; [unfold starts_before; cbn; lia| |].
    + intros s [<-|[<-|[<-|[]]]] _; unfold pos_le; cbn; lia.
    + intros [|[|[|[|k]]]] s E; cbn in E; inversion E; subst; cbn; try discriminate; lia.
  - reflexivity.
  - assert (X : (let* c := ic_from_source_map_json Debug RefLib RefUrl (seq 0 (length c115_two)) (c115_json c115_two) None in Ok tt) = Ok tt)
      by (vm_compute; reflexivity).
    destruct (ic_from_source_map_json Debug RefLib RefUrl (seq 0 (length c115_two)) (c115_json c115_two) None) as [c|p] eqn:E; [|discriminate X].
    exists c, (c115_json c115_two), c. split; [reflexivity|]. split; [repeat constructor; vm_compute; congruence|].
    split; [vm_compute; reflexivity|]. split; [exact E|]. split; [reflexivity|].
    apply natural_reach; [repeat constructor; vm_compute; congruence | split; vm_compute; congruence | split; vm_compute; congruence].
Qed.

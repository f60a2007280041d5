(** * C49-C55, C59: IndexedConsumer

    [order] is the order in which the worker threads take the lock.  [c0] is a
    consumer as the constructor returns it under some schedule, [qs] any history of
    calls that leads from [c0] to [c]. *)
From Verif Require Import Base M_ArraySet M_Mapping M_Util M_SourceMap M_Generator M_Json M_MapLib M_Consumer M_Indexed
  S_Mapping S_MapLib S_Consumer S_Indexed F_UrlRef F_MapLibRef F_Indexed F_IndexedProps.
From Coq Require Import Sorting.Sorted Sorting.Permutation.

(** C49: any schedule *)
Theorem C49_any_schedule : forall (md : mode) (L : MapLib) (U : UrlLib) (order : list nat) (j : SourceMapJson)
    (url : option str) (c : IndexedConsumer L)
    (runs : forall l, smj_sections j = Some l -> schedule order (length l) /\ Forall i32_offset l),
  ic_from_source_map_json md L U order j url = Ok c
  <-> smj_version j = 3 /\ exists l l' secs, smj_sections j = Some l
      /\ arranged l order l' /\ in_order (map js_offset l')
      /\ Forall2 (section_opens md L U url) l secs
      /\ c = mkIC j (mkCell 0 secs).
Proof. exact opening. Qed.
Print Assumptions C49_any_schedule.

Theorem C49_only_in_order : forall (md : mode) (L : MapLib) (U : UrlLib) (order : list nat) (j : SourceMapJson)
    (url : option str) (l : list JSection)
    (sections : smj_sections j = Some l) (runs : schedule order (length l))
    (range : Forall i32_offset l) (offsets : increasing (map js_offset l)),
  order = seq 0 (length l) \/ exists p, ic_from_source_map_json md L U order j url = Panic p.
Proof. exact schedules. Qed.
Print Assumptions C49_only_in_order.

Theorem C49_same_result : forall (md : mode) (L : MapLib) (U : UrlLib) (order order' : list nat) (j : SourceMapJson)
    (url : option str) (l : list JSection) (c c' : IndexedConsumer L)
    (sections : smj_sections j = Some l) (runs : schedule order (length l)) (runs' : schedule order' (length l))
    (range : Forall i32_offset l)
    (opens : ic_from_source_map_json md L U order j url = Ok c)
    (opens' : ic_from_source_map_json md L U order' j url = Ok c'),
  c = c'.
Proof. exact same_result. Qed.
Print Assumptions C49_same_result.

(** maps used in the examples *)
Definition c49_first : SourceMapJson :=
  mkSMJ 3 (Some [lit "a.js"; lit "b.js"]) (Some [lit "x"]) (Some (lit "AAAA,ICQCA;;OAPI")) None
        (Some (lit "src")) (Some [lit "text of a"]) None.
Definition c49_second : SourceMapJson :=
  mkSMJ 3 (Some [lit "c.js"]) None (Some (lit ";AAAA")) None None (Some [lit "text of c"]) None.
Definition c49_sections (l : list JSection) : SourceMapJson :=
  mkSMJ 3 None None None None None None (Some l).
Definition c49_json : SourceMapJson :=
  c49_sections [mkJSection (mkPos 0 0) c49_first None; mkJSection (mkPos 10 4) c49_second None].
Definition c49_swapped : SourceMapJson :=
  c49_sections [mkJSection (mkPos 10 4) c49_second None; mkJSection (mkPos 0 0) c49_first None].
Definition c49_open (j : SourceMapJson) (order : list nat) : res (IndexedConsumer RefLib) :=
  ic_from_source_map_json Debug RefLib RefUrl order j None.
(** the offsets of the opened sections *)
Definition c49_offsets (j : SourceMapJson) (order : list nat) : res (list Position) :=
  let* c := c49_open j order in Ok (map sec_generated_offset (sections_of RefLib c)).

Example C49_case :
  c49_offsets c49_json [0; 1]%nat = Ok [mkPos 1 1; mkPos 11 5]
  /\ c49_offsets c49_json [1; 0]%nat = Panic PSectionOrder
  /\ c49_offsets c49_swapped [0; 1]%nat = Panic PSectionOrder
  /\ c49_offsets c49_swapped [1; 0]%nat = Ok [mkPos 11 5; mkPos 1 1].
Proof. vm_compute. repeat split; reflexivity. Qed.
Example C49_instance : exists l, smj_sections c49_json = Some l /\ schedule [1; 0]%nat (length l)
  /\ Forall i32_offset l /\ increasing (map js_offset l).
Proof.
  eexists. split; [reflexivity|]. split; [apply perm_swap|].
  unfold i32_offset, i32_min, i32_max. split.
  - repeat constructor; cbn; intros X; discriminate X.
  - cbn. repeat constructor.
Qed.

(** A map is accepted or rejected depending on the schedule, whether or not its
    sections are in order. *)
Theorem C49_depends_on_map_only_refuted : exists (good bad : SourceMapJson) (order order' : list nat),
  schedule order 2 /\ schedule order' 2
  /\ is_ok (c49_open good order) = true /\ is_ok (c49_open good order') = false
  /\ is_ok (c49_open bad order) = false /\ is_ok (c49_open bad order') = true.
Proof.
  exists c49_json, c49_swapped, [0; 1]%nat, [1; 0]%nat. split; [apply Permutation_refl|]. split; [apply perm_swap|].
  vm_compute. repeat split; reflexivity.
Qed.
Print Assumptions C49_depends_on_map_only_refuted.

(** C50 *)
Theorem C50_in_order : forall (md : mode) (L : MapLib) (U : UrlLib) (j : SourceMapJson)
    (url : option str) (c : IndexedConsumer L)
    (range : forall l, smj_sections j = Some l -> Forall i32_offset l)
    (n : nat) (sections : forall l, smj_sections j = Some l -> n = length l),
  ic_from_source_map_json md L U (seq 0 n) j url = Ok c
  <-> smj_version j = 3 /\ exists l secs, smj_sections j = Some l
      /\ in_order (map js_offset l)
      /\ Forall2 (section_opens md L U url) l secs
      /\ c = mkIC j (mkCell 0 secs).
Proof. exact opening_in_order. Qed.
Print Assumptions C50_in_order.

Example C50_case :
  let at_offset l c m := mkJSection (mkPos l c) m None in
  let openl l := c49_offsets (c49_sections l) (seq 0 (length l)) in
  openl [] = Ok []
  /\ openl [at_offset 2 5 c49_first; at_offset 2 5 c49_second; at_offset 3 0 c49_first] = Ok [mkPos 3 6; mkPos 3 6; mkPos 4 1]
  /\ openl [at_offset (-1) 0 c49_first; at_offset 0 (-7) c49_second] = Ok [mkPos 0 1; mkPos 1 (-6)]
  /\ openl [at_offset (-1) (-1) c49_first] = Panic PSectionOrder
  /\ openl [at_offset 2 5 c49_first; at_offset 2 4 c49_second] = Panic PSectionOrder
  /\ openl [mkJSection (mkPos 0 0) c49_first (Some (lit "u"))] = Panic PSectionUrl
  /\ openl [at_offset 0 0 c49_json] = Panic PUnwrapNone.
Proof. vm_compute. repeat split; reflexivity. Qed.

(** C51: sections in order; no difference the search takes exceeds an i32 *)
Theorem C51_section_by_offset : forall (md : mode) (L : MapLib) (U : UrlLib) (j : SourceMapJson) (url : option str)
    (l : list JSection) (c0 : IndexedConsumer L) (qs : list iquery) (c : IndexedConsumer L) (g : Position) (b : option Bias)
    (sections : smj_sections j = Some l) (offsets : Forall small_offset l) (few : len l < 2147483647)
    (fresh : ic_from_source_map_json md L U (seq 0 (length l)) j url = Ok c0)
    (history : iasked md L U c0 qs = Ok c)
    (reach : in_reach (map start_of (map js_offset l)) g),
  ((forall s, In s l -> ~ starts_before (js_offset s) g)
     /\ answer (ic_original_position_for md L c g b) = Ok None)
  \/ (exists k s c1 asks c2, nth_error l k = Some s /\ starts_before (js_offset s) g
        /\ (forall s', In s' l -> starts_before (js_offset s') g -> pos_le (js_offset s') (js_offset s))
        /\ (forall k' s', nth_error l k' = Some s' -> js_offset s' = js_offset s -> (k <= k')%nat)
        /\ bc_from_source_map_json md L U (js_map s) url = Ok c1 /\ asked md L U c1 asks = Ok c2
        /\ ((In ISpans qs <-> In QSpans asks) /\ Forall passed_on asks)
        /\ answer (ic_original_position_for md L c g b)
           = answer (bc_original_position_for md L c2 (relative_position (js_offset s) g) b)).
Proof. exact original_by_map. Qed.
Print Assumptions C51_section_by_offset.

(** offsets that are not negative reach every position from (-1,-1) on *)
Theorem C51_reach : forall (l : list JSection) (g : Position) (offsets : Forall natural_offset l)
    (line : -1 <= p_line g <= i32_max) (column : -1 <= p_column g <= i32_max),
  in_reach (map start_of (map js_offset l)) g.
Proof. exact natural_reach. Qed.
Print Assumptions C51_reach.

(** Lines below 1 and negative columns, which a basic consumer rejects with a panic *)
Theorem C51_odd_position : forall (md : mode) (L : MapLib) (U : UrlLib) (j : SourceMapJson) (url : option str)
    (l : list JSection) (c0 : IndexedConsumer L) (qs : list iquery) (c : IndexedConsumer L) (g : Position) (b : option Bias)
    (sections : smj_sections j = Some l) (offsets : Forall natural_offset l) (few : len l < 2147483647)
    (fresh : ic_from_source_map_json md L U (seq 0 (length l)) j url = Ok c0)
    (history : iasked md L U c0 qs = Ok c)
    (reach : in_reach (map start_of (map js_offset l)) g),
  (p_line g < 1 -> answer (ic_original_position_for md L c g b) = Ok None)
  /\ (1 <= p_line g -> p_column g < 0 ->
      answer (ic_original_position_for md L c g b)
      = if existsb (fun s => p_line (js_offset s) + 1 <? p_line g) l then Panic PColumn else Ok None).
Proof. exact odd_position. Qed.
Print Assumptions C51_odd_position.

(** any schedule that leaves the sections in order *)
Theorem C51_section : forall (md : mode) (L : MapLib) (U : UrlLib) (c0 : IndexedConsumer L)
    (qs : list iquery) (c : IndexedConsumer L) (g : Position) (b : option Bias)
    (fresh : iopened md L U c0) (history : iasked md L U c0 qs = Ok c)
    (reach : in_reach (map sec_generated_offset (sections_of L c0)) g)
    (in_order : StronglySorted pos_le (map sec_generated_offset (sections_of L c0)))
    (few : len (sections_of L c0) < 2147483647),
  ((forall s, In s (sections_of L c0) -> ~ before L g s)
     /\ answer (ic_original_position_for md L c g b) = Ok None)
  \/ (exists k s c', selected L (sections_of L c0) g k s /\ later md L U (In ISpans qs) s c'
        /\ answer (ic_original_position_for md L c g b)
           = answer (bc_original_position_for md L c' (relative_to L s g) b)).
Proof. exact original_selects. Qed.
Print Assumptions C51_section.

(** [c51_after j qs f]: open the map, ask [qs], then answer [f] *)
Definition c51_after {A} (j : SourceMapJson) (qs : list iquery)
    (f : IndexedConsumer RefLib -> res (A * IndexedConsumer RefLib)) : res A :=
  let* c0 := c49_open j [0; 1]%nat in
  let* c := iasked Debug RefLib RefUrl c0 qs in answer (f c).
Definition c51_history : list iquery :=
  [ISources; ISpans; IContent (lit "c.js") (Some false); IOriginal (mkPos 1 3) (Some LeastUpperBound); IHasContents].

Definition c51_c : Mapping := mkMapping (mkPos 2 0) (Some (mkPos 1 0)) (Some (lit "c.js")) None None.
Example C51_case :
  let ask l c := c51_after c49_json c51_history
                   (fun x => ic_original_position_for Debug RefLib x (mkPos l c) (Some LeastUpperBound)) in
  (* no section starts before *)
  ask 1 0 = Ok None
  (* the first section *)
  /\ ask 2 0 = Ok (Some (mkMapping (mkPos 3 7) (Some (mkPos 2 5)) (Some (lit "src/b.js")) None None))
  (* still the first section at the start of the second one *)
  /\ ask 11 4 = Ok None
  (* the second section *)
  /\ ask 11 5 = Ok (Some c51_c)
  (* line 0; a negative column on the line of the first section, and further down *)
  /\ ask 0 3 = Ok None /\ ask 1 (-1) = Ok None /\ ask 2 (-1) = Panic PColumn.
Proof. vm_compute. repeat split; reflexivity. Qed.
(** a section on line -1, before which nothing can be *)
Example C51_line_minus_one :
  let j := c49_sections [mkJSection (mkPos (-1) 0) c49_second None] in
  exists l, smj_sections j = Some l /\ Forall small_offset l
    /\ in_reach (map start_of (map js_offset l)) (mkPos 0 1)
    /\ (let* c0 := c49_open j [0]%nat in
        answer (ic_original_position_for Debug RefLib c0 (mkPos 0 1) (Some LeastUpperBound))) = Ok (Some c51_c)
    /\ (let* c0 := c49_open j [0]%nat in
        answer (ic_original_position_for Debug RefLib c0 (mkPos (-1) 1) (Some LeastUpperBound))) = Ok None.
Proof.
  eexists. split; [reflexivity|].
  split; [unfold small_offset, i32_min, i32_max; repeat constructor; cbn; intros X; discriminate X|].
  split; [|split; vm_compute; reflexivity].
  cbn [map]. split; [split; intros X; discriminate X|]. split; [split; intros X; discriminate X|].
  split; [intros o [<-|[]] | intros o o' [<-|[]] [<-|[]]];
    unfold fits, i32_min, i32_max; cbn [start_of js_offset p_line p_column]; lia.
Qed.
Example C51_instance : exists l c0 c, smj_sections c49_json = Some l /\ Forall natural_offset l /\ len l < 2147483647
  /\ ic_from_source_map_json Debug RefLib RefUrl (seq 0 (length l)) c49_json None = Ok c0
  /\ iasked Debug RefLib RefUrl c0 c51_history = Ok c
  /\ iopened Debug RefLib RefUrl c0
  /\ Forall (fun s => len (bc_get_sources RefLib (sec_consumer s)) < 2 ^ 31) (sections_of RefLib c0)
  /\ sections_of RefLib c0 <> [].
Proof.
  destruct (c49_open c49_json [0; 1]%nat) as [c0|p] eqn:E0.
  2: { assert (X : is_ok (c49_open c49_json [0; 1]%nat) = true) by (vm_compute; reflexivity).
       rewrite E0 in X. discriminate. }
  destruct (iasked Debug RefLib RefUrl c0 c51_history) as [c|p] eqn:E1.
  2: { assert (X : is_ok (let* c0 := c49_open c49_json [0; 1]%nat in
                          iasked Debug RefLib RefUrl c0 c51_history) = true) by (vm_compute; reflexivity).
       rewrite E0 in X. cbn [bind] in X. rewrite E1 in X. discriminate. }
  assert (H0 : forall A (f : IndexedConsumer RefLib -> A) v,
    (let* c0 := c49_open c49_json [0; 1]%nat in Ok (f c0)) = Ok v -> f c0 = v).
  { intros A f v H. rewrite E0 in H. cbn [bind] in H. congruence. }
  eexists. exists c0, c. split; [reflexivity|].
  split; [unfold natural_offset, i32_max; repeat constructor; cbn; intros X; discriminate X|].
  split; [reflexivity|]. split; [exact E0|]. split; [exact E1|]. split; [|split].
  - exists [0; 1]%nat, c49_json, None. eexists. split; [reflexivity|]. split; [apply Permutation_refl|].
    split; [unfold i32_offset, i32_min, i32_max; repeat constructor; cbn; intros X; discriminate X | exact E0].
  - assert (X : map (fun s => len (bc_get_sources RefLib (sec_consumer s))) (sections_of RefLib c0) = [2; 1]).
    { apply (H0 _ (fun c => map (fun s => len (bc_get_sources RefLib (sec_consumer s))) (sections_of RefLib c))). vm_compute. reflexivity. }
    apply Forall_forall. intros s Hs.
    assert (Y : In (len (bc_get_sources RefLib (sec_consumer s))) [2; 1]).
    { rewrite <- X. apply (in_map (fun s => len (bc_get_sources RefLib (sec_consumer s)))). exact Hs. }
    destruct Y as [<-|[<-|[]]]; reflexivity.
  - intros X. assert (Y : length (sections_of RefLib c0) = 2%nat).
    { apply (H0 _ (fun c => length (sections_of RefLib c))). vm_compute. reflexivity. }
    rewrite X in Y. discriminate.
Qed.

(** At the start of a section its own map is not consulted, although it would answer. *)
Theorem C51_section_start_refuted : exists (l : list JSection) (s : JSection) (g : Position) (m : Mapping),
  In s l /\ g = mkPos (p_line (js_offset s) + 1) (p_column (js_offset s))
  /\ c51_after (c49_sections l) [] (fun x => ic_original_position_for Debug RefLib x g (Some LeastUpperBound)) = Ok None
  /\ (let* c := bc_from_source_map_json Debug RefLib RefUrl (js_map s) None in
      answer (bc_original_position_for Debug RefLib c (relative_position (js_offset s) g) (Some LeastUpperBound))) = Ok (Some m).
Proof.
  exists [mkJSection (mkPos 0 0) c49_first None; mkJSection (mkPos 10 4) c49_second None],
    (mkJSection (mkPos 10 4) c49_second None), (mkPos 11 4), c51_c.
  split; [right; left; reflexivity|]. vm_compute. repeat split; reflexivity.
Qed.
Print Assumptions C51_section_start_refuted.

(** The generated position in the answer is the one within the section: the mapping
    found is on line 12 of the generated file, and is reported on line 2. *)
Theorem C51_generated_position_refuted : exists (j : SourceMapJson) (g : Position) (m : Mapping),
  c51_after j [] (fun x => ic_original_position_for Debug RefLib x g (Some LeastUpperBound)) = Ok (Some m)
  /\ pos_lt (m_generated m) g.
Proof. exists c49_json, (mkPos 11 5), c51_c. split; [vm_compute; reflexivity | left; reflexivity]. Qed.
Print Assumptions C51_generated_position_refuted.

(** C52 *)
Theorem C52_source_content : forall (md : mode) (L : MapLib) (U : UrlLib) (c0 : IndexedConsumer L)
    (qs : list iquery) (c : IndexedConsumer L) (src : str) (p : option bool)
    (fresh : iopened md L U c0) (history : iasked md L U c0 qs = Ok c)
    (few_sources : Forall (fun s => len (bc_get_sources L (sec_consumer s)) < 2 ^ 31) (sections_of L c0)),
  answer (ic_source_content_for md L U c src p)
  = match first_answer (map (fun s => answer (bc_source_content_for md L U (sec_consumer s) src p)) (sections_of L c0)) with
    | Ok None => if match p with Some b => b | None => true end then Panic PMissing else Ok None
    | r => r
    end.
Proof. exact indexed_content. Qed.
Print Assumptions C52_source_content.

Example C52_case :
  let ask s p := c51_after c49_json c51_history (fun x => ic_source_content_for Debug RefLib RefUrl x (lit s) p) in
  ask "src/a.js"%string None = Ok (Some (lit "text of a"))
  /\ ask "c.js"%string None = Panic PMissing
  /\ ask "c.js"%string (Some false) = Ok (Some (lit "text of c"))
  /\ ask "zz.js"%string (Some false) = Ok None
  (* sections without contents: the sections do not panic, the indexed map does *)
  /\ (let empty := mkSMJ 3 (Some [lit "aa"]) None None None None None None in
      let run p := c51_after (c49_sections [mkJSection (mkPos 0 0) empty None; mkJSection (mkPos 0 0) empty None]) []
                     (fun x => ic_source_content_for Debug RefLib RefUrl x (lit "aa") p) in
      run None = Panic PMissing /\ run (Some true) = Panic PMissing /\ run (Some false) = Ok None)
  /\ ask "b.js"%string (Some false) = Panic PIndex.
Proof. vm_compute. repeat split; reflexivity. Qed.

(** C52: a section with contents that does not know the source, before any other
    with contents: the default setting panics. *)
Theorem C52_unknown_section : forall (md : mode) (L : MapLib) (U : UrlLib) (c0 : IndexedConsumer L)
    (qs : list iquery) (c : IndexedConsumer L) (src : str) (p : option bool)
    (earlier : list (Section L)) (s : Section L) (rest : list (Section L))
    (fresh : iopened md L U c0) (history : iasked md L U c0 qs = Ok c)
    (few_sources : Forall (fun s => len (bc_get_sources L (sec_consumer s)) < 2 ^ 31) (sections_of L c0))
    (sections : sections_of L c0 = earlier ++ s :: rest)
    (no_contents_before : Forall (fun x => smj_sources_content (bc_source_map (sec_consumer x)) = None) earlier)
    (contents : smj_sources_content (bc_source_map (sec_consumer s)) <> None)
    (unknown : source_lookup md L U (sec_consumer s) src = Ok None) (default : p <> Some false),
  answer (ic_source_content_for md L U c src p) = Panic PMissing.
Proof. exact indexed_content_unknown. Qed.
Print Assumptions C52_unknown_section.

(** C52: with panics disabled the content is that of the first section that has
    contents and knows the source. *)
Theorem C52_first_section : forall (md : mode) (L : MapLib) (U : UrlLib) (c0 : IndexedConsumer L)
    (qs : list iquery) (c : IndexedConsumer L) (src : str)
    (earlier : list (Section L)) (s : Section L) (rest : list (Section L)) (texts : list str) (i : nat)
    (fresh : iopened md L U c0) (history : iasked md L U c0 qs = Ok c)
    (few_sources : Forall (fun s => len (bc_get_sources L (sec_consumer s)) < 2 ^ 31) (sections_of L c0))
    (sections : sections_of L c0 = earlier ++ s :: rest)
    (not_before : Forall (fun x => smj_sources_content (bc_source_map (sec_consumer x)) = None
                                   \/ source_lookup md L U (sec_consumer x) src = Ok None) earlier)
    (contents : smj_sources_content (bc_source_map (sec_consumer s)) = Some texts)
    (known : source_lookup md L U (sec_consumer s) src = Ok (Some i)),
  answer (ic_source_content_for md L U c src (Some false))
  = match nth_error texts i with Some text => Ok (Some text) | None => Panic PIndex end.
Proof. exact indexed_content_first. Qed.
Print Assumptions C52_first_section.

(** The default setting panics for a source whose content is there. *)
Theorem C52_default_finds_content_refuted : exists (j : SourceMapJson) (src text : str),
  c51_after j [] (fun x => ic_source_content_for Debug RefLib RefUrl x src None) = Panic PMissing
  /\ c51_after j [] (fun x => ic_source_content_for Debug RefLib RefUrl x src (Some false)) = Ok (Some text).
Proof. exists c49_json, (lit "c.js"), (lit "text of c"). vm_compute. repeat split; reflexivity. Qed.
Print Assumptions C52_default_finds_content_refuted.

(** C53 *)
Theorem C53_sources : forall (md : mode) (L : MapLib) (U : UrlLib) (c0 : IndexedConsumer L)
    (qs : list iquery) (c : IndexedConsumer L)
    (fresh : iopened md L U c0) (history : iasked md L U c0 qs = Ok c),
  answer (ic_get_sources L c) = Ok (concat (map (raw_sources L) (sections_of L c0))).
Proof. exact indexed_sources. Qed.
Print Assumptions C53_sources.

Example C53_case :
  c51_after c49_json c51_history (ic_get_sources RefLib) = Ok [lit "a.js"; lit "b.js"; lit "c.js"].
Proof. vm_compute. reflexivity. Qed.

(** They are not what the sections' consumers list. *)
Theorem C53_resolved_sources_refuted : exists (j : SourceMapJson) (l : list str),
  c51_after j [] (ic_get_sources RefLib) = Ok l
  /\ (let* c := c49_open j [0; 1]%nat in
      Ok (concat (map (fun s => bc_get_sources RefLib (sec_consumer s)) (sections_of RefLib c)))) <> Ok l.
Proof.
  exists c49_json, [lit "a.js"; lit "b.js"; lit "c.js"]. split; [vm_compute; reflexivity | vm_compute; discriminate].
Qed.
Print Assumptions C53_resolved_sources_refuted.

(** C54 *)
Theorem C54_reverse_queries_panic : forall (md : mode) (L : MapLib) (U : UrlLib) (c0 : IndexedConsumer L)
    (qs : list iquery) (c : IndexedConsumer L) (src : str) (line col : Z) (ocol : option Z) (b : option Bias) (ord : IterOrd)
    (fresh : iopened md L U c0) (history : iasked md L U c0 qs = Ok c),
  (sections_of L c0 = [] ->
     answer (ic_generated_position_for md L U c src line col b) = Ok None
     /\ answer (ic_all_generated_position_for md L U c src line ocol) = Ok []
     /\ answer (ic_each_mapping md L c ord) = Ok [])
  /\ (sections_of L c0 <> [] ->
     ic_generated_position_for md L U c src line col b = Panic PBorrowMut
     /\ ic_all_generated_position_for md L U c src line ocol = Panic PBorrowMut
     /\ ic_each_mapping md L c ord = Panic PBorrow).
Proof. exact indexed_reverse. Qed.
Print Assumptions C54_reverse_queries_panic.

Example C54_case :
  c51_after c49_json c51_history (fun x => ic_generated_position_for Debug RefLib RefUrl x (lit "c.js") 1 0 None) = Panic PBorrowMut
  /\ c51_after c49_json c51_history (fun x => ic_all_generated_position_for Debug RefLib RefUrl x (lit "c.js") 1 None) = Panic PBorrowMut
  /\ c51_after c49_json c51_history (fun x => ic_each_mapping Debug RefLib x GeneratedOrd) = Panic PBorrow
  /\ (let* c := c49_open (c49_sections []) [] in answer (ic_each_mapping Debug RefLib c GeneratedOrd)) = Ok [].
Proof. vm_compute. repeat split; reflexivity. Qed.

(** C55 *)
Theorem C55_original_never_answers : forall (md : mode) (L : MapLib) (U : UrlLib) (contract : MapLibOk L)
    (c0 : IndexedConsumer L) (qs : list iquery) (c : IndexedConsumer L) (g : Position) (b : option Bias) (m : Mapping)
    (fresh : iopened md L U c0) (history : iasked md L U c0 qs = Ok c)
    (default : default_bias b = GreatestLowerBound),
  answer (ic_original_position_for md L c g b) <> Ok (Some m).
Proof. exact indexed_original_never. Qed.
Print Assumptions C55_original_never_answers.

Example C55_case :
  let ask l c := c51_after c49_json c51_history (fun x => ic_original_position_for Debug RefLib x (mkPos l c) None) in
  ask 1 2 = Ok None /\ ask 1 4 = Ok None /\ ask 3 7 = Ok None /\ ask 12 0 = Ok None.
Proof. vm_compute. repeat split; reflexivity. Qed.

(** C59 *)
Theorem C59_has_contents : forall (md : mode) (L : MapLib) (U : UrlLib) (c0 : IndexedConsumer L)
    (qs : list iquery) (c : IndexedConsumer L)
    (fresh : iopened md L U c0) (history : iasked md L U c0 qs = Ok c)
    (few_sources : Forall (fun s => len (bc_get_sources L (sec_consumer s)) < 2 ^ 31) (sections_of L c0)),
  exists b, answer (ic_has_contents_of_all_sources L c) = Ok b
    /\ (b = true <-> forall s, In s (sections_of L c0) -> bc_has_contents_of_all_sources L (sec_consumer s) = Ok true).
Proof. exact indexed_has_contents. Qed.
Print Assumptions C59_has_contents.

Theorem C59_column_spans : forall (md : mode) (L : MapLib) (U : UrlLib) (c0 : IndexedConsumer L)
    (qs : list iquery) (c : IndexedConsumer L)
    (fresh : iopened md L U c0) (history : iasked md L U c0 qs = Ok c) (c' : IndexedConsumer L),
  ic_computed_column_spans L c = Ok c'
  <-> ic_source_map c' = ic_source_map c /\ rc_flag (ic_sections c') = 0
      /\ Forall2 (fun s s' => sec_generated_offset s' = sec_generated_offset s
           /\ bc_compute_column_spans L (sec_consumer s) = Ok (sec_consumer s')) (sections_of L c) (sections_of L c').
Proof. exact indexed_spans. Qed.
Print Assumptions C59_column_spans.

Definition c59_json : SourceMapJson :=
  c49_sections [mkJSection (mkPos 0 0) c49_second None; mkJSection (mkPos 10 4) c49_second None].
Example C59_case :
  c51_after c49_json c51_history (ic_has_contents_of_all_sources RefLib) = Ok false
  /\ c51_after c59_json [IContent (lit "c.js") None; ISpans; ISpans] (ic_has_contents_of_all_sources RefLib) = Ok true.
Proof. vm_compute. repeat split; reflexivity. Qed.

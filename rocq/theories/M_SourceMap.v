(** * Model of the data types of src/source_map.rs *)
From Verif Require Import Base M_Mapping.

(** src/source_map.rs:4-21 (SourceMapJson) and 24-30 (Section).
    [Box] is transparent. *)
Inductive SourceMapJson := mkSMJ {
  smj_version : Z;
  smj_sources : option (list str);
  smj_names : option (list str);
  smj_mappings : option str;
  smj_file : option str;
  smj_source_root : option str;
  smj_sources_content : option (list str);
  smj_sections : option (list JSection) }
with JSection := mkJSection {
  js_offset : Position;
  js_map : SourceMapJson;
  js_url : option str }.

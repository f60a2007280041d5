(** * C93: file URLs *)
From Verif Require Import Base M_Util S_Url S_Refs.

(** "file:///src/a.js" and "file://host/src/a.js", or on a drive "file:///C:/src/a.js" *)
Inductive file_place : origin -> option str -> Prop :=
| place_host : forall o, file_origin o -> file_place o None
| place_drive : forall d, drive d -> file_place file_root (Some d).
Definition placed (d : option str) (p : path) : path := match d with Some d => on_drive d p | None => p end.

(** A root of any kind or one on a drive *)
Definition any_root (r : str) : Prop :=
  (exists r', plain_ref r' /\ r = ref_text r' /\ len r <= 2147483644)
  \/ exists o d p q f, file_place o d /\ plain_path p /\ plain_opt q /\ plain_opt f
       /\ r = url_text o (placed d p) q f /\ len r <= 2147483645.

(** Which differences between two disks a conversion should not notice.  Definitions only. *)
From Verif Require Import PyStr PyDict Ast TextSpec FileTree FileTreeSpec Shipped Program.
Open Scope list_scope.

(** Two contents of the same file that say the same: Python files with the same syntax tree,
    requirements.txt with the same text up to the line ends. *)
Definition same_source (parse : string -> res node) (file bytes bytes' : string) : Prop :=
  exists code code', reads_text bytes code /\ reads_text bytes' code' /\
    ((endswith file ".py" = true /\ parse code = parse code') \/
     (endswith file ".py" = false /\ endswith file "requirements.txt" = true /\ code = code')).

(** [indifferent parse src dst f f']: two disks with the same files and directories.  Where
    the contents of a file differ, it is not in the output directory [dst], and if it belongs
    to the input [src], the two contents are the same source. *)
Definition indifferent (parse : string -> res node) (src dst : path) (f f' : fs) : Prop :=
  dkeys f = dkeys f' /\
  forall p, at_path f p = at_path f' p \/
    exists bytes bytes', at_path f p = Some (File bytes) /\ at_path f' p = Some (File bytes') /\
      ~ inside p dst /\ (inside p src -> same_source parse (render p) bytes bytes').

(** The order in which a directory is listed depends only on the names on the disk. *)
Definition by_names (order : fs -> path -> list string -> list string) : Prop :=
  forall f f' p l, dkeys f = dkeys f' -> order f p l = order f' p l.

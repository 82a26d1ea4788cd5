(** Words for C159: calls that are handed to a helper. *)
From Verif Require Import PyStr PyDict Args FlagSpec DatasetSpec OutSpec.

(** Functions of torchvision and the helpers that take their calls, with the arguments by name. *)
Definition helpers_by_name : list (string * string) :=
  [("torchvision.ops.ps_roi_pool", "psroi_pool"); ("torchvision.ops.roi_align", "roi_align"); ("torchvision.ops.roi_pool", "roi_pool");
   ("torchvision.datasets.VOCDetection", "VOCDetection")].
(** The helpers that take their arguments by position. *)
Definition set_module_code (object module : string) : string := lines ["set_module(" ++ object ++ "," ++ module ++ ")"].
Definition fraction_code (fraction : string) : string := lines ["set_per_process_memory_fraction(" ++ fraction ++ ")"].

(** Vocabulary for the table properties C24, C28-C30, C56-C58. *)
From Verif Require Import PyStr PyDict Args ArgsSpec TablesData.

(** All rows of the two main tables. *)
Definition shipped : list row := (api_mapping ++ attribute_mapping)%list.

(** A name of the form "pkg.rest" for one of the listed torch packages. *)
Definition torch_name (n : string) : Prop :=
  exists pkg rest, In pkg (dkeys torch_package_mapping) /\ n = pkg ++ "." ++ rest.

(** Two different parameter names accepted for one API get a common new name. *)
Definition accepted (e : entry) : list string := (args_list e ++ overload_args_list e)%list.
Definition collides (e : entry) : Prop :=
  exists p q x, In p (accepted e) /\ In q (accepted e) /\ p <> q /\
    In x (new_names e [] (Some p)) /\ In x (new_names e [] (Some q)).

(** The shipped rows for which that happens. *)
Definition colliding : list string :=
  ["torch.Tensor.dsplit"; "torch.Tensor.hsplit"; "torch.Tensor.vsplit";
   "torch.dsplit"; "torch.hsplit"; "torch.vsplit"].

(** The alias that is also an API of its own. *)
Definition clashing_alias : string := "torch.utils.data.dataloader.DataLoader".

(** Both tables are asked for the row of exactly this name. *)
Definition has_row (t : list row) (n : string) : Prop := exists r, In r t /\ r_name r = n.

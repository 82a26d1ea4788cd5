(** Names of torch packages that are not called, and attributes of values (C118):
    specification. *)
From Verif Require Import PyStr PyDict UtilsFile Args TablesData Lookup Ast BasicPass Shipped.

Section NameUses.
Variable t : tools.
(** [new_name a r name]: the API called [a], of which row [r] takes care, is called [name]
    in paddle.
    - the package is replaced and the rest stays;
    - the row gives the name;
    - one helper function, and the two families of names that rows with wildcards cover. *)
Inductive new_name (a : string) (r : row) : string -> Prop :=
| name_moved pkg target rest :
    r_matcher r = Some "ChangePrefixMatcher" -> min_mode t = false -> a = pkg ++ "." ++ rest -> contains pkg rest = false ->
    dget String.eqb pkg torch_package_mapping = Some target -> new_name a r (target ++ "." ++ rest)
| name_in_row c p :
    r_matcher r = Some c -> ~ In c ["ChangePrefixMatcher"; "EinopsTorchMatcher"; "TransformersGenericMatcher"; "FAApplyRotaryEmbFuncMatcher"] ->
    paddle_api (r_entry r) = Some p -> p <> "" -> new_name a r p
| name_rotary : r_matcher r = Some "FAApplyRotaryEmbFuncMatcher" -> new_name a r "apply_rotary_position_embeddings"
| name_layers rest : r_matcher r = Some "EinopsTorchMatcher" -> a = "einops.layers.torch" ++ rest -> contains "einops.layers.torch" rest = false ->
    new_name a r ("einops.layers.paddle" ++ rest)
| name_transformers rest : r_matcher r = Some "TransformersGenericMatcher" -> a = "transformers." ++ rest -> contains "transformers." rest = false ->
    new_name a r ("paddleformers.transformers." ++ rest).

(** The name is one of a helper function or class. *)
Definition of_helper (c : string) (r : row) : Prop :=
  In c with_helper /\ helper_code t c <> "" /\
  (In c ["FAApplyRotaryEmbFuncMatcher"; "PaddleFlagMatcher"] \/ r_abstract r = true /\ exists p, paddle_api (r_entry r) = Some p /\ p <> "").
(** What is asked for besides, and the state left. *)
Definition brings (c : string) (r : row) (w : world) (l : list node) (w' : world) : Prop :=
  (of_helper c r -> l = helper_imports t /\ helpers w' = (helpers w ++ [helper_code t c])%list) /\
  (~ of_helper c r -> l = [] /\ w' = w).
End NameUses.

(** The attributes of tensors the program knows: kept, turned into calls of methods, and
    known not to exist in paddle. *)
Definition kept_attributes : list string :=
  ["H"; "T"; "data"; "device"; "dtype"; "grad"; "is_cpu"; "is_cuda"; "is_leaf"; "itemsize"; "mH"; "mT"; "nbytes"; "ndim"; "requires_grad"; "shape"].
Definition called_attributes : list string := ["imag"; "is_sparse"; "is_sparse_csr"; "real"].
Definition missing_attributes : list string := ["is_meta"; "is_quantized"; "names"; "retains_grad"].

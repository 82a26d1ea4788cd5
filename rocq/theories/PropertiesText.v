(** C01-C07: properties of the textual passes of the converter. *)
From Verif Require Import PyStr PyStrFacts Marker MarkerSpec MarkerFacts Requirements RequirementsFacts MaskSpec MaskFacts.

(** C01. The marking pass always succeeds, keeps the number and order of lines,
    and each line is unchanged or gets the prefix [>>>>>>] once. *)
Theorem C01_marking_only_prefixes :
  forall (min_mode : bool) (pkgs keep : list string) (code : string),
  exists out, mark_unsupport min_mode pkgs keep code = Some out /\
    Forall2 (fun before after => after = before \/ after = ">>>>>>" ++ before)
      (split_on nl code) (split_on nl out).
Proof.
  intros m p k c. destruct (mark_total m p k c) as [out H]. exists out. split; [exact H|].
  destruct (mark_unsupport_inv _ _ _ _ _ H) as (ls & _ & E & F). rewrite E. exact F.
Qed.
Print Assumptions C01_marking_only_prefixes.

(** C02. Unmarking restores the text. *)
Theorem C02_marking_reversible :
  forall (min_mode : bool) (pkgs keep : list string) (code out : string),
  Forall (fun l => prefix ">>>>>>" l = false) (split_on nl code) ->
  mark_unsupport min_mode pkgs keep code = Some out ->
  unmark out = code.
Proof. exact mark_reversible. Qed.
Print Assumptions C02_marking_reversible.

Example C02_nonvacuous :
  let code := "import paddle" ++ nls ++ "y = torch.foo(x)" ++ nls in
  Forall (fun l => prefix ">>>>>>" l = false) (split_on nl code) /\
  mark_unsupport false ["torch"] [] code
  = Some ("import paddle" ++ nls ++ ">>>>>>y = torch.foo(x)" ++ nls).
Proof. split; [repeat constructor|reflexivity]. Qed.

(** C03. Exactly the lines the specification names are marked (both modes; in
    default mode the scanned text is the text itself).  [lit_free] is the
    function that removes closed literals, pinned down by [literals_removed]. *)
Theorem C03_marked_lines_exact :
  forall (min_mode : bool) (pkgs keep : list string) (code out : string),
  mark_unsupport min_mode pkgs keep code = Some out ->
  exists lit_free, (forall s, literals_removed s (lit_free s)) /\
  let lines := split_on nl code in
  let scans := split_on nl (if min_mode then mask_apis keep code else code) in
  List.length (split_on nl out) = List.length lines /\
  forall i, (i < List.length lines)%nat ->
    (must_mark lines scans lit_free min_mode pkgs i ->
       nth i (split_on nl out) "" = ">>>>>>" ++ nth i lines "") /\
    (~ must_mark lines scans lit_free min_mode pkgs i ->
       nth i (split_on nl out) "" = nth i lines "").
Proof.
  intros m p k c o H. exists rm_literals. split; [exact rm_literals_removed|].
  exact (mark_exact m p k c o H).
Qed.
Print Assumptions C03_marked_lines_exact.

Theorem C03_literals_removed_functional :
  forall s t1 t2, literals_removed s t1 -> literals_removed s t2 -> t1 = t2.
Proof. exact literals_removed_fun. Qed.
Print Assumptions C03_literals_removed_functional.

(** The set of packages is unordered in the source; the order is irrelevant. *)
Theorem C03_package_order_irrelevant :
  forall p1 p2 s, (forall x, In x p1 <-> In x p2) -> uses_package p1 s = uses_package p2 s.
Proof. exact uses_package_perm. Qed.
Print Assumptions C03_package_order_irrelevant.

Example C03_nonvacuous_marked :
  mark_unsupport false ["torch"] []
    ("x = 'torch.a'" ++ nls ++ "'Not Support auto convert *.foo'" ++ nls ++ "y.foo(torch.b)" ++ nls
     ++ "a_torch.b" ++ nls ++ "(torch.c)")
  = Some ("x = 'torch.a'" ++ nls ++ "'Not Support auto convert *.foo'" ++ nls ++ ">>>>>>y.foo(torch.b)" ++ nls
     ++ "a_torch.b" ++ nls ++ ">>>>>>(torch.c)").
Proof. reflexivity. Qed.

(** C04. Files without recorded packages and annotations are untouched. *)
Theorem C04_clean_file_identity :
  forall (min_mode : bool) (keep : list string) (code : string),
  (~ exists a b, code = a ++ "Not Support auto convert" ++ b) ->
  mark_unsupport min_mode [] keep code = Some code.
Proof.
  intros m k c H. apply mark_clean. destruct (contains _ c) eqn:C; [|reflexivity].
  exfalso. apply H. apply contains_spec. exact C.
Qed.
Print Assumptions C04_clean_file_identity.

Example C04_nonvacuous :
  ~ (exists a b, "x = 1" = a ++ "Not Support auto convert" ++ b).
Proof. intros H. apply contains_spec in H. discriminate. Qed.

(** C05. Masking preserves length and newline positions, hence line structure. *)
Theorem C05_masking_keeps_layout :
  forall (keep : list string) (text : string),
  String.length (mask_apis keep text) = String.length text /\
  (forall i, String.get i (mask_apis keep text) = Some nl <-> String.get i text = Some nl) /\
  map String.length (split_on nl (mask_apis keep text)) = map String.length (split_on nl text).
Proof.
  intros k t. pose proof (mask_apis_layout k t) as L. split; [|split].
  - rewrite <- !layout_length, L. reflexivity.
  - intros i. rewrite !layout_get, L. reflexivity.
  - apply layout_split_lengths, L.
Qed.
Print Assumptions C05_masking_keeps_layout.

Example C05_masking_masks :
  mask_apis ["torch.nn.Linear"] ("torch . nn." ++ nls ++ " Linear(torch.nn.LinearX)")
  = "_____ _ ___" ++ nls ++ " ______(torch.nn.LinearX)".
Proof. reflexivity. Qed.

(** What is masked: exactly the standalone spellings of the kept names, in turn. *)
Theorem C05_masking_exact :
  forall (keep : list string) (text out : string),
  Forall (fun api => Forall component (split_on "."%char api)) keep ->
  (masked_all (map (split_on "."%char) keep) text out <-> out = mask_apis keep text).
Proof.
  intros keep text out F. split.
  - intros M. apply (masked_all_fun _ _ _ (proj2 (Forall_map _ _ _) F) M), masked_all_mask, F.
  - intros ->. apply masked_all_mask, F.
Qed.
Print Assumptions C05_masking_exact.

Example C05_exact_nonvacuous :
  Forall (fun api => Forall component (split_on "."%char api)) ["torch.nn.Linear"; "torch.add"] /\
  mask_apis ["torch.add"] "torch.add(a.torch.add, torch.addmm, torch.add.x, torch .add)"
  = "_________(a.torch.add, torch.addmm, torch.add.x, _____ ____)".
Proof.
  split; [|reflexivity].
  repeat constructor; try discriminate;
  intros a c b E; repeat (destruct a as [|? a]; simpl in E; [injection E as <- _; reflexivity|injection E as _ E]);
  destruct a; discriminate.
Qed.

(** C06. requirements.txt: complete and local. *)
Theorem C06_requirements_no_torch_left :
  forall code, ~ exists a b, convert_requirements code = a ++ "torch" ++ b.
Proof.
  intros c H. apply contains_spec in H. rewrite requirements_no_torch in H. discriminate.
Qed.
Print Assumptions C06_requirements_no_torch_left.

Theorem C06_requirements_is_replacement :
  forall code, Replaced "torch" "paddlepaddle-gpu" code (convert_requirements code).
Proof. exact requirements_replaced. Qed.
Print Assumptions C06_requirements_is_replacement.

Example C06_nonvacuous :
  convert_requirements ("numpy" ++ nls ++ "torch>=1.0" ++ nls) = "numpy" ++ nls ++ "paddlepaddle-gpu>=1.0" ++ nls.
Proof. reflexivity. Qed.

(** C07 (violated). A file in which no requirement is named [torch] is changed. *)
Theorem C07_requirements_precise_refuted :
  exists code,
    Forall (fun line => pkg_name line <> "torch") (split_on nl code) /\
    convert_requirements code <> code.
Proof. exact requirements_imprecise. Qed.
Print Assumptions C07_requirements_precise_refuted.

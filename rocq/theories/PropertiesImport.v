(** C36-C43, C60-C65: what import rewriting does to a file. *)
From Coq Require Import Permutation.
From Verif Require Import PyStr PyStrFacts PyDict PyDictFacts TablesData Lookup LookupFacts Ast AstFacts ImportPass ImportSpec ImportFacts ImportFacts2 ImportFacts3.
Opaque api_mapping attribute_mapping alias_mapping wildcard_mapping matcher_classes.

(** A set may be enumerated in any order. *)
Definition some_order (order : list string -> list string) : Prop := forall l x, In x (order l) <-> In x l.

(** Shorthands for the examples: a file of a project with no other files, default mode. *)
Definition e0 : env := MkEnv false "/p/a.py" (fun _ => false).
Definition keep (l : list string) : list string := l.
Definition imp (m : string) : node := Import [MkAlias m None].
Definition imp_as (m n : string) : node := Import [MkAlias m (Some n)].
Definition from (m x : string) : node := ImportFrom (Some m) [MkAlias x None] 0.
Definition expr (v : node) : node := Other "Expr" [One "value" v].
Definition assign (t : string) (v : node) : node :=
  Other "Assign" [Many "targets" [Name t]; One "value" v; Data "type_comment" ""].
Definition def (name : string) (params : list node) (body : list node) : node :=
  Other "FunctionDef" [Data "name" name; One "args" (Other "arguments" [Many "args" params]); Many "body" body].
Definition param (x : string) : node := Other "arg" [Data "arg" x].
Ltac program_tac :=
  let m := fresh in let H := fresh in
  intros m H; cbn in H;
  repeat match goal with
         | H : _ \/ _ |- _ => destruct H as [<-|H]; [|try contradiction H]
         | H : False |- _ => contradiction H
         end;
  cbn; repeat match goal with |- _ /\ _ => split end; try reflexivity; try discriminate;
  repeat match goal with
         | |- forall _, _ => intro
         | H : _ \/ _ |- _ => destruct H
         | H : False |- _ => contradiction H
         | H : In _ (_ :: _) |- _ => destruct H as [<-|H]
         | H : In _ [] |- _ => contradiction H
         | H : One _ _ = One _ _ |- _ => injection H as <- <-
         | H : Many _ _ = Many _ _ |- _ => injection H as <- <-
         | H : _ = _ |- _ => first [discriminate H | subst]
         end; try reflexivity; try discriminate; try tauto; try (repeat eexists).

Lemma order_keep : some_order keep.
Proof. intros l x. reflexivity. Qed.

(** C36.  In default mode no import of a torch package survives, in any import statement
    at any depth, except imports that resolve to a file of the project and "import
    setuptools/os/einops", which are re-inserted as they are. *)
Theorem C36_torch_imports_removed : forall e order body out s,
  program body -> min_mode e = false -> some_order order ->
  import_transform e order (module body) = Ok (out, s) ->
  forall i, In i (imports_of out) ->
    torch_free e i \/ exists p, In p ["setuptools"; "os"; "einops"] /\ i = Import [MkAlias p None].
Proof.
  intros e order body out s G M O E i Hi.
  destruct (file_rw e AnyK order body out s G (grammatical_knows e _ G) E) as (body' & -> & R & _).
  rewrite module_imports, flat_map_app, in_app_iff in Hi. destruct Hi as [Hi|Hi].
  - apply in_flat_map in Hi as (x & Hx & Hi). apply in_map_iff in Hx as (q & <- & Hq).
    cbn [import_stmt imports_of nodes filter is_import In] in Hi. destruct Hi as [<-|[]].
    apply (proj1 (proj2 (keep_first_spec _) _)) in Hq. destruct (file_packages e order body _ s G E) as [Gs _].
    apply (packages_spec order s _ O Gs) in Hq as (p & Hp & ->). apply in_flat_map in Hp as (j & _ & Hp).
    apply packages_used_listed in Hp. apply replacement_values in Hp.
    destruct Hp as [<-|[<-|[<-|[<-|[<-|[<-|[]]]]]]].
    1-3: left; intros a [<-|[]] T; vm_compute in T; discriminate T.
    all: right; eexists; split; [|reflexivity]; cbn [In]; tauto.
  - left. apply (proj1 (proj2 (rw_imports e AnyK))) in R. rewrite R in Hi.
    apply in_flat_map in Hi as (j & Hj & Hi). apply (rewritten_torch_free e j); [exact M| |exact Hi].
    apply in_flat_map in Hj as (x & _ & Hj). unfold imports_of in Hj. apply filter_In in Hj as [_ Hj]. exact Hj.
Qed.
Print Assumptions C36_torch_imports_removed.
Definition ex36 : list node :=
  [Import [MkAlias "torch" None; MkAlias "numpy" (Some "np")]; from "torch" "nn";
   def "f" [] [imp "torchvision.models"; expr (Attribute (Attribute (Name "torch") "nn") "Linear")]].
Example C36_nonvacuous : program ex36 /\ import_transform e0 keep (module ex36) =
  Ok (module [imp "paddle"; imp_as "numpy" "np"; def "f" [] [expr (Attribute (Attribute (Name "torch") "nn") "Linear")]],
      MkIst [("torch", "torch"); ("nn", "torch.nn"); ("torchvision.models", "torchvision.models")] ["np"] ["torch"; "torchvision"] [] [] [] []).
Proof. split; [program_tac|vm_compute; reflexivity]. Qed.

(** C37.  Exactly which import statements the file has afterwards: the inserted ones, then
    for each original one, in order, what [rewritten] says. *)
Theorem C37_imports_exact : forall e order body out s,
  program body -> import_transform e order (module body) = Ok (out, s) ->
  exists pkgs, imports_of out =
    (map (fun p => Import [MkAlias p None]) pkgs ++ flat_map (rewritten e) (imports_of (module body)))%list.
Proof.
  intros e order body out s G E.
  destruct (file_rw e AnyK order body out s G (grammatical_knows e _ G) E) as (body' & -> & R & _).
  exists (keep_first (paddle_packages order s)). rewrite !module_imports, flat_map_app.
  apply (proj1 (proj2 (rw_imports e AnyK))) in R. rewrite R. f_equal.
  generalize (keep_first (paddle_packages order s)) as l. induction l as [|p l IH]; [reflexivity|]. cbn [map flat_map]. rewrite IH. reflexivity.
Qed.
Print Assumptions C37_imports_exact.
(** An import of nothing but other modules is kept as it is. *)
Theorem C37_plain_import_kept : forall e i, plain e i -> rewritten e i = [i].
Proof. exact plain_kept. Qed.
Print Assumptions C37_plain_import_kept.
Example C37_nonvacuous : plain e0 (Import [MkAlias "numpy" (Some "np"); MkAlias "re" None]) /\
  plain e0 (from "numpy.linalg" "norm") /\ plain e0 (ImportFrom None [MkAlias "utils" None] 1).
Proof.
  split; [|split].
  - split; [discriminate|]. split; [reflexivity|]. intros a [<-|[<-|[]]]; right; split; vm_compute; reflexivity.
  - right. split; vm_compute; reflexivity.
  - left. reflexivity.
Qed.
(** Violated: names after a module of the project are lost. *)
Theorem C37_refuted : exists e order body out s a,
  program body /\ import_transform e order (module body) = Ok (out, s) /\
  body = [Import [MkAlias "local" None; a]] /\ torch_module (al_name a) = false /\ renames (al_name a) = false /\
  is_local e (al_name a) = false /\ imports_of out = [Import [MkAlias "local" None]].
Proof.
  exists (MkEnv false "/p/a.py" (String.eqb "/p/local.py")), keep. eexists _, _, _, (MkAlias "numpy" None).
  split; [|split; [|split; [reflexivity|]]]; [program_tac|vm_compute; reflexivity|].
  repeat split; vm_compute; reflexivity.
Qed.
Print Assumptions C37_refuted.

(** C38.  In min mode the import statements of the file are unchanged and in order, if no
    module is renamed or local. *)
Theorem C38_min_mode_keeps_imports : forall e order body out s,
  program body -> min_mode e = true ->
  (forall i, In i (imports_of (module body)) -> unrenamed e i) ->
  import_transform e order (module body) = Ok (out, s) ->
  exists pkgs, imports_of out = (map (fun p => Import [MkAlias p None]) pkgs ++ imports_of (module body))%list.
Proof.
  intros e order body out s G M P E. destruct (C37_imports_exact e order body out s G E) as [pkgs H].
  exists pkgs. rewrite H. f_equal. revert P. generalize (imports_of (module body)) as l. intros l P.
  induction l as [|i l IH]; [reflexivity|]. cbn [flat_map]. rewrite IH by (intros j Hj; apply P; right; exact Hj).
  specialize (P i (or_introl eq_refl)). clear - P M.
  assert (rewritten e i = [i]) as ->; [|reflexivity].
  destruct i as [| | |names|m names lv|]; try contradiction P; cbn [unrenamed] in P; cbn [rewritten].
  - destruct P as [N P]. assert (upto_local e names = names) as ->.
    { clear N. induction names as [|a r IH]; [reflexivity|]. cbn [upto_local]. rewrite (proj1 (P a (or_introl eq_refl))).
      rewrite IH by (intros b Hb; apply P; right; exact Hb). reflexivity. }
    assert (flat_map (new_alias e) names = names) as ->; [|destruct names; [congruence|reflexivity]].
    clear N. induction names as [|a r IH]; [reflexivity|]. cbn [flat_map]. rewrite IH by (intros b Hb; apply P; right; exact Hb).
    unfold new_alias. destruct (P a (or_introl eq_refl)) as [-> [-> | ->]]; rewrite ?M; [reflexivity|].
    destruct (torch_module (al_name a)); reflexivity.
  - destruct lv as [|lv].
    + destruct m as [m|]; [|contradiction]. cbn [from_module]. destruct (is_local e m) eqn:L; [reflexivity|].
      destruct P as [P|[-> | ->]]; [discriminate|rewrite M; reflexivity|]. rewrite M. destruct (torch_module m); reflexivity.
    + cbn [from_module].
      assert (contains "huggingface_internal" (file e) && ((S lv =? 2)%nat || (S lv =? 3)%nat) = false) as ->; [|destruct m; reflexivity].
      destruct m, P as [->|[H1 H2]]; try reflexivity; apply Nat.eqb_neq in H1, H2; rewrite H1, H2; apply andb_false_r.
Qed.
Print Assumptions C38_min_mode_keeps_imports.
Definition e0min : env := MkEnv true "/p/a.py" (fun _ => false).
Example C38_nonvacuous : program ex36 /\ (forall i, In i (imports_of (module ex36)) -> unrenamed e0min i) /\
  exists s, import_transform e0min keep (module ex36) = Ok (module (imp "paddle" :: ex36), s).
Proof.
  split; [program_tac|]. split.
  - intros i [<-|[<-|[<-|[]]]]; cbn [unrenamed imp from].
    + split; [discriminate|]. intros a [<-|[<-|[]]]; (split; [reflexivity|]); [left|right]; vm_compute; reflexivity.
    + right. left. vm_compute. reflexivity.
    + split; [discriminate|]. intros a [<-|[]]. split; [reflexivity|]. left. vm_compute. reflexivity.
  - eexists. vm_compute. reflexivity.
Qed.

(** C39.  Violated: a function whose body only imports torch has no body afterwards. *)
Theorem C39_refuted : exists body out s,
  program body /\ import_transform e0 keep (module body) = Ok (out, s) /\
  (forall b, In b (all_blocks (module body)) -> b <> []) /\ In [] (all_blocks out).
Proof.
  exists [def "f" [] [imp "torch"]]. eexists _, _. split; [program_tac|]. split; [vm_compute; reflexivity|]. split.
  - intros b [<-|[<-|[]]]; discriminate.
  - vm_compute. tauto.
Qed.
Print Assumptions C39_refuted.
(** ... and so has an exception handler, though "try" blocks are treated specially. *)
Theorem C39_refuted_handler : exists body out s,
  program body /\ import_transform e0 keep (module body) = Ok (out, s) /\
  (forall b, In b (all_blocks (module body)) -> b <> []) /\ In [] (all_blocks out).
Proof.
  exists [Other "Try" [Many "body" [imp "torch"];
            Many "handlers" [Other "ExceptHandler" [One "type" (Name "ImportError"); Data "name" "None"; Many "body" [imp "torch_xla"]]]]].
  eexists _, _. split; [program_tac|]. split; [vm_compute; reflexivity|]. split.
  - intros b [<-|[<-|[<-|[]]]]; discriminate.
  - vm_compute. tauto.
Qed.
Print Assumptions C39_refuted_handler.
(** What holds: the blocks of the file correspond one to one, and a block is emptied only
    if it consisted of removed imports (the top-level block gets the inserted imports in
    addition). *)
Theorem C39_only_import_blocks_emptied : forall e order body out s,
  program body -> import_transform e order (module body) = Ok (out, s) ->
  exists pkgs top blocks', all_blocks out = (map (fun p => Import [MkAlias p None]) pkgs ++ top)%list :: blocks' /\
    Forall2 (fun before after => after = [] -> forall x, In x before -> is_import x = true /\ rewritten e x = [])
            (all_blocks (module body)) (top :: blocks').
Proof.
  intros e order body out s G E.
  destruct (file_rw e AnyK order body out s G (grammatical_knows e _ G) E) as (body' & -> & R & _).
  pose proof (proj1 (proj2 (rw_blocks e AnyK)) _ _ R) as [F _].
  exists (keep_first (paddle_packages order s)), body', (flat_map all_blocks body'). split.
  - rewrite module_blocks, flat_map_app. f_equal. rewrite <- (app_nil_l (flat_map all_blocks body')) at 2. f_equal.
    generalize (keep_first (paddle_packages order s)) as l. induction l as [|p l IH]; [reflexivity|]. cbn [map flat_map]. rewrite IH. reflexivity.
  - rewrite module_blocks. constructor; [|exact F]. exact (rws_emptied _ _ _ _ R).
Qed.
Print Assumptions C39_only_import_blocks_emptied.
(** The body of an "if" or "try" statement is never emptied, at any depth. *)
Theorem C39_if_try_bodies_kept : forall e order body out s,
  program body -> shaped (module body) -> import_transform e order (module body) = Ok (out, s) ->
  forall k fs l, In (Other k fs) (nodes out) -> k = "If" \/ k = "Try" -> In (Many "body" l) fs -> l <> [].
Proof.
  intros e order body out s G Sh E k fs l I Ik Il. apply (file_bodies e order body out s G Sh E k fs l I); [|exact Il].
  cbn [In]. intuition auto.
Qed.
Print Assumptions C39_if_try_bodies_kept.
Definition ex39 : list node :=
  [Other "If" [One "test" (Name "c"); Many "body" [imp "torch"; from "torch" "nn"];
               Many "orelse" [Other "Try" [Many "body" [imp "torchvision"]; Many "handlers" []]]]].
Example C39_if_try_nonvacuous : program ex39 /\ shaped (module ex39) /\
  exists s, import_transform e0 keep (module ex39) =
    Ok (module [imp "paddle"; Other "If" [One "test" (Name "c"); Many "body" [pass_node];
                  Many "orelse" [Other "Try" [Many "body" [pass_node]; Many "handlers" []]]]], s).
Proof.
  split; [program_tac|]. split; [|eexists; vm_compute; reflexivity].
  intros k fs H. cbn in H.
  repeat match goal with
         | H : _ \/ _ |- _ => destruct H as [H|H]
         | H : False |- _ => contradiction H
         | H : Other _ _ = Other _ _ |- _ => injection H as <- <-
         | H : _ = _ |- _ => discriminate H
         end; (split; [repeat constructor; cbn; intuition discriminate|]);
  intros Ik; cbn in Ik;
  repeat match goal with
         | H : _ \/ _ |- _ => destruct H as [H|H]
         | H : False |- _ => contradiction H
         | H : _ = _ |- _ => try discriminate H; clear H
         end.
  - exists [One "test" (Name "c")]. eexists _, _. split; [reflexivity|]. split; [discriminate|]. intros nm l [H|[]]. discriminate H.
  - exists []. eexists _, _. split; [reflexivity|]. split; [discriminate|]. intros nm l [].
Qed.
Example C39_nonvacuous : exists s, import_transform e0 keep (module ex36) = Ok (module
  [imp "paddle"; imp_as "numpy" "np"; def "f" [] [expr (Attribute (Attribute (Name "torch") "nn") "Linear")]], s) /\
  rewritten e0 (from "torch" "nn") = [].
Proof. eexists. split; vm_compute; reflexivity. Qed.

(** C40.  Violated: a package that merely ends in "audiotools" is replaced. *)
Theorem C40_refuted : exists body out s,
  program body /\ import_transform e0 keep (module body) = Ok (out, s) /\
  body = [imp "myaudiotools.io"] /\ imports_of out = [imp_as "paddlespeech.audiotools" "audiotools"].
Proof.
  exists [imp "myaudiotools.io"]. eexists _, _. split; [program_tac|]. split; [vm_compute; reflexivity|].
  split; vm_compute; reflexivity.
Qed.
Print Assumptions C40_refuted.
(** What holds: a name of an import statement changes only if the module is called
    "audiotools" or contains "audiotools."; and "from audiotools..." becomes
    "from paddlespeech.audiotools..." with the rest of the path unchanged. *)
Theorem C40_renamed_only_if : forall e a b,
  In b (new_alias e a) -> b <> a -> renames (al_name a) = true /\ is_local e (al_name a) = false /\ torch_module (al_name a) = false.
Proof.
  intros e a b H N. unfold new_alias in H. destruct (is_local e (al_name a)); [destruct H as [<-|[]]; congruence|].
  destruct (torch_module (al_name a)); [destruct (min_mode e); [destruct H as [<-|[]]; congruence|contradiction]|].
  destruct (renames (al_name a)); [auto|]. destruct H as [<-|[]]. congruence.
Qed.
Print Assumptions C40_renamed_only_if.
Theorem C40_from_audiotools : forall e rest names,
  rest = "" \/ (exists r, rest = "." ++ r) -> contains "audiotools" rest = false ->
  is_local e ("audiotools" ++ rest) = false ->
  rewritten e (ImportFrom (Some ("audiotools" ++ rest)) names 0) =
  [ImportFrom (Some ("paddlespeech.audiotools" ++ rest)) names 0].
Proof.
  intros e rest names H C L. cbn [rewritten from_module]. rewrite L.
  assert (torch_module ("audiotools" ++ rest) = false) as ->.
  { unfold torch_module. rewrite first_component_app by (destruct H as [->|[r ->]]; [auto|right; exists r; reflexivity]).
    vm_compute. reflexivity. }
  assert (renames ("audiotools" ++ rest) = true) as ->.
  { unfold renames. destruct H as [->|[r ->]]; [reflexivity|].
    rewrite (proj2 (contains_spec "audiotools." _)); [reflexivity|]. exists "", r. reflexivity. }
  do 3 f_equal. apply Replaced_correct; [discriminate|].
  apply (rep_step "audiotools" "paddlespeech.audiotools" "" rest rest); [|apply rep_none, C].
  intros a' b' _. cbn. apply Nat.le_0_l.
Qed.
Print Assumptions C40_from_audiotools.
Example C40_nonvacuous : rewritten e0 (from "audiotools.core" "x") = [from "paddlespeech.audiotools.core" "x"].
Proof. apply (C40_from_audiotools e0 ".core"); [right; exists "core"; reflexivity|reflexivity|reflexivity]. Qed.

(** C41.  Violated: imports are inserted in front of "from __future__ import ...". *)
Theorem C41_refuted : exists body out s rest,
  program body /\ import_transform e0 keep (module body) = Ok (out, s) /\
  body = [from "__future__" "annotations"; imp "torch"] /\
  out = module (imp "paddle" :: from "__future__" "annotations" :: rest).
Proof.
  eexists [from "__future__" "annotations"; imp "torch"], _, _, _. split; [program_tac|]. split; [vm_compute; reflexivity|].
  split; vm_compute; reflexivity.
Qed.
Print Assumptions C41_refuted.
(** What holds: the inserted imports come first, then the rewritten file; nothing else
    is inserted, moved or dropped. *)
Theorem C41_inserted_at_front : forall e order body out s,
  program body -> import_transform e order (module body) = Ok (out, s) ->
  exists pkgs body', out = module (map (fun p => Import [MkAlias p None]) pkgs ++ body') /\
    rws e (fun x _ => x <> "None") body body'.
Proof.
  intros e order body out s G E.
  destruct (file_rw e AnyK order body out s G (grammatical_knows e _ G) E) as (body' & -> & R & _). eauto.
Qed.
Print Assumptions C41_inserted_at_front.

(** C42, the import pass.  A file that imports no torch or renamed package comes out of
    import rewriting as the same tree, with nothing recorded.  Missing: the second pass. *)
Theorem C42_import_pass_unchanged : forall e order body,
  program body -> some_order order -> all_safe e (module body) ->
  (forall i, In i (imports_of (module body)) -> plain e i) ->
  exists s, import_transform e order (module body) = Ok (module body, s) /\
    imports s = [] /\ torch_packages s = [] /\ may_packages s = [] /\ name_aliases s = [].
Proof.
  intros e order body G O Sf P.
  assert (Kn : knows e (fun _ _ => False) (module body)).
  { split; [|split; intros; auto]. intros i x full Hi Hb. rewrite (proj1 (plain_unbound e i (P i Hi))) in Hb. exact Hb. }
  destruct (import_total e (module body) [] Sf) with (p := At "" 0) (u := ist0) as (r & s & V).
  { intros _. unfold module. eauto. }
  { split; intros x full H; discriminate H. }
  exists s.
  destruct (import_visit_rw e (fun _ _ => False) (module body) r [] s eq_refl G Kn V) as (_ & n' & -> & R & Ks).
  assert (E : import_transform e order (module body) =
    Ok (insert_front (map import_stmt (keep_first (paddle_packages order s))) n', s)).
  { unfold import_transform, import_visit. rewrite V. reflexivity. }
  destruct (file_packages e order body _ s G E) as [Gs _].
  assert (Nil : flat_map (packages_used e) (imports_of (module body)) = []).
  { revert P. generalize (imports_of (module body)) as l. intros l P. induction l as [|i l IH]; [reflexivity|].
    cbn [flat_map]. rewrite (proj2 (plain_unbound e i (P i (or_introl eq_refl)))), IH; [reflexivity|].
    intros j Hj. apply P. right. exact Hj. }
  rewrite Nil in Gs. pose proof Gs as [G1 G2].
  assert (T : torch_packages s = []).
  { destruct (torch_packages s) as [|p l]; [reflexivity|]. destruct (proj1 (G1 p) (or_introl eq_refl)) as [[]|[[] _]]. }
  assert (M : may_packages s = []).
  { destruct (may_packages s) as [|p l]; [reflexivity|]. destruct (proj1 (G2 p) (or_introl eq_refl)) as [[]|[[] _]]. }
  assert (Pk : keep_first (paddle_packages order s) = []).
  { destruct (keep_first (paddle_packages order s)) as [|q l] eqn:Q; [reflexivity|]. exfalso.
    assert (I : In q (keep_first (paddle_packages order s))) by (rewrite Q; left; reflexivity).
    apply (proj1 (proj2 (keep_first_spec _) _)) in I. apply (packages_spec order s _ O Gs) in I as (p & [] & _). }
  rewrite E, Pk. split; [|split; [|split; [exact T|split; [exact M|]]]].
  - destruct (rw_module e _ body n' R) as (body' & -> & Rs).
    apply (proj1 (proj2 (rw_id e))) in Rs.
    + subst body'. reflexivity.
    + intros i Hi. apply plain_kept, P. rewrite module_imports. exact Hi.
  - destruct Ks as [Ks _]. destruct (imports s) as [|[k v] d]; [reflexivity|]. exfalso. apply (Ks k v).
    cbn [dget]. rewrite String.eqb_refl. reflexivity.
  - destruct Ks as [_ Ks]. destruct (name_aliases s) as [|[k v] d]; [reflexivity|]. exfalso. apply (Ks k v).
    cbn [dget]. rewrite String.eqb_refl. reflexivity.
Qed.
Print Assumptions C42_import_pass_unchanged.
Definition ex42 : list node :=
  [Import [MkAlias "numpy" (Some "np")]; from "collections" "OrderedDict";
   assign "x" (Call (Attribute (Name "np") "zeros") [Name "n"] [])].
Ltac safe_tac :=
  let m := fresh in let H := fresh in
  intros m H; cbn in H;
  repeat match goal with
         | H : _ \/ _ |- _ => destruct H as [<-|H]; [|try contradiction H]
         | H : False |- _ => contradiction H
         end; cbn [safe];
  repeat match goal with
         | |- _ /\ _ => split
         | |- True => exact I
         | |- ~ _ => intro
         | |- forall _, _ => intro
         | H : In _ (bindings _ _) |- _ => vm_compute in H
         | H : In _ bookkeeping |- _ => vm_compute in H
         | H : _ \/ _ |- _ => destruct H
         | H : False |- _ => contradiction H
         | H : (_, _) = (_, _) |- _ => injection H as <- <-
         end; discriminate.
Example C42_nonvacuous : program ex42 /\ all_safe e0 (module ex42) /\
  (forall i, In i (imports_of (module ex42)) -> plain e0 i).
Proof.
  split; [program_tac|]. split; [safe_tac|].
  intros i [<-|[<-|[]]].
  - split; [discriminate|]. split; [reflexivity|]. intros a [<-|[]]. right. split; vm_compute; reflexivity.
  - right. split; vm_compute; reflexivity.
Qed.

(** C43.  Soundness: whatever table K of names contains what the torch imports of the file
    bind and is closed under plain assignments "t = i", every change below a statement is
    the expansion of a dotted name whose first component is in K: that component is
    replaced by the torch object, the rest is unchanged, and aliases are resolved. *)
Theorem C43_expansion_sound : forall e K order body out s,
  program body -> knows e K (module body) -> import_transform e order (module body) = Ok (out, s) ->
  exists pkgs body', out = module (map (fun p => Import [MkAlias p None]) pkgs ++ body') /\ rws e K body body'.
Proof.
  intros e K order body out s G Kn E.
  destruct (file_rw e K order body out s G Kn E) as (body' & -> & R & _). eauto.
Qed.
Print Assumptions C43_expansion_sound.
(** Completeness: a statement consisting of a dotted name whose first component was bound
    by an earlier import (anywhere above it; the last such binding counts). *)
Theorem C43_expression_expanded : forall e order before after v a first rest full out s,
  program (before ++ Other "Expr" [One "value" (Attribute v a)] :: after) -> min_mode e = false ->
  dotted (Attribute v a) = Some (first ++ rest) -> first_component (first ++ rest) = first ->
  simple_chain (Attribute v a) ->
  stands_for (flat_map (bindings e) (flat_map imports_of before)) first full ->
  import_transform e order (module (before ++ Other "Expr" [One "value" (Attribute v a)] :: after)) = Ok (out, s) ->
  exists before' after',
    out = module (before' ++ Other "Expr" [One "value" (parse_dotted (canonical (full ++ rest)))] :: after').
Proof. exact expression_expanded. Qed.
Print Assumptions C43_expression_expanded.
(** The same at any place in a tree, for the names bound when the place is reached. *)
Theorem C43_chain_expanded : forall e v a p stack s first rest full,
  dotted (Attribute v a) = Some (first ++ rest) -> first_component (first ++ rest) = first ->
  dget String.eqb first (imports s) = Some full -> simple_chain (Attribute v a) -> min_mode e = false ->
  visit import_pre (import_post e) (Attribute v a) p (stack, s) =
  Ok (VNode (parse_dotted (canonical (full ++ rest))), (stack, s)).
Proof. intros. apply (chain_expanded e v a p stack s first rest full); auto. apply simple_enters. assumption. Qed.
Print Assumptions C43_chain_expanded.
(** A chain whose first name was not bound by a torch import is not touched. *)
Theorem C43_other_chains_untouched : forall e v a t p stack s,
  dotted (Attribute v a) = Some t -> dget String.eqb (first_component t) (imports s) = None ->
  ~ In (first_component t) bookkeeping ->
  visit import_pre (import_post e) (Attribute v a) p (stack, s) = Ok (VNode (Attribute v a), (stack, s)).
Proof. intros e v a t p stack s D B N. apply (chain_untouched e (Attribute v a) t p stack s); eauto. Qed.
Print Assumptions C43_other_chains_untouched.
(** The names bound are exactly what the imports visited so far bind, the last one winning. *)
Theorem C43_bound_names : forall e n p stack s r stack' s',
  grammatical n -> visit import_pre (import_post e) n p (stack, s) = Ok (r, (stack', s')) ->
  forall x full, stands_for (flat_map (bindings e) (imports_of n)) x full -> dget String.eqb x (imports s') = Some full.
Proof.
  intros e n p stack s r stack' s' G V x full H. apply imports_main in V as [_ B]. rewrite (B G).
  apply bind_all_stands, H.
Qed.
Print Assumptions C43_bound_names.
Definition ex43 : list node :=
  [Import [MkAlias "torch.nn.functional" (Some "F")]; def "g" [] [from "torch" "optim"];
   expr (Attribute (Attribute (Name "optim") "lr_scheduler") "StepLR")].
Example C43_nonvacuous :
  program ex43 /\
  stands_for (flat_map (bindings e0) (flat_map imports_of (firstn 2 ex43))) "optim" "torch.optim" /\
  exists s, import_transform e0 keep (module ex43) =
    Ok (module [imp "paddle"; def "g" [] []; expr (Attribute (Attribute (Attribute (Name "torch") "optim") "lr_scheduler") "StepLR")], s).
Proof.
  split; [program_tac|]. split.
  - exists [("F", "torch.nn.functional")], []. split; [vm_compute; reflexivity|]. intros f [].
  - eexists. vm_compute. reflexivity.
Qed.

(** C60.  The pass does not fail on a file in which no identifier is one of the program's
    four bookkeeping words. *)
Theorem C60_import_rewriting_total : forall e order body,
  program body -> all_safe e (module body) ->
  exists out s, import_transform e order (module body) = Ok (out, s).
Proof.
  intros e order body G Sf.
  destruct (import_total e (module body) [] Sf) with (p := At "" 0) (u := ist0) as (r & s & V).
  { intros _. unfold module. eauto. }
  { split; intros x full H; discriminate H. }
  destruct (import_visit_rw e AnyK (module body) r [] s eq_refl G (grammatical_knows e _ G) V) as (_ & n' & -> & _).
  unfold import_transform, import_visit. rewrite V. cbn [bind]. eauto.
Qed.
Print Assumptions C60_import_rewriting_total.
Example C60_nonvacuous : program ex43 /\ all_safe e0 (module ex43).
Proof. split; [program_tac|]. safe_tac. Qed.
(** Violated in general: an identifier "torch_packages" makes it fail. *)
Theorem C60_refuted : exists body exn,
  program body /\ import_transform e0 keep (module body) = Raise exn /\
  body = [expr (Attribute (Name "torch_packages") "append")].
Proof. eexists _, _. split; [|split; [|reflexivity]]; [program_tac|vm_compute; reflexivity]. Qed.
Print Assumptions C60_refuted.

(** C61.  Exactly one import is inserted for each replacement of a package the file's torch
    imports name, whatever order the sets are enumerated in. *)
Theorem C61_inserted_imports_exact : forall e order body out s,
  program body -> some_order order -> import_transform e order (module body) = Ok (out, s) ->
  exists pkgs body', out = module (map (fun p => Import [MkAlias p None]) pkgs ++ body') /\
    rws e (fun x _ => x <> "None") body body' /\ NoDup pkgs /\
    forall q, In q pkgs <->
      exists i p, In i (imports_of (module body)) /\ In p (packages_used e i) /\ q = replacement p.
Proof.
  intros e order body out s G O E.
  destruct (file_rw e AnyK order body out s G (grammatical_knows e _ G) E) as (body' & Eo & R & _).
  exists (keep_first (paddle_packages order s)), body'. split; [exact Eo|]. split; [exact R|].
  destruct (keep_first_spec (paddle_packages order s)) as [N I]. split; [exact N|].
  intros q. rewrite I. destruct (file_packages e order body out s G E) as [Gs _].
  rewrite (packages_spec order s _ O Gs). split.
  - intros (p & Hp & ->). apply in_flat_map in Hp as (i & Hi & Hp). eauto.
  - intros (i & p & Hi & Hp & ->). exists p. split; [|reflexivity]. apply in_flat_map. eauto.
Qed.
Print Assumptions C61_inserted_imports_exact.
(** Two enumeration orders insert the same imports up to order. *)
Theorem C61_order_irrelevant : forall e order order' body out s out' s',
  program body -> some_order order -> some_order order' ->
  import_transform e order (module body) = Ok (out, s) -> import_transform e order' (module body) = Ok (out', s') ->
  exists pkgs pkgs' body', out = module (map import_stmt pkgs ++ body') /\ out' = module (map import_stmt pkgs' ++ body') /\
    Permutation pkgs pkgs'.
Proof.
  intros e order order' body out s out' s' G O O' E E'.
  assert (s' = s).
  { unfold import_transform in E, E'. destruct (import_visit e (module body)) as [[v [st w]]|]; [|discriminate]. cbn [bind] in *.
    destruct v; try discriminate. congruence. }
  subst s'.
  destruct (file_rw e AnyK order body out s G (grammatical_knows e _ G) E) as (b & Eo & _ & _).
  exists (keep_first (paddle_packages order s)), (keep_first (paddle_packages order' s)), b. split; [exact Eo|].
  destruct (file_packages e order body out s G E) as [Gs _]. split.
  - unfold import_transform in E, E'. destruct (import_visit e (module body)) as [[v [st w]]|] eqn:V; [|discriminate]. cbn [bind] in *.
    destruct v; try discriminate. injection E as <- <-. injection E' as <-.
    destruct (import_visit_rw e AnyK (module body) _ _ _ eq_refl G (grammatical_knows e _ G) V) as (_ & n' & Ev & R & _).
    injection Ev as ->. destruct (rw_module e _ body n' R) as (b' & -> & _).
    cbn [insert_front module map] in *. unfold module in Eo. injection Eo as Eo. apply app_inv_head in Eo. subst b'. reflexivity.
  - destruct (keep_first_spec (paddle_packages order s)) as [N I].
    destruct (keep_first_spec (paddle_packages order' s)) as [N' I'].
    apply NoDup_Permutation; [exact N|exact N'|]. intros q. rewrite I, I'.
    rewrite (packages_spec order s _ O Gs), (packages_spec order' s _ O' Gs). reflexivity.
Qed.
Print Assumptions C61_order_irrelevant.
(** C61.  The shipped packages: transformers and torchaudio have their own replacements,
    setuptools, os and einops stay themselves, the others become paddle. *)
Theorem C61_shipped_replacements : forall p t,
  (In p listed_packages /\ replacement p = t) <->
  (t = p /\ In p ["setuptools"; "os"; "einops"]) \/
  (t = "paddlespeech" /\ p = "torchaudio") \/
  (t = "paddleformers" /\ p = "transformers") \/
  (t = "paddle" /\ In p ["torch"; "mmseg"; "mmcv"; "mmdet"; "mmdet3d"; "mmengine"; "detectron"; "timm"; "torchvision"; "kornia";
                        "fasttext"; "pytorch_lightning"; "lightning"; "jieba"; "NLTK"; "scikit-learn"; "fairscale"; "datasets";
                        "accelerate"; "diffusers"; "torch_xla"; "flash_attn"]).
Proof.
  intros p t. split.
  - intros [H <-]. cbn in H.
    repeat (destruct H as [<-|H]; [first [ left; split; [reflexivity|cbn; tauto] | right; left; split; reflexivity
      | right; right; left; split; reflexivity | right; right; right; split; [reflexivity|cbn; tauto] ]|]). destruct H.
  - intros [[-> H]|[[-> ->]|[[-> ->]|[-> H]]]].
    + cbn in H. repeat (destruct H as [<-|H]; [split; [apply mem_str_In; reflexivity|reflexivity]|]). destruct H.
    + split; [apply mem_str_In; reflexivity|reflexivity].
    + split; [apply mem_str_In; reflexivity|reflexivity].
    + cbn in H. repeat (destruct H as [<-|H]; [split; [apply mem_str_In; reflexivity|reflexivity]|]). destruct H.
Qed.
Print Assumptions C61_shipped_replacements.
Example C61_nonvacuous : exists s, import_transform e0 (@rev string) (module [imp "torch"; imp "transformers"; imp "os"; imp "timm"]) =
  Ok (module [imp "paddle"; imp "paddleformers"; imp "os"], s).
Proof. eexists. vm_compute. reflexivity. Qed.

(** C62.  Violated: a bare name bound by a removed import is left behind unresolved where
    the pass does not look, e.g. in a list. *)
Theorem C62_refuted : exists body out s,
  program body /\ import_transform e0 keep (module body) = Ok (out, s) /\
  body = [ImportFrom (Some "torch") [MkAlias "relu" None] 0; assign "fs" (Other "List" [Many "elts" [Name "relu"]])] /\
  out = module [imp "paddle"; assign "fs" (Other "List" [Many "elts" [Name "relu"]])].
Proof. eexists _, _, _. split; [|split; [|split; [reflexivity|]]]; [program_tac|vm_compute; reflexivity|vm_compute; reflexivity]. Qed.
Print Assumptions C62_refuted.
(** What holds: a bare name bound by an import is replaced by the full API name exactly in
    the positions [expanding] lists. *)
Theorem C62_bare_names_exact : forall e x p fr stack s full,
  dget String.eqb x (name_aliases s) = None -> dget String.eqb x (imports s) = Some full -> full <> "" ->
  no_char "."%char x -> min_mode e = false ->
  (expanding (grand_kind (fr :: stack)) (e_node fr) (p_field p) x ->
   exists s', visit import_pre (import_post e) (Name x) p (fr :: stack, s) =
     Ok (VNode (parse_dotted (canonical full)), (fr :: stack, s'))) /\
  (~ expanding (grand_kind (fr :: stack)) (e_node fr) (p_field p) x ->
   visit import_pre (import_post e) (Name x) p (fr :: stack, s) = Ok (VNode (Name x), (fr :: stack, s))).
Proof. exact name_expanded. Qed.
Print Assumptions C62_bare_names_exact.
Example C62_nonvacuous : exists s, import_transform e0 keep (module [from "torch" "relu"; expr (Call (Name "relu") [Name "x"] [])]) =
  Ok (module [imp "paddle"; expr (Call (Attribute (Name "torch") "relu") [Name "x"] [])], s).
Proof. eexists. vm_compute. reflexivity. Qed.

(** C63.  Violated: scoping is ignored; a chain headed by a parameter that shadows an
    imported name is rewritten. *)
Theorem C63_refuted : exists body out s,
  program body /\ import_transform e0 keep (module body) = Ok (out, s) /\
  body = [from "torch" "nn"; def "f" [param "nn"] [expr (Attribute (Name "nn") "forward")]] /\
  out = module [imp "paddle"; def "f" [param "nn"] [expr (Attribute (Attribute (Name "torch") "nn") "forward")]].
Proof. eexists _, _, _. split; [|split; [|split; [reflexivity|]]]; [program_tac|vm_compute; reflexivity|vm_compute; reflexivity]. Qed.
Print Assumptions C63_refuted.

(** C64.  Violated: below two attributes of a call result nothing is rewritten, although
    the import is removed: th.zeros().shape.numel stays, th is gone. *)
Theorem C64_refuted : exists body out s,
  program body /\ import_transform e0 keep (module body) = Ok (out, s) /\
  body = [imp_as "torch" "th"; expr (Attribute (Attribute (Call (Attribute (Name "th") "zeros") [] []) "shape") "numel")] /\
  out = module [imp "paddle"; expr (Attribute (Attribute (Call (Attribute (Name "th") "zeros") [] []) "shape") "numel")].
Proof. eexists _, _, _. split; [|split; [|split; [reflexivity|]]]; [program_tac|vm_compute; reflexivity|vm_compute; reflexivity]. Qed.
Print Assumptions C64_refuted.
(** What holds: one attribute of a call result is looked below. *)
Theorem C64_call_results_entered : forall f args kws a s,
  enters (Attribute (Call f args kws) a) s = true /\
  forall b, enters (Attribute (Attribute (Call f args kws) a) b) s = true ->
    In a ["T"; "real"; "weight"; "bias"; "imag"; "data"].
Proof.
  intros f args kws a s. split; [reflexivity|]. intros b H. cbn [enters computed orb] in H.
  apply orb_true_iff in H as [H|H].
  - apply PyStrFacts.mem_str_In in H. cbn [In] in *. tauto.
  - apply andb_prop in H as [H _]. apply String.eqb_eq in H. subst a. cbn [In]. tauto.
Qed.
Print Assumptions C64_call_results_entered.

(** C65.  Violated: names imported by "from torch import *" are not resolved, although the
    import is removed. *)
Theorem C65_refuted : exists body out s,
  program body /\ import_transform e0 keep (module body) = Ok (out, s) /\
  body = [from "torch" "*"; expr (Call (Name "zeros") [Name "n"] [])] /\
  out = module [imp "paddle"; expr (Call (Name "zeros") [Name "n"] [])].
Proof. eexists _, _, _. split; [|split; [|split; [reflexivity|]]]; [program_tac|vm_compute; reflexivity|vm_compute; reflexivity]. Qed.
Print Assumptions C65_refuted.

(** C66.  In a file below "huggingface_internal" a relative import with two or three dots
    means the installed library: in min mode it becomes the absolute import, in default mode
    it is removed, and in both its names stand for the absolute ones. *)
Theorem C66_internal_relative_imports : forall e m names level,
  contains "huggingface_internal" (file e) = true -> level = 2 \/ level = 3 ->
  let full := internal_module (contains "pipeline_" (file e)) level m in
  rewritten e (ImportFrom m names level) = (if min_mode e then [ImportFrom (Some full) names 0] else []) /\
  bindings e (ImportFrom m names level) = map (fun a => (bound_name a, full ++ "." ++ al_name a)) names.
Proof.
  intros e m names level H L full. cbn [rewritten bindings]. rewrite (internal_from_module e m level H L).
  fold full. unfold full. rewrite internal_torch. destruct (min_mode e); auto.
Qed.
Print Assumptions C66_internal_relative_imports.
Example C66_nonvacuous : exists s,
  import_transform (MkEnv true "/h/huggingface_internal/bert/modeling_bert.py" (fun _ => false)) keep
    (module [ImportFrom (Some "utils") [MkAlias "logging" None] 3]) =
  Ok (module [imp "paddleformers"; ImportFrom (Some "transformers.utils") [MkAlias "logging" None] 0], s).
Proof. eexists. vm_compute. reflexivity. Qed.

(** C67.  A module counts as part of the project exactly if the path of that name below the
    directory of the converted file exists, as it is or with ".py". *)
Theorem C67_local_modules : forall e dir c base m,
  file e = (dir ++ String c "") ++ "/" ++ base -> c <> "/"%char -> no_char "/"%char base ->
  startswith m "." = false -> startswith m "/" = false ->
  is_local e m = true <->
  exists_path e (module_path (dir ++ String c "") m) = true \/
  exists_path e (module_path (dir ++ String c "") m ++ ".py") = true.
Proof. exact is_local_spec. Qed.
Print Assumptions C67_local_modules.
Example C67_nonvacuous :
  module_path "/p/src" "pkg.mod" = "/p/src/pkg/mod" /\
  is_local (MkEnv false "/p/src/a.py" (String.eqb "/p/src/pkg/mod.py")) "pkg.mod" = true.
Proof. split; vm_compute; reflexivity. Qed.

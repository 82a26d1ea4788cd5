(** What the text of a converted file depends on (C120). *)
From Coq Require Import Permutation.
From Verif Require Import PyStr PyDict TablesData Lookup Ast BasicPass Converter Shipped Program Dependence DependFacts.
From Verif Require FileTree FileTreeSpec FileTreeMirror.
Import FileTree FileTreeSpec FileTreeMirror.
Open Scope string_scope.
Opaque api_mapping attribute_mapping alias_mapping wildcard_mapping matcher_classes torch_package_mapping.

(** ** C120 *)
(** Whatever was converted before: two states with the same numbers of temporaries, C++
    extensions and classes using them give the same text, or the same exception, and are
    again the same for the files to come. *)
Theorem C120_text_depends_on_three_things : forall L ex file code c c', same_future c c' ->
  match convert_text (converter_setup L) ex file code c, convert_text (converter_setup L) ex file code c' with
  | Ok (text, d), Ok (text', d') => text = text' /\ same_future d d'
  | Raise x, Raise x' => x = x'
  | _, _ => False
  end.
Proof.
  intros L ex file code c c' H.
  assert (K := text_alike (converter_setup L) (fun f i => ex_intro _ (matchers L) eq_refl) eq_refl ex file code c c' H).
  destruct (convert_text _ _ _ _ c) as [[text d]|x], (convert_text _ _ _ _ c') as [[text' d']|x']; exact K.
Qed.
Print Assumptions C120_text_depends_on_three_things.

(** So the last of a sequence of files gets the text it would get after any other files that
    left the same three things. *)
Lemma conversions_snoc {C} looks (convert : (string -> bool) -> string -> string -> C -> res (string * C)) src rel s text l : forall c d,
  conversions looks convert src c (l ++ [(rel, s, text)])%list d ->
  exists b ex, conversions looks convert src c l b /\ looks ex /\ convert ex (render (rel ++ src)%list) s b = Ok (text, d).
Proof.
  induction l as [|x l IH]; cbn [app]; intros c d H; inversion H as [|ex r0 s0 t0 c1 c2 l0 c3 Lk E K]; subst.
  - inversion K; subst. exists c, ex. split; [constructor|]. split; [exact Lk|exact E].
  - apply IH in K as (b & ex' & A & B). exists b, ex'. split; [econstructor; eassumption|exact B].
Qed.
Theorem C120_other_files : forall L looks src c l rel s text d,
  conversions looks (convert_text (converter_setup L)) src c (l ++ [(rel, s, text)])%list d ->
  exists before ex, conversions looks (convert_text (converter_setup L)) src c l before /\ looks ex /\
  forall other, same_future before other ->
    exists after, convert_text (converter_setup L) ex (render (rel ++ src)%list) s other = Ok (text, after) /\ same_future d after.
Proof.
  intros L looks src c l rel s text d H. apply conversions_snoc in H as (b & ex & A & Lk & B). exists b, ex. split; [exact A|]. split; [exact Lk|].
  intros o S. pose proof (C120_text_depends_on_three_things L ex (render (rel ++ src)%list) s b o S) as K. rewrite B in K.
  destruct (convert_text _ _ _ _ o) as [[text' d']|x]; [|contradiction]. destruct K as [<- K]. exists d'. split; [reflexivity|exact K].
Qed.
Print Assumptions C120_other_files.

(** Those three do matter: the same project, converted in two orders of listing.  One file
    builds the extension "ext", the other imports it; the import is taken away only if the
    first was converted before. *)
Fixpoint shown (n : node) : string :=
  match n with
  | Name i => i
  | Attribute v x => shown v ++ "." ++ x
  | Other "Constant" (Data _ v :: _) => v
  | _ => "?"
  end.
Definition statement (n : node) : node := Other "Expr" [One "value" n].
Definition keyword (k : string) (n : node) : node := Other "keyword" [Data "arg" k; One "value" n].
Definition build_tree : node :=
  Other "Module" [Many "body" [
    Import [MkAlias "torch" None];
    ImportFrom (Some "setuptools") [MkAlias "setup" None] 0;
    statement (Call (Name "setup") [] [
      keyword "name" (Other "Constant" [Data "value" """""""ext"""""""]);
      keyword "cmdclass" (Attribute (Attribute (Attribute (Name "torch") "utils") "cpp_extension") "BuildExtension")])]].
Definition use_tree : node := Other "Module" [Many "body" [Import [MkAlias "ext" None]]].
Definition ex_print (n : node) : res string :=
  match n with Other _ [Many _ []] => Ok "pass" | Other _ [Many _ (Import [a] :: _)] => Ok ("import " ++ al_name a) | _ => Ok "..." end.
Definition ex_libraries (order : list string -> list string) : libraries :=
  MkLibraries (MkTools shown (fun s => Ok [statement (Name s)]) (fun _ => "") [] false)
    false true (fun l => l) 100 (fun s => Ok (if String.eqb s "build" then build_tree else use_tree)) ex_print
    (fun _ => None) (fun _ => None) (fun _ => 0%Z) 5 (fun _ _ l => order l) contains.
Definition ex_files : fs := [([], Dir); (["in"], Dir); (["setup.py"; "in"], File "build"); (["use.py"; "in"], File "use")].
Theorem C120_order_of_listing_refuted :
  exists (order order' : list string -> list string) w w' c c',
    (forall l, Permutation (order l) l) /\ (forall l, Permutation (order' l) l) /\
    program (ex_libraries order) [] ["in"] (Some ["out"]) None (FileTree.MkWorld ex_files []) = (w, Ok c) /\
    program (ex_libraries order') [] ["in"] (Some ["out"]) None (FileTree.MkWorld ex_files []) = (w', Ok c') /\
    disk w @@ ["use.py"; "out"] = Some (File "pass") /\ disk w' @@ ["use.py"; "out"] = Some (File "import ext").
Proof.
  exists (fun l => l), (@rev string). do 4 eexists. split; [intros l; apply Permutation_refl|].
  split; [intros l; symmetry; apply Permutation_rev|].
  split; [vm_compute; reflexivity|]. split; [vm_compute; reflexivity|]. split; vm_compute; reflexivity.
Qed.
Print Assumptions C120_order_of_listing_refuted.

(** Two states that differ in everything else. *)
Example C120_nonvacuous :
  let c := MkConv 5 4 [("torch.add", ("paddle.add", 5))] [("torch.foo", 1)] [] [] (Shipped.MkWorld [("out_", 2)] ["def f(): pass"] ["ext"]) in
  let c' := MkConv 0 0 [] [] [] [] (Shipped.MkWorld [("out_", 2)] [] ["ext"]) in
  c <> c' /\ same_future c c' /\
  exists d, convert_text (converter_setup (ex_libraries (fun l => l))) (fun _ => false) "/in/use.py" "use" c = Ok ("pass", d) /\ c_torch d = 5%Z.
Proof.
  split; [discriminate|]. split; [repeat split|]. eexists. split; [vm_compute; reflexivity|reflexivity].
Qed.

(** C135: converting the result of a conversion once more. *)
From Coq Require Import Lia.
From Verif Require Import PyStr PyStrFacts PyDict PyDictFacts TablesData Lookup LookupFacts Ast AstFacts ImportPass ImportSpec ImportFacts
  ImportFacts2 ImportFacts3 TwiceSpec PropertiesImport.
Open Scope string_scope.
Opaque api_mapping attribute_mapping alias_mapping wildcard_mapping matcher_classes.

Lemma settled_names e l : min_mode e = false -> (forall a, In a l -> ordinary e (al_name a)) ->
  let l' := flat_map (new_alias e) (upto_local e l) in
  upto_local e l' = l' /\
  forall a, In a l' -> is_local e (al_name a) = true \/ (torch_module (al_name a) = false /\ renames (al_name a) = false).
Proof.
  intros M. induction l as [|a r IH]; intros H; cbn [upto_local flat_map]; [split; [reflexivity|intros a []]|].
  destruct (is_local e (al_name a)) eqn:L.
  - cbn [flat_map app]. unfold new_alias. rewrite L. cbn [app upto_local]. rewrite L. split; [reflexivity|]. intros b [<-|[]]. left. exact L.
  - cbn [flat_map]. destruct IH as [U P]; [intros b Hb; apply H; right; exact Hb|].
    destruct (H a (or_introl eq_refl)) as [X|[[T _]|[T N]]]; [congruence| |]; unfold new_alias at 1 3 5; rewrite L, T.
    + rewrite M. cbn [app]. split; assumption.
    + rewrite N. cbn [app upto_local]. rewrite L, U. split; [reflexivity|]. intros b [<-|Hb]; [right; split; assumption|apply P; exact Hb].
Qed.

Lemma settled_import e i j : min_mode e = false -> settles e i -> In j (rewritten e i) -> plain e j.
Proof.
  intros M S H. destruct i as [| | |names|m names lv|]; try contradiction S.
  - cbn [rewritten] in H. destruct (settled_names e names M S) as [U P].
    destruct (flat_map (new_alias e) (upto_local e names)) as [|a l]; [contradiction|]. destruct H as [<-|[]].
    split; [discriminate|]. split; [exact U|exact P].
  - cbn [rewritten] in H. destruct lv as [|lv].
    + destruct m as [m|]; [|contradiction]. cbn [from_module] in H. cbn [settles] in S.
      destruct (is_local e m) eqn:L. { destruct H as [<-|[]]. left. exact L. }
      destruct S as [X|[[T _]|[T N]]]; [congruence| |]; rewrite T in H.
      * rewrite M in H. contradiction.
      * rewrite N in H. destruct H as [<-|[]]. right. split; assumption.
    + assert (S' : contains "huggingface_internal" (file e) = false \/ (Datatypes.S lv <> 2 /\ Datatypes.S lv <> 3)) by (destruct m; exact S).
      assert (F : from_module e m (Datatypes.S lv) = Ok None).
      { unfold from_module. destruct S' as [C|[A B]]; [rewrite C; reflexivity|].
        apply PeanoNat.Nat.eqb_neq in A, B. rewrite A, B. cbn [orb]. rewrite andb_false_r. reflexivity. }
      rewrite F in H. destruct H as [<-|[]]. destruct m; exact S'.
Qed.

(** Import rewriting settles: if a file (default mode) imports only ordinary modules, import
    rewriting leaves its own result as it is, whenever that is a file import rewriting can handle. *)
Theorem C135_imports_settle : forall e order body out s,
  program body -> min_mode e = false -> some_order order ->
  (forall i, In i (imports_of (module body)) -> settles e i) ->
  import_transform e order (module body) = Ok (module out, s) ->
  program out -> all_safe e (module out) ->
  exists s', import_transform e order (module out) = Ok (module out, s') /\ torch_packages s' = [] /\ imports s' = [].
Proof.
  intros e order body out s G M O P E G' S.
  destruct (C61_inserted_imports_exact e order body (module out) s G O E) as (pkgs & body' & Eo & R & _ & I).
  assert (Im : imports_of (module out) = (map (fun p => Import [MkAlias p None]) pkgs ++ flat_map (rewritten e) (imports_of (module body)))%list).
  { rewrite Eo, !module_imports, flat_map_app. apply (proj1 (proj2 (rw_imports e _))) in R. rewrite R. f_equal.
    clear. induction pkgs as [|p l IH]; [reflexivity|]. cbn [map flat_map]. rewrite IH. reflexivity. }
  destruct (C42_import_pass_unchanged e order out G' O S) as (s' & E' & A & B & _); [|exists s'; auto].
  intros j Hj. rewrite Im, in_app_iff in Hj. destruct Hj as [Hj|Hj].
  - apply in_map_iff in Hj as (q & <- & Hq). apply I in Hq as (i & p & Hi & Hp & ->).
    assert (Lp := packages_used_listed _ _ _ Hp). assert (V := replacement_values _ Lp).
    assert (Mp : ~ In p ["setuptools"; "os"; "einops"]).
    { specialize (P i Hi). destruct i as [| | |names|m names lv|]; cbn [packages_used] in Hp; try contradiction.
      - apply in_flat_map in Hp as (a & Ha & Hp). destruct (is_local e (al_name a)) eqn:L; [contradiction|]. cbn [negb andb] in Hp.
        destruct (torch_module (al_name a)) eqn:T; [|contradiction]. destruct Hp as [<-|[]].
        assert (Hn : In a names).
        { clear -Ha. induction names as [|b r IH]; [contradiction|]. cbn [upto_local] in Ha.
          destruct (is_local e (al_name b)); [destruct Ha as [->|[]]; left; reflexivity|].
          destruct Ha as [->|Ha]; [left; reflexivity|right; exact (IH Ha)]. }
        destruct (P a Hn) as [X|[[_ N]|[X _]]]; [congruence|exact N|congruence].
      - destruct lv as [|lv].
        + destruct m as [m|]; [|contradiction]. cbn [from_module] in Hp. cbn [settles] in P.
          destruct (is_local e m) eqn:L; [contradiction|]. destruct (torch_module m) eqn:T; [|contradiction]. destruct Hp as [<-|[]].
          destruct P as [X|[[_ N]|[X _]]]; [congruence|exact N|congruence].
        + assert (S' : contains "huggingface_internal" (file e) = false \/ (Datatypes.S lv <> 2 /\ Datatypes.S lv <> 3)) by (destruct m; exact P).
          assert (F : from_module e m (Datatypes.S lv) = Ok None).
          { unfold from_module. destruct S' as [C|[A B]]; [rewrite C; reflexivity|].
            apply PeanoNat.Nat.eqb_neq in A, B. rewrite A, B. cbn [orb]. rewrite andb_false_r. reflexivity. }
          rewrite F in Hp. contradiction. }
    assert (Q : In (replacement p) ["paddle"; "paddlespeech"; "paddleformers"]).
    { assert (Z : forallb (fun p => mem_str p ["setuptools"; "os"; "einops"] || mem_str (replacement p) ["paddle"; "paddlespeech"; "paddleformers"]) listed_packages = true)
        by (vm_compute; reflexivity).
      rewrite forallb_forall in Z. specialize (Z p Lp). apply Bool.orb_true_iff in Z as [Z|Z]; apply mem_str_In in Z; [contradiction|exact Z]. }
    split; [discriminate|]. split. { cbn [upto_local al_name]. destruct (is_local e (replacement p)); reflexivity. }
    intros a [<-|[]]. right. cbn [al_name]. destruct Q as [<-|[<-|[<-|[]]]]; split; vm_compute; reflexivity.
  - apply in_flat_map in Hj as (i & Hi & Hj). exact (settled_import e i j M (P i Hi) Hj).
Qed.
Print Assumptions C135_imports_settle.
Definition once135 : list node :=
  [Import [MkAlias "torch" None; MkAlias "numpy" (Some "np")]; from "torch" "nn"; def "f" [] [expr (Call (Attribute (Name "nn") "Linear") [Name "x"] [])]].
Definition twice135 : list node :=
  [imp "paddle"; imp_as "numpy" "np"; def "f" [] [expr (Call (Attribute (Attribute (Name "torch") "nn") "Linear") [Name "x"] [])]].
Example C135_settle_nonvacuous : program once135 /\ program twice135 /\ all_safe e0 (module twice135) /\
  (forall i, In i (imports_of (module once135)) -> settles e0 i) /\
  exists s, import_transform e0 keep (module once135) = Ok (module twice135, s).
Proof.
  split; [program_tac|]. split; [program_tac|]. split.
  { intros m H. cbn in H. repeat destruct H as [<-|H]; try contradiction; cbn; try exact I; try (intros N; repeat destruct N as [N|N]; discriminate || contradiction);
    try (intros x full Hx; cbn in Hx; contradiction). }
  split.
  { intros i H. cbn in H. destruct H as [<-|[<-|[]]].
    - intros a [<-|[<-|[]]].
      + right. left. split; [vm_compute; reflexivity|]. intros N. apply mem_str_In in N. vm_compute in N. discriminate N.
      + right. right. split; vm_compute; reflexivity.
    - right. left. split; [vm_compute; reflexivity|]. intros N. apply mem_str_In in N. vm_compute in N. discriminate N. }
  eexists. vm_compute. reflexivity.
Qed.

(** Violated in general: an import of os moves, *)
Theorem C135_order_refuted : exists body out out2 s s2,
  program body /\ program out /\
  import_transform e0 keep (module body) = Ok (module out, s) /\
  import_transform e0 keep (module out) = Ok (module out2, s2) /\ out2 <> out.
Proof.
  exists [imp "torch"; imp "numpy"; imp "os"]. eexists _, _, _, _. split; [program_tac|].
  split; [|split; [vm_compute; reflexivity|split; [vm_compute; reflexivity|discriminate]]].
  program_tac.
Qed.
Print Assumptions C135_order_refuted.
(** and a module of audiotools is renamed again, to one that does not exist. *)
Theorem C135_renamed_refuted : exists body out out2 s s2,
  program body /\ body = [from "audiotools.core" "util"] /\
  import_transform e0 keep (module body) = Ok (module out, s) /\
  import_transform e0 keep (module out) = Ok (module out2, s2) /\
  out = [from "paddlespeech.audiotools.core" "util"] /\
  out2 = [from "paddlespeech.paddlespeech.audiotools.core" "util"].
Proof.
  eexists _, _, _, _, _. split; [|split; [reflexivity|split; [vm_compute; reflexivity|split; [vm_compute; reflexivity|split; reflexivity]]]].
  program_tac.
Qed.
Print Assumptions C135_renamed_refuted.

Lemma filter_map_imports q pkgs : length (filter (is_plain_import q) (map plain_import pkgs)) = count_occ string_dec pkgs q.
Proof.
  induction pkgs as [|p l IH]; [reflexivity|]. cbn [map filter plain_import is_plain_import count_occ].
  destruct (string_dec p q) as [->|N]; [rewrite String.eqb_refl; cbn [length]; rewrite IH; reflexivity|].
  apply String.eqb_neq in N. rewrite N. exact IH.
Qed.
Lemma plain_import_kept e q i : torch_module q = false -> renames q = false -> is_plain_import q i = true -> rewritten e i = [i].
Proof.
  intros T R H. destruct i as [| | |[|[m [n|]] [|]]| |]; try discriminate H. cbn [is_plain_import] in H. apply String.eqb_eq in H as ->.
  cbn [rewritten upto_local al_name]. destruct (is_local e q) eqn:L; cbn [flat_map]; unfold new_alias; cbn [al_name]; rewrite L; [reflexivity|].
  rewrite T, R. reflexivity.
Qed.

Lemma unrenamed_min_kept e i : min_mode e = true -> unrenamed e i -> rewritten e i = [i].
Proof.
  intros M H. destruct i as [| | |names|m names lv|]; try contradiction H.
  - destruct H as [N H]. cbn [rewritten].
    assert (K : flat_map (new_alias e) (upto_local e names) = names).
    { clear N. induction names as [|a r IH]; [reflexivity|]. destruct (H a (or_introl eq_refl)) as [L T]. cbn [upto_local]. rewrite L. cbn [flat_map].
      rewrite IH by (intros b Hb; apply H; right; exact Hb). unfold new_alias. rewrite L, M.
      destruct (torch_module (al_name a)); [reflexivity|]. destruct T as [T|T]; [discriminate T|]. rewrite T. reflexivity. }
    rewrite K. destruct names; [contradiction N; reflexivity|reflexivity].
  - cbn [rewritten]. destruct lv as [|lv].
    + destruct m as [m|]; [|contradiction]. cbn [from_module]. cbn [unrenamed] in H. destruct (is_local e m) eqn:L; [reflexivity|].
      rewrite M. destruct (torch_module m); [reflexivity|]. destruct H as [H|[H|H]]; try discriminate H. rewrite H. reflexivity.
    + assert (S' : contains "huggingface_internal" (file e) = false \/ (Datatypes.S lv <> 2 /\ Datatypes.S lv <> 3)) by (destruct m; exact H).
      assert (F : from_module e m (Datatypes.S lv) = Ok None).
      { unfold from_module. destruct S' as [C|[A B]]; [rewrite C; reflexivity|].
        apply PeanoNat.Nat.eqb_neq in A, B. rewrite A, B. cbn [orb]. rewrite andb_false_r. reflexivity. }
      rewrite F. reflexivity.
Qed.

(** With [--mode min], where torch imports stay, every conversion of a file inserts the imports
    of its replacement packages once more. *)
Theorem C135_min_mode_repeats : forall e order body out out2 s s2 i p,
  program body -> min_mode e = true -> some_order order ->
  import_transform e order (module body) = Ok (module out, s) -> program out ->
  import_transform e order (module out) = Ok (module out2, s2) ->
  In i (imports_of (module body)) -> unrenamed e i -> In p (packages_used e i) ->
  In (replacement p) ["paddle"; "paddlespeech"; "paddleformers"] ->
  times_imported (replacement p) (module out2) > times_imported (replacement p) (module out) /\
  times_imported (replacement p) (module out) > times_imported (replacement p) (module body).
Proof.
  intros e order body out out2 s s2 i p G M O E G' E' Hi Un Hp Q.
  assert (Ki : rewritten e i = [i]) by (apply unrenamed_min_kept; assumption).
  assert (Grow : forall b o t, program b -> import_transform e order (module b) = Ok (module o, t) -> In i (imports_of (module b)) ->
    times_imported (replacement p) (module o) > times_imported (replacement p) (module b) /\ In i (imports_of (module o))).
  { clear -M O Q Ki Hp. intros b o t G E Hi.
    destruct (C61_inserted_imports_exact e order b (module o) t G O E) as (pkgs & body' & Eo & R & _ & I).
    assert (Im : imports_of (module o) = (map plain_import pkgs ++ flat_map (rewritten e) (imports_of (module b)))%list).
    { rewrite Eo, !module_imports, flat_map_app. apply (proj1 (proj2 (rw_imports e _))) in R. rewrite R. f_equal.
      clear. induction pkgs as [|q l IH]; [reflexivity|]. cbn [map flat_map]. rewrite IH. reflexivity. }
    assert (TR : torch_module (replacement p) = false /\ renames (replacement p) = false)
      by (destruct Q as [<-|[<-|[<-|[]]]]; split; vm_compute; reflexivity).
    split.
    - unfold times_imported. rewrite Im, filter_app, app_length, filter_map_imports.
      assert (C : count_occ string_dec pkgs (replacement p) > 0) by (apply count_occ_In; apply I; eauto).
      assert (K : forall l, length (filter (is_plain_import (replacement p)) (flat_map (rewritten e) l)) >= length (filter (is_plain_import (replacement p)) l)).
      { clear -TR. induction l as [|x l IH]; [cbn; lia|]. cbn [flat_map filter]. rewrite filter_app, app_length.
        destruct (is_plain_import (replacement p) x) eqn:X; [|lia].
        rewrite (plain_import_kept e _ x (proj1 TR) (proj2 TR) X). cbn [filter]. rewrite X. cbn [length]. lia. }
      specialize (K (imports_of (module b))). lia.
    - rewrite Im, in_app_iff. right. apply in_flat_map. exists i. split; [exact Hi|]. rewrite Ki. left. reflexivity. }
  destruct (Grow body out s G E Hi) as [A B]. destruct (Grow out out2 s2 G' E' B) as [C _]. split; assumption.
Qed.
Print Assumptions C135_min_mode_repeats.
Example C135_min_mode_nonvacuous :
  let e := MkEnv true "/p/a.py" (fun _ => false) in
  program [imp "torch"] /\ program [imp "paddle"; imp "torch"] /\ unrenamed e (imp "torch") /\
  packages_used e (imp "torch") = ["torch"] /\ replacement "torch" = "paddle" /\
  exists s s2, import_transform e keep (module [imp "torch"]) = Ok (module [imp "paddle"; imp "torch"], s) /\
    import_transform e keep (module [imp "paddle"; imp "torch"]) = Ok (module [imp "paddle"; imp "paddle"; imp "torch"], s2).
Proof.
  split; [program_tac|]. split; [program_tac|]. split.
  { split; [discriminate|]. intros a [<-|[]]. split; [reflexivity|]. left. vm_compute. reflexivity. }
  split; [vm_compute; reflexivity|]. split; [vm_compute; reflexivity|]. eexists _, _. split; vm_compute; reflexivity.
Qed.

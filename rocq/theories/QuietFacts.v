(** Proofs for C42. *)
From Coq Require Import ZArith.
From Verif Require Import PyStr PyDict PyDictFacts TablesData Lookup Ast AstFacts ImportPass ImportSpec ImportFacts Walk WalkBridge WalkIdle
  BasicPass CustomPass Converter QuietSpec.
Open Scope string_scope.

Lemma insert_nothing path n : insert_recorded path [] n = n.
Proof.
  destruct n as [| | | | |k fs]; try reflexivity. cbn [insert_recorded]. f_equal.
  rewrite <- (map_id fs) at 2. apply map_ext. intros [| |]; reflexivity.
Qed.
Lemma not_mem_str k l : ~ In k l -> mem_str k l = false.
Proof.
  intros N. destruct (mem_str k l) eqn:E; [|reflexivity]. exfalso. apply N.
  unfold mem_str in E. apply existsb_exists in E as (x & I & E). apply String.eqb_eq in E. subst. exact I.
Qed.
Lemma in_mem_str k l : mem_str k l = true -> In k l.
Proof. unfold mem_str. intros E. apply existsb_exists in E as (x & I & E). apply String.eqb_eq in E. subst. exact I. Qed.
Lemma non_torch_unlisted : in_api_mapping "NonTorchClass" = false.
Proof. vm_compute. reflexivity. Qed.
Lemma probe_unlisted : dget String.eqb "setattr" torch_package_mapping = None /\ dget String.eqb "hasattr" torch_package_mapping = None.
Proof. vm_compute. split; reflexivity. Qed.
Opaque api_mapping attribute_mapping alias_mapping wildcard_mapping matcher_classes torch_package_mapping.

(** ** The conversion pass *)
Definition basic_calm (p c : node) : Prop :=
  match c with
  | Name i =>
      match p with
      | Call (Name f) _ _ => In f ["setattr"; "hasattr"] -> dget String.eqb i torch_package_mapping = None
      | _ => True
      end
  | Other k fs => ~ In k ["Attribute"; "Call"] /\ (k = "Expr" -> exists c, field_child fs (At "value" 0) = Some c)
  | _ => True
  end.
Section Basic.
  Context {M : Type}.
  Variable e : benv M.
  Hypothesis T : torch_packages (file_imports e) = [].
  Hypothesis I : imports (file_imports e) = [].
  Definition at_rest {A} (s : bst A) : Prop := records s = [].

  Lemma strict_none n : get_full_attr_strict e n = "NonTorchClass".
  Proof. unfold get_full_attr_strict. rewrite T. reflexivity. Qed.
  Lemma replace_none : replace_torch_module e "NonTorchClass" = Ok "NonTorchClass".
  Proof. unfold replace_torch_module. rewrite I. reflexivity. Qed.
  Lemma start_none x : start_with_torch e x = false.
  Proof. unfold start_with_torch. rewrite T. reflexivity. Qed.

  Lemma basic_one_visit n p st (s : bst M) :
    match st with g :: _ => basic_calm (e_node g) n | [] => exists k fs, n = Other k fs /\ forall p, basic_calm p n end ->
    at_rest s ->
    exists go s1, basic_pre n (MkFrame n p :: st) s = Ok (go, s1) /\ at_rest s1 /\
      basic_post e n (MkFrame n p :: st) s1 = Ok (Reply (VNode n), s).
  Proof.
    intros C R. exists (looks_inside n), (if mem_str (kind_of n) scope_kinds then with_scopes s (map e_pos (MkFrame n p :: st) :: scopes s) else s).
    split; [reflexivity|]. split; [destruct (mem_str _ _); exact R|].
    destruct n as [i|v a|f a k|l|m l i|k fs]; cbn [basic_post kind_of].
    - change (mem_str "Name" scope_kinds) with false. cbv iota. destruct st as [|g st]; [destruct C as (k & fs & [=] & _)|].
      unfold visit_name. cbn [parent bind]. unfold basic_calm in C. destruct (e_node g) as [| |[f| | | | |] a k| | |]; try reflexivity.
      destruct (mem_str f _) eqn:Q; [|reflexivity]. rewrite (C (in_mem_str _ _ Q)). reflexivity.
    - change (mem_str "Attribute" scope_kinds) with false. cbv iota. destruct st as [|g st]; [destruct C as (k & fs & [=] & _)|].
      unfold finish_attribute. cbn [parent bind]. destruct (_ && _)%bool; [reflexivity|]. cbv zeta.
      rewrite strict_none, replace_none. cbn [bind]. rewrite start_none. reflexivity.
    - change (mem_str "Call" scope_kinds) with false. cbv iota. unfold finish_call. cbv zeta.
      rewrite strict_none, replace_none. cbn [bind]. rewrite start_none, non_torch_unlisted. reflexivity.
    - reflexivity.
    - reflexivity.
    - assert (Q : ~ In k ["Attribute"; "Call"] /\ (k = "Expr" -> exists c, field_child fs (At "value" 0) = Some c)).
      { destruct st as [|g st]; [destruct C as (_ & _ & _ & C); exact (C (Name ""))|exact C]. }
      clear C. destruct Q as [Q1 Q2]. rewrite (not_mem_str _ _ Q1). destruct (String.eqb_spec k "Expr") as [->|N].
      + destruct (Q2 eq_refl) as [c ->]. reflexivity.
      + destruct (mem_str k scope_kinds); [|reflexivity]. destruct s as [t o al un sc rs sh]. unfold at_rest in R. cbn in R. subst rs.
        cbn [records with_scopes scopes tl]. rewrite insert_nothing. reflexivity.
  Qed.
  Lemma basic_quiet limit k fs (s : bst M) :
    depth (Other k fs) <= limit -> (forall p, basic_calm p (Other k fs)) -> calm_below basic_calm (Other k fs) -> at_rest s ->
    basic_transform e limit (Other k fs) s = Ok (Other k fs, s).
  Proof.
    intros D C B R. unfold basic_transform, basic_walk.
    rewrite (walk_idle basic_pre (basic_again e) (basic_post e) basic_calm at_rest basic_one_visit _ limit D (At "" 0) [] s); eauto.
  Qed.
End Basic.
Lemma nodes_child root : forall m c, In m (nodes root) -> In c (children m) -> In c (nodes root).
Proof. intros m c Hm Hc. eapply nodes_trans; [exact Hm|]. eapply child_nodes; [exact Hc|apply self_in]. Qed.
Lemma basic_calm_all root : well_formed root -> no_package_probe root -> calm_below basic_calm root.
Proof.
  intros [W _] P m c Hm Hc. destruct c as [i| | | | |k fs]; try exact Logic.I.
  - cbn [basic_calm]. destruct m as [| |[f| | | | |] a k| | |]; try exact Logic.I. intros F.
    cbn [children] in Hc. destruct Hc as [[= <-]|Hc].
    + destruct F as [<-|[<-|[]]]; apply probe_unlisted.
    + exact (P f a k i Hm F Hc).
  - apply W. eapply nodes_child; eassumption.
Qed.

(** ** The passes for C++ extensions *)
Definition custom_calm (p c : node) : Prop :=
  match c with
  | Import l => l <> []
  | ImportFrom _ l _ => l <> []
  | Other k fs => k = "Assign" -> forall f a k, field_child fs (At "value" 0) = Some (Call f a k) ->
                  get_full_attr f <> "paddle.utils.cpp_extension.load"
  | _ => True
  end.
Definition no_extensions (s : bst_c) : Prop :=
  records s = [] /\ extensions (shared s) = [] /\ autograd (shared s) = [] /\ ext_imports (shared s) = [] /\
  ext_loads (shared s) = [] /\ func_imports (shared s) = [].
Lemma split_nothing l c : extensions c = [] -> split_imports l c = (l, c).
Proof. intros E. induction l as [|a l IH]; [reflexivity|]. cbn [split_imports]. rewrite E. cbn [mem_str existsb]. rewrite IH. reflexivity. Qed.
Lemma custom_from_nothing l c : autograd c = [] -> func_imports c = [] -> exists c', custom_from l c = (l, [], c') /\ c' = c.
Proof.
  intros A F. induction l as [|a l IH]; [exists c; split; reflexivity|]. cbn [custom_from]. unfold match_alias. rewrite A, F. cbn [fold_left].
  destruct c as [ex au im lo fu]. cbn in A, F. subst. cbn [extensions ext_imports ext_loads].
  destruct IH as (c' & IH & ->). rewrite IH. destruct a. eexists. split; reflexivity.
Qed.
Lemma with_same s : with_custom s (shared s) = s. Proof. destruct s. reflexivity. Qed.
Lemma custom_opened n p st (s : bst_c) : no_extensions s ->
  no_extensions (if mem_str (kind_of n) scope_kinds then with_scopes s (map e_pos (MkFrame n p :: st) :: scopes s) else s).
Proof. intros R. destruct (mem_str _ _); exact R. Qed.
Lemma close_opened n p st (s : bst_c) : no_extensions s ->
  close_scope n (MkFrame n p :: st) (if mem_str (kind_of n) scope_kinds then with_scopes s (map e_pos (MkFrame n p :: st) :: scopes s) else s)
  = Ok (Reply (VNode n), s).
Proof.
  intros R. unfold close_scope. destruct (mem_str (kind_of n) scope_kinds); [|reflexivity].
  destruct s as [t o al un sc rs sh]. destruct R as [R _]. cbn in R. subst rs.
  cbn [records with_scopes scopes tl]. rewrite insert_nothing. reflexivity.
Qed.
Lemma pre_custom_other k fs st s : k <> "Assign" -> pre_custom_post (Other k fs) st s = close_scope (Other k fs) st s.
Proof.
  intros N. unfold pre_custom_post. set (c := close_scope). clearbody c.
  repeat (destruct k as [|[[][][][][][][][]] k]; try reflexivity). congruence.
Qed.
Lemma custom_other k fs st s : k <> "ClassDef" -> custom_post (Other k fs) st s = close_scope (Other k fs) st s.
Proof.
  intros N. unfold custom_post. set (c := close_scope). clearbody c.
  repeat (destruct k as [|[[][][][][][][][]] k]; try reflexivity). congruence.
Qed.
Lemma custom_one_visit post n p st (s : bst_c) :
  post = pre_custom_post \/ post = custom_post ->
  match st with g :: _ => custom_calm (e_node g) n | [] => exists k fs, n = Other k fs /\ forall p, custom_calm p n end ->
  no_extensions s ->
  exists go s1, custom_pre n (MkFrame n p :: st) s = Ok (go, s1) /\ no_extensions s1 /\
    post n (MkFrame n p :: st) s1 = Ok (Reply (VNode n), s).
Proof.
  intros P C R. eexists _, _. split; [reflexivity|]. split; [apply custom_opened, R|].
  assert (Cl := close_opened n p st s R).
  assert (Q : custom_calm (Name "") n).
  { destruct st as [|g st]; [destruct C as (k & fs & -> & C); exact (C (Name ""))|exact C]. }
  clear C. destruct n as [i|v a|f a k|l|m l i|k fs]; cbn [kind_of] in *.
  - destruct P as [-> | ->]; exact Cl.
  - change (mem_str "Attribute" scope_kinds) with false in *. cbv iota in *. destruct R as (R0 & R1 & R2 & R3 & R4 & R5).
    destruct P as [-> | ->].
    + unfold pre_custom_post. destruct v; try exact Cl. rewrite R3. cbn [fold_left]. rewrite R4. reflexivity.
    + unfold custom_post, custom_attribute. rewrite R5. reflexivity.
  - destruct P as [-> | ->]; exact Cl.
  - change (mem_str "Import" scope_kinds) with false in *. cbv iota in *. destruct R as (R0 & R1 & R2 & R3 & R4 & R5).
    destruct P as [-> | ->]; [|exact Cl]. unfold pre_custom_post. rewrite (split_nothing _ _ R1), with_same.
    destruct l; [contradiction Q; reflexivity|reflexivity].
  - change (mem_str "ImportFrom" scope_kinds) with false in *. cbv iota in *. destruct R as (R0 & R1 & R2 & R3 & R4 & R5).
    destruct P as [-> | ->]; [exact Cl|]. unfold custom_post. destruct (custom_from_nothing l _ R2 R5) as (c' & -> & ->).
    rewrite with_same. destruct l; [contradiction Q; reflexivity|reflexivity].
  - destruct P as [-> | ->].
    + destruct (String.eqb_spec k "Assign") as [->|N].
      * unfold pre_custom_post. change (mem_str "Assign" scope_kinds) with false in *. cbv iota in *.
        destruct (field_child fs (At "value" 0)) as [[|?|n ? ?|?|? ? ?|? ?]|] eqn:F; try reflexivity.
        destruct (String.eqb_spec (get_full_attr n) "paddle.utils.cpp_extension.load") as [E|E]; [|reflexivity].
        exfalso. exact (Q eq_refl _ _ _ F E).
      * rewrite (pre_custom_other _ _ _ _ N). exact Cl.
    + destruct (String.eqb_spec k "ClassDef") as [->|N].
      * change (mem_str "ClassDef" scope_kinds) with false in *. cbv iota in *. unfold custom_post.
        destruct R as (R0 & R1 & R2 & R3 & R4 & R5). rewrite R2. reflexivity.
      * rewrite (custom_other _ _ _ _ N). exact Cl.
Qed.
Lemma custom_quiet post limit k fs (s : bst_c) :
  post = pre_custom_post \/ post = custom_post ->
  depth (Other k fs) <= limit -> (forall p, custom_calm p (Other k fs)) -> calm_below custom_calm (Other k fs) -> no_extensions s ->
  run_custom post limit (Other k fs) s = Ok (Other k fs, s).
Proof.
  intros P D C B R. unfold run_custom.
  rewrite (walk_idle custom_pre custom_again post custom_calm no_extensions (fun n p st s => custom_one_visit post n p st s P) _ limit D (At "" 0) [] s); eauto.
Qed.
Lemma custom_calm_all root : well_formed root -> no_extension_load root -> calm_below custom_calm root.
Proof.
  intros [_ [W1 W2]] P m c Hm Hc. pose proof (nodes_child root m c Hm Hc) as H. destruct c as [| | |l|m' l i|k fs]; try exact Logic.I; cbn [custom_calm].
  - eapply W1, H.
  - eapply W2, H.
  - intros ->. intros f a k. eapply P, H.
Qed.

(** Proofs about HelperScope.v: names of several helper texts put together. *)
From Verif Require Import PyStr Ast AstFacts BasicPass NodeEq HelperTexts HelperScope.
Open Scope string_scope.
Open Scope list_scope.

Lemma mem_In x l : mem x l = true <-> In x l.
Proof. unfold mem. rewrite existsb_exists. split; [intros (y & I & E); apply String.eqb_eq in E; subst; exact I|intros I; exists x; rewrite String.eqb_refl; tauto]. Qed.
Lemma mem_app x l m : mem x (l ++ m) = mem x l || mem x m.
Proof. apply existsb_app. Qed.

(** With more names visible, fewer are unknown. *)
Definition less (x : string) (l m : list string) : Prop := mem x l = true -> mem x m = true.
Lemma less_app x a l m : less x l m -> less x (a ++ l) (a ++ m).
Proof. unfold less. rewrite !mem_app. intros H. destruct (mem x a); [tauto|exact H]. Qed.
Lemma in_flat_map_less {A} (f g : A -> list string) x l : (forall y, In y l -> In x (f y) -> In x (g y)) -> In x (flat_map f l) -> In x (flat_map g l).
Proof. rewrite !in_flat_map. intros H (y & I & F). exists y. split; [exact I|exact (H y I F)]. Qed.
Lemma unknown_less x n : forall i h i' h', less x i i' -> less x h h' -> In x (unknown i' h' n) -> In x (unknown i h n).
Proof.
  induction n as [v|v a IH|f a k Hf Ha Hk|l|m l lv|k fs Hfs] using node_ind2; intros i h i' h' LI LH; cbn [unknown].
  - destruct (mem v h') eqn:E'; [intros []|]. intros [->|[]]. destruct (mem x h) eqn:E; [|left; reflexivity].
    specialize (LH E). congruence.
  - apply IH; assumption.
  - rewrite Forall_forall in Ha, Hk. rewrite !in_app_iff. intros [H|[H|H]].
    + left. exact (Hf _ _ _ _ LI LH H).
    + right. left. revert H. apply in_flat_map_less. intros y Y. apply (Ha y Y); assumption.
    + right. right. revert H. apply in_flat_map_less. intros y Y. apply (Hk y Y); assumption.
  - intros [].
  - intros [].
  - rewrite Forall_forall in Hfs.
    assert (IN : forall f, In f fs -> forall i h i' h', less x i i' -> less x h h' ->
      In x (match f with One _ c => unknown i' h' c | Many _ l => flat_map (unknown i' h') l | Data _ _ => [] end) ->
      In x (match f with One _ c => unknown i h c | Many _ l => flat_map (unknown i h) l | Data _ _ => [] end)).
    { intros f F i0 h0 i1 h1 L1 L2. specialize (Hfs f F). destruct f as [nm c|nm l|nm t]; cbn [field_all] in Hfs.
      - apply Hfs; assumption.
      - rewrite Forall_forall in Hfs. apply in_flat_map_less. intros y Y. apply (Hfs y Y); assumption.
      - tauto. }
    destruct (mem k ["FunctionDef"; "AsyncFunctionDef"; "Lambda"]).
    { apply in_flat_map_less. intros f F. destruct (String.eqb (field_name f) "body"); apply (IN f F); repeat apply less_app; assumption. }
    destruct (String.eqb k "ClassDef").
    { apply in_flat_map_less. intros f F. destruct (String.eqb (field_name f) "body"); apply (IN f F); repeat apply less_app; assumption. }
    destruct (mem k ["ListComp"; "SetComp"; "DictComp"; "GeneratorExp"]).
    { apply in_flat_map_less. intros f F. apply (IN f F); apply less_app; assumption. }
    destruct (mem k ["Assign"; "AugAssign"; "AnnAssign"; "For"; "NamedExpr"; "withitem"; "comprehension"]).
    { apply in_flat_map_less. intros f F. apply (IN f F); [assumption|apply less_app; assumption]. }
    apply in_flat_map_less. intros f F. apply (IN f F); assumption.
Qed.

(** ** Any of the helper texts, in any order *)
Definition import_paddle : node := Import [MkAlias "paddle" None].
(** A statement of some helper text, or the import at the beginning of the helper file. *)
Definition helper_statement (n : node) : Prop := n = import_paddle \/ exists c text, In (c, text) helper_texts /\ In n text.
Definition statements : list node := import_paddle :: flat_map snd helper_texts.
Lemma statement_in n : helper_statement n <-> In n statements.
Proof.
  unfold helper_statement, statements. cbn [In]. rewrite in_flat_map. split.
  - intros [->|(c & t & I & J)]; [left; reflexivity|right; exists (c, t); tauto].
  - intros [<-|([c t] & I & J)]; [left; reflexivity|right; exists c, t; tauto].
Qed.

(** Each name is bound by one statement only (which several texts may contain). *)
Lemma one_statement : forallb (fun n => forallb (fun m => forallb (fun x => if mem x (keys_of m) then node_eqb n m else true) (keys_of n)) statements) statements = true.
Proof. vm_compute. reflexivity. Qed.
Lemma one_binder n m x : helper_statement n -> helper_statement m -> In x (keys_of n) -> In x (keys_of m) -> n = m.
Proof.
  rewrite !statement_in. intros N M X Y. pose proof one_statement as F. rewrite forallb_forall in F. specialize (F n N).
  rewrite forallb_forall in F. specialize (F m M). rewrite forallb_forall in F. specialize (F x X). apply mem_In in Y. rewrite Y in F.
  apply node_eqb_eq, F.
Qed.
Lemma stands_own l n x : (forall m, In m l -> helper_statement m) -> In n l -> In x (keys_of n) -> stands_for x l = Some n.
Proof.
  induction l as [|m l IH]; intros A N X; [destruct N|]. cbn [stands_for].
  destruct (stands_for x l) as [r|] eqn:S.
  - f_equal. assert (R : In r l /\ In x (keys_of r)).
    { clear -S. revert r S. induction l as [|m l IH]; intros r S; [discriminate|]. cbn [stands_for] in S.
      destruct (stands_for x l) as [r'|]; [injection S as <-; destruct (IH r' eq_refl); split; [right|]; assumption|].
      destruct (mem x (keys_of m)) eqn:K; [|discriminate]. injection S as <-. apply mem_In in K. split; [left; reflexivity|exact K]. }
    destruct R as [R1 R2]. apply (one_binder r n x); [apply A; right; exact R1|apply A, N|exact R2|exact X].
  - destruct N as [->|N]; [apply mem_In in X; rewrite X; reflexivity|].
    specialize (IH (fun m H => A m (or_intror H)) N X). discriminate.
Qed.

Definition absent : list (string * string) :=
  [("Get_EnumMatcher", "warnings"); ("OnnxExportMatcher", "Logic"); ("OnnxExportMatcher", "filename")].
Definition texts_of (sel : list (string * list node)) : list node := import_paddle :: flat_map snd sel.
Lemma binds_texts sel x : In x (binds_all (texts_of sel)) <-> x = "paddle" \/ exists ct, In ct sel /\ In x (binds_all (snd ct)).
Proof.
  unfold texts_of, binds_all. cbn [flat_map]. rewrite in_app_iff. cbn [binds import_paddle map alias_name al_asname al_name]. cbn [In first_part Ascii.eqb].
  rewrite in_flat_map. split.
  - intros [[H|[]]|(n & I & B)]; [left; symmetry; exact H|]. rewrite in_flat_map in I. destruct I as (ct & I & N).
    right. exists ct. split; [exact I|]. apply in_flat_map. exists n. tauto.
  - intros [->|(ct & I & B)]; [left; left; reflexivity|right]. apply in_flat_map in B. destruct B as (n & N & B).
    exists n. split; [apply in_flat_map; exists ct; tauto|exact B].
Qed.
(** What a text alone lacks. *)
Lemma lacks_alone : forallb (fun ct => forallb (fun x => existsb (fun cx => String.eqb (fst cx) (fst ct) && String.eqb (snd cx) x) absent) (missing (texts_of [ct]))) helper_texts = true.
Proof. vm_compute. reflexivity. Qed.
Lemma absent_lacks : forallb (fun ct => forallb (fun cx => if String.eqb (fst cx) (fst ct) then mem (snd cx) (missing (texts_of [ct])) else true) absent) helper_texts = true.
Proof. vm_compute. reflexivity. Qed.
Lemma absent_unbound : forallb (fun ct => forallb (fun cx => negb (mem (snd cx) (binds_all (snd ct)))) absent) helper_texts = true.
Proof. vm_compute. reflexivity. Qed.

Lemma missing_of sel x : In x (missing (texts_of sel)) <->
  exists ct n, In ct sel /\ In n (snd ct) /\ In x (unknown (binds_all (texts_of sel) ++ builtins) (binds_all (texts_of sel) ++ builtins) n).
Proof.
  unfold missing. unfold texts_of at 3. cbn [flat_map]. cbn [unknown import_paddle app]. rewrite in_flat_map. split.
  - intros (n & I & U). apply in_flat_map in I. destruct I as (ct & I & N). exists ct, n. tauto.
  - intros (ct & n & I & N & U). exists n. split; [apply in_flat_map; exists ct; tauto|exact U].
Qed.
Theorem missing_exactly sel x : (forall ct, In ct sel -> In ct helper_texts) ->
  (In x (missing (texts_of sel)) <-> exists ct, In ct sel /\ In (fst ct, x) absent).
Proof.
  intros S. split.
  - intros H. apply missing_of in H. destruct H as (ct & n & I & N & U).
    assert (H : In x (missing (texts_of [ct]))).
    { apply missing_of. exists ct, n. split; [left; reflexivity|]. split; [exact N|]. revert U. apply unknown_less;
        (unfold less; rewrite !mem_In, !in_app_iff, !binds_texts; intros [[H|(ct' & [<-|[]] & B)]|H]; [tauto|left; right; exists ct; tauto|tauto]). }
    exists ct. split; [exact I|]. pose proof lacks_alone as L. rewrite forallb_forall in L. specialize (L ct (S ct I)).
    rewrite forallb_forall in L. specialize (L x H). apply existsb_exists in L. destruct L as ([c y] & A & E). cbn [fst snd] in E.
    apply Bool.andb_true_iff in E. destruct E as [E1 E2]. apply String.eqb_eq in E1. apply String.eqb_eq in E2. subst. exact A.
  - intros (ct & I & A). pose proof absent_lacks as L. rewrite forallb_forall in L. specialize (L ct (S ct I)).
    rewrite forallb_forall in L. specialize (L _ A). cbn [fst snd] in L. rewrite String.eqb_refl in L. apply mem_In in L.
    apply missing_of in L. destruct L as (ct' & n & [<-|[]] & N & U). apply missing_of. exists ct, n. split; [exact I|]. split; [exact N|].
    assert (NB : mem x (binds_all (texts_of sel) ++ builtins) = true -> mem x (binds_all (texts_of [ct]) ++ builtins) = true).
    { rewrite !mem_In, !in_app_iff, !binds_texts. intros [[H|(c2 & C2 & B)]|H]; [tauto| |tauto]. exfalso.
      pose proof absent_unbound as Z. rewrite forallb_forall in Z. specialize (Z c2 (S c2 C2)). rewrite forallb_forall in Z. specialize (Z _ A).
      cbn [snd] in Z. apply mem_In in B. rewrite B in Z. discriminate. }
    revert U. apply unknown_less; exact NB.
Qed.

(** Proofs about FileTree.v. *)
From Coq Require Import Permutation Lia.
From Verif Require Import PyStr PyDict PyStrFacts PyDictFacts Ast UtilsFile FileTree FileTreeSpec.
Open Scope list_scope.

Lemma path_eqb_spec a b : reflect (a = b) (path_eqb a b).
Proof.
  revert b. induction a as [|x a IH]; intros [|y b]; cbn; try (constructor; congruence).
  destruct (String.eqb_spec x y) as [->|N]; cbn.
  - destruct (IH b) as [->|N]; constructor; congruence.
  - constructor. congruence.
Qed.

Lemma inside_refl p : inside p p. Proof. exists []. reflexivity. Qed.
Lemma inside_trans a b c : inside a b -> inside b c -> inside a c.
Proof. intros [r ->] [r' ->]. exists (r ++ r'). apply app_assoc. Qed.
Lemma inside_cons n p d : inside p d -> inside (n :: p) d.
Proof. intros [r ->]. exists (n :: r). reflexivity. Qed.
Lemma inside_tl n p d : inside p (n :: d) -> inside p d.
Proof. intros [r ->]. exists (r ++ [n]). rewrite <- app_assoc. reflexivity. Qed.
Lemma suffix_comparable {A} (r1 r2 a b : list A) : r1 ++ a = r2 ++ b -> (exists r, a = r ++ b) \/ (exists r, b = r ++ a).
Proof.
  revert r2. induction r1 as [|x r1 IH]; intros [|y r2] E; cbn in E.
  - left. exists []. exact E.
  - left. exists (y :: r2). exact E.
  - right. exists (x :: r1). symmetry. exact E.
  - injection E as _ E. exact (IH _ E).
Qed.
Lemma inside_comparable p a b : inside p a -> inside p b -> inside a b \/ inside b a.
Proof. intros [r1 ->] [r2 E]. exact (suffix_comparable _ _ _ _ E). Qed.

(** * What an action touches *)
Definition spans (P : path -> Prop) (w w' : world) : Prop :=
  exists l, past w' = l ++ past w /\ disk w' = after l (disk w) /\ Forall (fun o => P (touches o)) l.
Definition safe {A} (P : path -> Prop) (a : act A) : Prop := forall w, spans P w (fst (a w)).

Lemma spans_refl P w : spans P w w.
Proof. exists []. repeat split. constructor. Qed.
Lemma spans_trans P w1 w2 w3 : spans P w1 w2 -> spans P w2 w3 -> spans P w1 w3.
Proof.
  intros (l1 & A1 & B1 & F1) (l2 & A2 & B2 & F2). exists (l2 ++ l1). split; [|split].
  - rewrite A2, A1. apply app_assoc.
  - rewrite B2, B1. unfold after. rewrite fold_right_app. reflexivity.
  - apply Forall_app. split; assumption.
Qed.
Lemma safe_weaken {A} (P Q : path -> Prop) (a : act A) : (forall p, P p -> Q p) -> safe P a -> safe Q a.
Proof.
  intros I S w. destruct (S w) as (l & E1 & E2 & F). exists l. repeat split; auto.
  eapply Forall_impl; [|exact F]. auto.
Qed.
Lemma safe_ret {A} P (a : A) : safe P (ret a). Proof. intro w. apply spans_refl. Qed.
Lemma safe_fail {A} P e : safe P (@fail A e). Proof. intro w. apply spans_refl. Qed.
Lemma safe_bind {A B} P (x : act A) (k : A -> act B) : safe P x -> (forall a, safe P (k a)) -> safe P (bind x k).
Proof.
  intros X K w. unfold bind. specialize (X w). destruct (x w) as [w1 [a|e]]; cbn in *; [|exact X].
  eapply spans_trans; [exact X|apply K].
Qed.
Lemma safe_see {A} P (k : fs -> act A) : (forall f, safe P (k f)) -> safe P (see k).
Proof. intros K w. apply K. Qed.
Lemma safe_doing (P : path -> Prop) o : P (touches o) -> safe P (doing o).
Proof. intros H w. exists [o]. repeat split. constructor; [exact H|constructor]. Qed.
Lemma safe_for_each {C} P (step : string -> C -> act C) l :
  (forall n, In n l -> forall c, safe P (step n c)) -> forall c, safe P (for_each step l c).
Proof.
  induction l as [|n l IH]; intros S c; cbn [for_each]; [apply safe_ret|].
  apply safe_bind; [apply S; left; reflexivity|]. intro c'. apply IH. intros m I. apply S. right. exact I.
Qed.

Ltac safe_step :=
  match goal with
  | |- safe _ (ret _) => apply safe_ret
  | |- safe _ (fail _) => apply safe_fail
  | |- safe _ (bind _ _) => apply safe_bind; [|intro]
  | |- safe _ (see _) => apply safe_see; intro
  | |- safe _ (if ?b then _ else _) => destruct b
  | |- safe _ (match ?x with _ => _ end) => destruct x
  end.

Lemma safe_mkdir (P : path -> Prop) p : P p -> safe P (mkdir p).
Proof. intro H. unfold mkdir. repeat safe_step. apply safe_doing. exact H. Qed.
Lemma safe_makedirs p : safe (inside p) (makedirs p).
Proof.
  induction p as [|n d IH]; cbn [makedirs]; [apply safe_fail|]. repeat safe_step.
  - eapply safe_weaken; [|exact IH]. intros q. apply inside_cons.
  - apply safe_mkdir, inside_refl.
Qed.
Lemma safe_remove (P : path -> Prop) p : P p -> safe P (remove p).
Proof. intro H. unfold remove. repeat safe_step; apply safe_doing; exact H. Qed.
Lemma safe_write (P : path -> Prop) p s : P p -> safe P (write_file p s).
Proof. intro H. unfold write_file. repeat safe_step; apply safe_doing; exact H. Qed.
Lemma safe_prepare p : safe (inside p) (prepare p).
Proof. unfold prepare. repeat safe_step; try apply safe_makedirs. apply safe_remove, inside_refl. Qed.

(** On the way to [dst], or below it. *)
Definition near (dst p : path) : Prop := inside p dst \/ inside dst p.
Lemma near_refl dst : near dst dst. Proof. left. apply inside_refl. Qed.
Lemma near_cons n dst p : near (n :: dst) p -> near dst p.
Proof.
  intros [I|[r E]]; [left; eapply inside_tl; exact I|]. destruct r as [|m r]; cbn in E.
  - subst p. left. exists [n]. reflexivity.
  - injection E as -> E. right. exists r. exact E.
Qed.
Lemma near_up dst p q : near dst p -> inside p q -> near dst q.
Proof.
  intros [I|I] J; [|right; eapply inside_trans; eassumption].
  destruct (inside_comparable _ _ _ I J); [right|left]; assumption.
Qed.
Lemma near_tl p : inside p (tl p).
Proof. destruct p as [|n p]; [apply inside_refl|exists [n]; reflexivity]. Qed.

Section Facts.
Context {C : Type}.
Variable convert : (string -> bool) -> string -> string -> C -> res (string * C).
Variable codes_of : C -> dict Z string.
Variable order : fs -> path -> list string -> list string.
Variable search : string -> string -> bool.
Variable isort : string -> option string.

Lemma safe_transfer_file (P : path -> Prop) old new c : P new -> safe P (transfer_file convert old new c).
Proof. intro H. unfold transfer_file. repeat safe_step. apply safe_write, H. Qed.

Lemma safe_transfer fuel pats src dst c : safe (near dst) (transfer_dir convert order search fuel pats src dst c).
Proof.
  revert src dst c. induction fuel as [|k IH]; intros src dst c; cbn [transfer_dir]; [apply safe_fail|].
  apply safe_see. intro f. destruct (at_path f src) as [[s| | |]|]; repeat safe_step.
  - eapply safe_weaken; [|apply safe_prepare]. intros q I. eapply near_up; [|exact I].
    unfold join_path. destruct (isdir f dst); cbn [dirname tl]; [apply near_refl|].
    right. apply near_tl.
  - apply safe_transfer_file. unfold join_path. destruct (isdir f dst); [|apply near_refl].
    left. exists [basename src]. reflexivity.
  - apply safe_for_each. intros n _ c'. repeat safe_step; unfold join_path.
    + eapply safe_weaken; [|apply safe_makedirs]. intros q I. apply (near_cons n). right. exact I.
    + eapply safe_weaken; [|apply IH]. intros q. apply near_cons.
Qed.

Lemma safe_flush (P : path -> Prop) file dirm c :
  (forall q, inside file q -> P q) -> safe P (flush codes_of isort file dirm c).
Proof.
  intro H. unfold flush. destruct (codes_of c); [apply safe_ret|]. repeat safe_step.
  - unfold makedirs_ok. repeat safe_step. eapply safe_weaken; [|apply safe_makedirs].
    intros q I. apply H. eapply inside_trans; [apply near_tl|exact I].
  - apply safe_write, H, inside_refl.
Qed.

Definition dest (cwd : path) (out : option path) : path :=
  match out with Some p => p | None => join_path cwd "paddle_project" end.

Lemma safe_run fuel cwd src out exclude c :
  safe (near (dest cwd out)) (run convert codes_of order search isort fuel cwd None src out exclude c).
Proof.
  unfold run. fold (dest cwd out). set (dst := dest cwd out). apply safe_bind.
  - destruct out; repeat safe_step. eapply safe_weaken; [|apply safe_makedirs]. intros q I. right. exact I.
  - intros _. safe_step; [apply safe_fail|]. apply safe_see. intro f. apply safe_bind; [apply safe_transfer|]. intro c'.
    destruct (isfile f src); [|destruct (isdir f src); [|apply safe_fail]].
    + apply safe_bind; [|intro; apply safe_ret]. apply safe_flush. intros q I. unfold join_path in *.
      destruct (isdir f dst); [|right; exact I]. apply (near_cons (basename src)). right. exact I.
    + apply safe_bind; [|intro; apply safe_ret]. apply safe_flush. intros q I. unfold join_path in *.
      apply (near_cons "paddle_utils.py"%string). right. exact I.
Qed.
End Facts.

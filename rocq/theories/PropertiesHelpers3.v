(** What PositiveDefiniteTransform becomes (C134). *)
From Verif Require Import PyStr Ast Args TablesData Generate PropertiesGenerate Helpers3.
From Coq Require Import Lia.
Open Scope string_scope.
Open Scope list_scope.
Open Scope nat_scope.

(** ** C134 *)
Theorem C134_text : PropertiesGenerate.rewrite "torch.distributions.transforms.PositiveDefiniteTransform" None [] [] =
  Some (Ret (nls ++ "PositiveDefiniteTransform()" ++ nls, true)%string).
Proof. vm_compute. reflexivity. Qed.
Print Assumptions C134_text.

(** The factor torch forms (LowerCholeskyTransform): the part below the diagonal, the exponential on it,
    zero above; and the product with its own transposed, for each matrix of a batch. *)
Definition factor {A} (zero : A) (exp : A -> A) (x : nat -> nat -> A) (i j : nat) : A :=
  if j <? i then x i j else if Nat.eqb i j then exp (x i i) else zero.
Definition product {A} (zero : A) (add mul : A -> A -> A) (exp : A -> A) (n : nat) (x : nat -> nat -> A) (i j : nat) : A :=
  total A zero add n (fun k => mul (factor zero exp x i k) (factor zero exp x j k)).

Section Transform.
Variable A : Type.
Variable zero : A.
Variable add mul : A -> A -> A.
Variable exp : A -> A.
Hypothesis add_zero : forall a, add a zero = a.
Hypothesis zero_add : forall a, add zero a = a.

Lemma last_two_app b i j : last_two (b ++ [i; j]) = Some (b, i, j).
Proof. unfold last_two. rewrite rev_app_distr. cbn [rev app]. rewrite rev_involutive. reflexivity. Qed.
Lemma lower_at x b i j : at_index (lower A zero add exp x) (b ++ [i; j]) = factor zero exp (fun i j => at_index x (b ++ [i; j])) i j.
Proof.
  unfold lower, plus, below, diagonal, factor. cbn [at_index]. rewrite last_two_app.
  destruct (Nat.ltb_spec j i) as [L|L].
  - destruct (Nat.eqb_spec i j); [lia|]. apply add_zero.
  - destruct (Nat.eqb_spec i j); [apply zero_add|apply add_zero].
Qed.
Lemma total_ext n f g : (forall k, k < n -> f k = g k) -> total A zero add n f = total A zero add n g.
Proof. induction n as [|n IH]; intros H; [reflexivity|]. cbn [total]. rewrite IH, H by (intros; try apply H; lia). reflexivity. Qed.

Theorem transform_matrix n x : shape x = [n; n] ->
  exists y, positive_definite A zero add mul exp x = Ok y /\ shape y = [n; n] /\
    forall i j, at_index y [i; j] = product zero add mul exp n (fun i j => at_index x [i; j]) i j.
Proof.
  intros S. unfold positive_definite, matmul. change (shape (lower A zero add exp x)) with (shape x).
  change (shape (reversed (lower A zero add exp x))) with (rev (shape x)). rewrite S. cbn [rev app last_two]. rewrite Nat.eqb_refl. cbn [broadcast].
  eexists. split; [reflexivity|]. split; [reflexivity|]. intros i j. cbn [at_index last_two rev app own_index]. unfold product.
  apply total_ext. intros k _. f_equal.
  - exact (lower_at x [] i k).
  - cbn [reversed at_index rev app]. exact (lower_at x [] j k).
Qed.
(** The shape for a batch. *)
Lemma transform_batch b n x : shape x = [b; n; n] ->
  match positive_definite A zero add mul exp x with
  | Ok y => (b = n \/ b = 1 \/ n = 1) /\ shape y = [if Nat.eqb b 1 then n else b; n; b]
  | Raise _ => b <> n /\ b <> 1 /\ n <> 1
  end.
Proof.
  intros S. unfold positive_definite, matmul. change (shape (lower A zero add exp x)) with (shape x).
  change (shape (reversed (lower A zero add exp x))) with (rev (shape x)). rewrite S. cbn [rev app last_two]. rewrite Nat.eqb_refl. cbn [broadcast].
  destruct (Nat.eqb_spec b n) as [->|N].
  - cbn [shape rev app]. split; [tauto|]. destruct (Nat.eqb_spec n 1) as [->|]; reflexivity.
  - destruct (Nat.eqb_spec b 1) as [->|N1]; [cbn; tauto|]. destruct (Nat.eqb_spec n 1) as [->|N2]; [cbn; tauto|tauto].
Qed.
Variable log : A -> A.
Theorem transform_inverse cholesky n x y : shape x = [n; n] ->
  (forall a, log (exp a) = a) ->
  positive_definite A zero add mul exp x = Ok y ->
  shape (cholesky y) = [n; n] ->
  (forall i j, i < n -> j < n -> at_index (cholesky y) [i; j] = factor zero exp (fun i j => at_index x [i; j]) i j) ->
  forall i j, i < n -> j < n ->
  at_index (positive_definite_inv A zero add log cholesky y) [i; j] = if i <? j then zero else at_index x [i; j].
Proof.
  intros S LE P Sc C i j Li Lj. unfold positive_definite_inv, plus, below, diagonal. cbn [at_index last_two rev app].
  destruct (Nat.ltb_spec j i) as [L|L].
  - destruct (Nat.eqb_spec i j); [lia|]. destruct (Nat.ltb_spec i j); [lia|]. rewrite add_zero, C by lia. unfold factor.
    destruct (Nat.ltb_spec j i); [reflexivity|lia].
  - destruct (Nat.eqb_spec i j) as [->|N].
    + destruct (Nat.ltb_spec j j); [lia|]. rewrite zero_add, C by lia. unfold factor. destruct (Nat.ltb_spec j j); [lia|]. rewrite Nat.eqb_refl. apply LE.
    + destruct (Nat.ltb_spec i j); [|lia]. apply add_zero.
Qed.
End Transform.

(** One matrix: the result is torch's, element by element, whatever the arithmetic. *)
Theorem C134_one_matrix : forall (A : Type) (zero : A) (add mul : A -> A -> A) (exp : A -> A),
  (forall a, add a zero = a) -> (forall a, add zero a = a) ->
  forall n x, shape x = [n; n] ->
  exists y, positive_definite A zero add mul exp x = Ok y /\ shape y = [n; n] /\
    forall i j, at_index y [i; j] = product zero add mul exp n (fun i j => at_index x [i; j]) i j.
Proof. exact transform_matrix. Qed.
Print Assumptions C134_one_matrix.
(** The inverse gives the lower triangle back, if [cholesky] gives back the factor of the product. *)
Theorem C134_inverse : forall (A : Type) (zero : A) (add mul : A -> A -> A) (exp log : A -> A),
  (forall a, add a zero = a) -> (forall a, add zero a = a) -> (forall a, log (exp a) = a) ->
  forall cholesky n x y, shape x = [n; n] -> positive_definite A zero add mul exp x = Ok y ->
  (forall m l, shape m = [n; n] -> (forall i j, at_index m [i; j] = product zero add mul exp n l i j) ->
     shape (cholesky m) = [n; n] /\ forall i j, i < n -> j < n -> at_index (cholesky m) [i; j] = factor zero exp l i j) ->
  forall i j, i < n -> j < n ->
  at_index (positive_definite_inv A zero add log cholesky y) [i; j] = if i <? j then zero else at_index x [i; j].
Proof.
  intros A zero add mul exp log AZ ZA LE cholesky n x y S P C.
  destruct (transform_matrix A zero add mul exp AZ ZA n x S) as (y' & P' & Sy & V). rewrite P in P'. injection P' as <-.
  destruct (C y (fun i j => at_index x [i; j]) Sy V) as [Sc Vc].
  apply (transform_inverse A zero add mul exp AZ ZA log cholesky n x y S LE P Sc Vc).
Qed.
Print Assumptions C134_inverse.
(** Expected but not true: batches of matrices, which torch transforms one by one.  Any batch of a
    number of matrices other than their size fails or gets another shape... *)
Theorem C134_batches_refuted : forall (A : Type) (zero : A) (add mul : A -> A -> A) (exp : A -> A) b n x,
  shape x = [b; n; n] -> b <> n ->
  match positive_definite A zero add mul exp x with Ok y => shape y <> shape x | Raise _ => True end.
Proof.
  intros A zero add mul exp b n x S N. pose proof (transform_batch A zero add mul exp b n x S) as H.
  destruct (positive_definite A zero add mul exp x) as [y|]; [|exact I]. destruct H as [_ ->]. rewrite S. intros E. injection E as _ E. congruence.
Qed.
Print Assumptions C134_batches_refuted.
(** ... and one of two 2 x 2 matrices gets other numbers: products of different matrices. *)
Definition pair_of (l : list nat) : Z := match l with [b; i; j] => Z.of_nat (100 * b + 10 * i + j) | _ => 0%Z end.
Theorem C134_numbers_refuted : exists x y : tensor Z, shape x = [2; 2; 2] /\
  positive_definite Z 0%Z Z.add Z.mul (fun a => a) x = Ok y /\ shape y = shape x /\
  at_index y [0; 1; 0] <> product 0%Z Z.add Z.mul (fun a => a) 2 (fun i j => at_index x [0; i; j]) 1 0.
Proof.
  exists (MkTensor [2; 2; 2] pair_of). eexists. split; [reflexivity|]. split; [reflexivity|]. split; [reflexivity|]. vm_compute. discriminate.
Qed.
Print Assumptions C134_numbers_refuted.
Example C134_nonvacuous :
  let x := MkTensor [2; 2] (fun l => match l with [i; j] => Z.of_nat (2 * i + j + 1) | _ => 0%Z end) in
  exists y, positive_definite Z 0%Z Z.add Z.mul (fun a => a) x = Ok y /\
    map (at_index y) [[0; 0]; [0; 1]; [1; 0]; [1; 1]] = [1; 3; 3; 25]%Z /\
  exists y', positive_definite Z 0%Z Z.add Z.mul (fun a => a) (MkTensor [1; 2; 2] pair_of) = Ok y' /\ shape y' = [2; 2; 1] /\
  exists e, positive_definite Z 0%Z Z.add Z.mul (fun a => a) (MkTensor [3; 2; 2] pair_of) = Raise e.
Proof. eexists. split; [reflexivity|]. split; [reflexivity|]. eexists. split; [reflexivity|]. split; [reflexivity|]. eexists. reflexivity. Qed.

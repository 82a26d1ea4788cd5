(** More of the code that runs in the converted program: the transform
    [PositiveDefiniteTransform] (C134).  Definitions only.

    As in Helpers.v, what is modelled is the logic of the code itself.  A tensor is its shape and
    its element at every index. *)
From Verif Require Import PyStr Ast.
Open Scope list_scope.
Open Scope nat_scope.

Record tensor (A : Type) := MkTensor { shape : list nat; at_index : list nat -> A }.
Arguments MkTensor {A}. Arguments shape {A}. Arguments at_index {A}.

(** [x.T] of paddle: all axes in reverse order. *)
Definition reversed {A} (x : tensor A) : tensor A := MkTensor (rev (shape x)) (fun i => at_index x (rev i)).

(** The last two axes: [l = batch ++ [i; j]]. *)
Definition last_two (l : list nat) : option (list nat * nat * nat) :=
  match rev l with j :: i :: b => Some (rev b, i, j) | _ => None end.

(** Broadcasting of the axes before the last two, compared from the last one: equal, or one of them 1, or
    missing.  Both lists are given from the last axis on. *)
Fixpoint broadcast (a b : list nat) : option (list nat) :=
  match a, b with
  | [], l | l, [] => Some l
  | x :: a, y :: b =>
      match broadcast a b with
      | Some r => if Nat.eqb x y then Some (x :: r) else if Nat.eqb x 1 then Some (y :: r) else if Nat.eqb y 1 then Some (x :: r) else None
      | None => None
      end
  end.
(** The index into a tensor whose leading axes [axes] were broadcast; both from the last axis on. *)
Fixpoint own_index (axes index : list nat) : list nat :=
  match axes, index with
  | x :: axes, i :: index => (if Nat.eqb x 1 then 0 else i) :: own_index axes index
  | _, _ => []
  end.

Section Numbers.
  Variable A : Type.
  Variable zero : A.
  Variable add mul : A -> A -> A.
  Variable exp log : A -> A.

  (** The sum a product of matrices forms, in the order of the index. *)
  Fixpoint total (n : nat) (f : nat -> A) : A := match n with 0 => zero | S n => add (total n f) (f n) end.

  (** [a @ b] for tensors of two or more axes. *)
  Definition matmul (a b : tensor A) : res (tensor A) :=
    match last_two (shape a), last_two (shape b) with
    | Some (ba, n, m), Some (bb, m', p) =>
        if Nat.eqb m m' then
          match broadcast (rev ba) (rev bb) with
          | Some r => Ok (MkTensor (rev r ++ [n; p]) (fun index =>
              match last_two index with
              | Some (g, i, j) => total m (fun k => mul (at_index a (rev (own_index (rev ba) (rev g)) ++ [i; k]))
                                                       (at_index b (rev (own_index (rev bb) (rev g)) ++ [k; j])))
              | None => zero
              end))
          | None => Raise "ValueError"
          end
        else Raise "ValueError"
    | _, _ => Raise "ValueError"
    end.

  (** [x.tril(-1)] *)
  Definition below (x : tensor A) : tensor A :=
    MkTensor (shape x) (fun l => match last_two l with Some (_, i, j) => if j <? i then at_index x l else zero | None => zero end).
  (** [x.diagonal(axis1=-2, axis2=-1).f().diag_embed()].  Simplification: for square matrices; of others
      [diag_embed] gives a square, which [+] then mostly refuses. *)
  Definition diagonal (f : A -> A) (x : tensor A) : tensor A :=
    MkTensor (shape x) (fun l => match last_two l with Some (b, i, j) => if Nat.eqb i j then f (at_index x (b ++ [i; i])) else zero | None => zero end).
  (** [a + b] of the same shape *)
  Definition plus (a b : tensor A) : tensor A := MkTensor (shape a) (fun l => add (at_index a l) (at_index b l)).

  (** api_matcher.py:903-905 [PositiveDefiniteTransform.__call__] *)
  Definition lower (x : tensor A) : tensor A := plus (below x) (diagonal exp x).
  Definition positive_definite (x : tensor A) : res (tensor A) := matmul (lower x) (reversed (lower x)).
  (** api_matcher.py:907-909 [PositiveDefiniteTransform.inv]; [cholesky] is [paddle.linalg.cholesky]. *)
  Definition positive_definite_inv (cholesky : tensor A -> tensor A) (y : tensor A) : tensor A :=
    plus (below (cholesky y)) (diagonal log (cholesky y)).
End Numbers.

(** What it means that the stack of enclosing nodes and the stack of scopes are right. *)
From Verif Require Import PyStr PyDict Ast ImportPass Walk BasicPass.

(** ** What "right" means *)

(** A child of the class [k] hangs at the position.  [exact = false]: somewhere in the list
    at that position (after a decorator has removed itself from its list the remaining
    ones have moved). *)
Definition hangs (exact : bool) (parent : node) (p : pos) (k : string) : bool :=
  existsb (fun f => String.eqb (field_name f) (p_field p) &&
                    match f with
                    | One _ c => String.eqb (kind_of c) k
                    | Many _ l =>
                        if exact then match nth_error l (p_index p) with Some c => String.eqb (kind_of c) k | None => false end
                        else existsb (fun c => String.eqb (kind_of c) k) l
                    | Data _ _ => false
                    end) (fields_of parent).
(** Every entry of the stack hangs below the next one, at the recorded position. *)
Fixpoint real_parents (exact : bool) (stack : list frame) : bool :=
  match stack with
  | f :: ((g :: _) as r) => hangs exact (e_node g) (e_pos f) (kind_of (e_node f)) && real_parents exact r
  | _ => true
  end.
(** The scopes around the innermost entry: the entries of the classes [kinds] that open one. *)
Fixpoint enclosing_scopes (kinds : list string) (stack : list frame) : list (list pos) :=
  match stack with
  | [] => []
  | f :: r => if mem_str (kind_of (e_node f)) kinds then map e_pos stack :: enclosing_scopes kinds r else enclosing_scopes kinds r
  end.
Fixpoint paths_eqb (a b : list (list pos)) : bool :=
  match a, b with
  | [], [] => true
  | x :: a', y :: b' => path_eqb x y && paths_eqb a' b'
  | _, _ => false
  end.

Section Checked.
  Context {T : Type}.
  Variable kinds : list string.
  Variable scopes : T -> list (list pos).
  Variable exact : bool.
  Variable pre : node -> list frame -> T -> res (bool * T).
  Variable post : node -> list frame -> T -> res (reply * T).

  (** Before a node is entered no scope is open but those around it; when its visitor
      finishes, its own one is open too. *)
  (** Versions of the visitors that refuse to work with wrong bookkeeping. *)
  Definition checked_pre (n : node) (stack : list frame) (s : T) : res (bool * T) :=
    if real_parents exact stack && paths_eqb (scopes s) (enclosing_scopes kinds (tl stack)) then pre n stack s else Raise "wrong bookkeeping".
  Definition checked_post (n : node) (stack : list frame) (s : T) : res (reply * T) :=
    if real_parents exact stack && paths_eqb (scopes s) (enclosing_scopes kinds stack) then post n stack s else Raise "wrong bookkeeping".
End Checked.

(** A node about to be visited: the stack and the scopes are right and the node hangs
    below the innermost entry, at the position it is visited at. *)
Definition well_placed (kinds : list string) (exact : bool) (open : list (list pos)) (stack : list frame) (n : node) (p : pos) : Prop :=
  real_parents exact stack = true /\ open = enclosing_scopes kinds stack /\
  match stack with g :: _ => hangs exact (e_node g) p (kind_of n) = true | [] => True end.

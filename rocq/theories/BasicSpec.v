(** What the conversion pass is supposed to count. *)
From Coq Require Import ZArith.
From Verif Require Import PyStr PyDict Ast Walk BasicPass.

(** What became of one recognised use of an API. *)
Inductive outcome :=
| Converted (api : string)
| Unsupported (api listed_as : string)
| Misidentified (api : string)
(** Uses of C++ extensions; they are on no list of used APIs. *)
| ConvertedOp
| UnsupportedOp (listed_as : string).

(** The books kept by the pass: recognised uses, converted uses, the list of unsupported
    APIs and the list of used APIs, both with their counts. *)
Record books := MkBooks {
  recognised : Z; converted : Z; not_converted : dict string nat; usage : dict string nat }.
Definition count_one (k : string) (d : dict string nat) : dict string nat :=
  dset String.eqb k (match dget String.eqb k d with Some c => Datatypes.S c | None => 1 end) d.
Definition total (d : dict string nat) : nat := list_sum (map snd d).

(** The effect of one outcome. *)
Definition enter (b : books) (o : outcome) : books :=
  match o with
  | Converted a => MkBooks (recognised b + 1) (converted b + 1) (not_converted b) (count_one a (usage b))
  | Unsupported a k => MkBooks (recognised b + 1) (converted b) (count_one k (not_converted b)) (count_one a (usage b))
  | Misidentified a => MkBooks (recognised b) (converted b) (not_converted b) (ddel String.eqb a (usage b))
  | ConvertedOp => MkBooks (recognised b + 1) (converted b + 1) (not_converted b) (usage b)
  | UnsupportedOp k => MkBooks (recognised b + 1) (converted b) (count_one k (not_converted b)) (usage b)
  end.
Definition enter_all (b : books) (l : list outcome) : books := fold_left enter l b.

(** The books in a state of the pass. *)
Definition usage_counts (d : dict string (string * nat)) : dict string nat :=
  map (fun kv => (fst kv, snd (snd kv))) d.
Definition books_of {M} (s : bst M) : books :=
  MkBooks (torch_count s) (success_count s) (unsupported s) (usage_counts (all_apis s)).

(** The matchers never take back a recognised API. *)
Definition never_misidentifies {M} (e : benv M) : Prop :=
  (forall m st w l w', api_of e m st w <> Ok (Some "misidentify", l, w')) /\
  (forall m n st w l w', attr_nodes e m n st w <> Ok (AMisidentify, l, w')) /\
  (forall m a k st w x l w', call_nodes e m a k st w <> Ok (AMisidentify, x, l, w')) /\
  (forall m f a k st w x l w', class_nodes e m f a k st w <> Ok (AMisidentify, x, l, w')).
(** An outcome that stays on the list of used APIs. *)
Definition stays (o : outcome) : Prop :=
  match o with Converted _ | Unsupported _ _ => True | _ => False end.
(** No C++ extension is involved. *)
Definition no_op (o : outcome) : Prop :=
  match o with ConvertedOp | UnsupportedOp _ => False | _ => True end.

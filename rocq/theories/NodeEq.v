(** [node_eqb] (the comparison of [ast.dump] texts, base.py:143-148) is equality of syntax
    trees. *)
From Verif Require Import PyStr Ast BasicPass.

Section NodeInd.
  Variable P : node -> Prop.
  Definition FieldP (f : field) : Prop :=
    match f with One _ c => P c | Many _ l => Forall P l | Data _ _ => True end.
  Hypothesis HName : forall i, P (Name i).
  Hypothesis HAttr : forall v a, P v -> P (Attribute v a).
  Hypothesis HCall : forall f a k, P f -> Forall P a -> Forall P k -> P (Call f a k).
  Hypothesis HImp : forall l, P (Import l).
  Hypothesis HFrom : forall m l i, P (ImportFrom m l i).
  Hypothesis HOther : forall k fs, Forall FieldP fs -> P (Other k fs).
  Fixpoint node_full_ind (n : node) : P n :=
    let all := fix all (l : list node) : Forall P l :=
      match l with [] => Forall_nil _ | x :: r => Forall_cons _ (node_full_ind x) (all r) end in
    match n with
    | Name i => HName i
    | Attribute v a => HAttr v a (node_full_ind v)
    | Call f a k => HCall f a k (node_full_ind f) (all a) (all k)
    | Import l => HImp l
    | ImportFrom m l i => HFrom m l i
    | Other k fs => HOther k fs
        ((fix fields (l : list field) : Forall FieldP l :=
            match l with
            | [] => Forall_nil _
            | f :: r => Forall_cons _ (match f return FieldP f with
                                       | One _ c => node_full_ind c
                                       | Many _ l => all l
                                       | Data _ _ => Logic.I
                                       end) (fields r)
            end) fs)
    end.
End NodeInd.

(** The local functions of [node_eqb]. *)
Definition nodes_eqb := fix list_eqb (l m : list node) : bool :=
    match l, m with
    | [], [] => true
    | x :: l', y :: m' => node_eqb x y && list_eqb l' m'
    | _, _ => false
    end.
Definition opt_eqb (x y : option string) :=
    match x, y with Some x, Some y => String.eqb x y | None, None => true | _, _ => false end.
Definition names_eqb := fix names_eqb (l m : list alias) : bool :=
    match l, m with
    | [], [] => true
    | x :: l', y :: m' => String.eqb (al_name x) (al_name y) && opt_eqb (al_asname x) (al_asname y) && names_eqb l' m'
    | _, _ => false
    end.
Definition fields_eqb := fix fields_eqb (l m : list field) : bool :=
         match l, m with
         | [], [] => true
         | f :: l', g :: m' =>
             match f, g with
             | One x c, One y d => String.eqb x y && node_eqb c d
             | Many x c, Many y d => String.eqb x y && nodes_eqb c d
             | Data x c, Data y d => String.eqb x y && String.eqb c d
             | _, _ => false
             end && fields_eqb l' m'
         | _, _ => false
         end.
Lemma node_eqb_unfold a b : node_eqb a b =
  match a, b with
  | Name i, Name j => String.eqb i j
  | Attribute v x, Attribute w y => node_eqb v w && String.eqb x y
  | Call f l k, Call f' l' k' => node_eqb f f' && nodes_eqb l l' && nodes_eqb k k'
  | Import l, Import m => names_eqb l m
  | ImportFrom x l i, ImportFrom y m j => opt_eqb x y && names_eqb l m && Nat.eqb i j
  | Other k fs, Other k' fs' => String.eqb k k' && fields_eqb fs fs'
  | _, _ => false
  end.
Proof. destruct a; destruct b; reflexivity. Qed.

Ltac conj := repeat match goal with |- context [?a && ?b = true] => rewrite (andb_true_iff a b) end.
Lemma opt_eqb_eq x y : opt_eqb x y = true <-> x = y.
Proof.
  destruct x, y; cbn; try rewrite String.eqb_eq; split; try discriminate; try congruence; try reflexivity.
Qed.
Lemma names_eqb_eq l : forall m, names_eqb l m = true <-> l = m.
Proof.
  induction l as [|[n a] l IH]; intros [|[n' a'] m]; cbn [names_eqb al_name al_asname]; try (split; [discriminate|discriminate]); try tauto.
  rewrite !andb_true_iff, String.eqb_eq, opt_eqb_eq, IH. split; [intros [[-> ->] ->]; reflexivity|intros [= -> -> ->]; auto].
Qed.
Lemma nodes_eqb_eq l : Forall (fun a => forall b, node_eqb a b = true <-> a = b) l -> forall m, nodes_eqb l m = true <-> l = m.
Proof.
  induction 1 as [|x l Hx _ IH]; intros [|y m]; cbn [nodes_eqb]; try (split; [discriminate|discriminate]); try tauto.
  rewrite andb_true_iff, Hx, IH. split; [intros [-> ->]; reflexivity|intros [= -> ->]; auto].
Qed.
Lemma node_eqb_eq a : forall b, node_eqb a b = true <-> a = b.
Proof.
  induction a as [i|v a IH|f a k IHf IHa IHk|l|m l i|k fs IH] using node_full_ind; intros b; rewrite node_eqb_unfold;
    destruct b as [j|w b|f' a' k'|l'|m' l' j|k' fs']; try (split; [discriminate|discriminate]).
  - rewrite String.eqb_eq. split; congruence.
  - rewrite andb_true_iff, IH, String.eqb_eq. split; [intros [-> ->]; reflexivity|intros [= -> ->]; auto].
  - rewrite !andb_true_iff, IHf, (nodes_eqb_eq _ IHa), (nodes_eqb_eq _ IHk).
    split; [intros [[-> ->] ->]; reflexivity|intros [= -> -> ->]; auto].
  - rewrite names_eqb_eq. split; congruence.
  - rewrite !andb_true_iff, names_eqb_eq, opt_eqb_eq, Nat.eqb_eq.
    split; [intros [[-> ->] ->]; reflexivity|intros [= -> -> ->]; auto].
  - rewrite andb_true_iff, String.eqb_eq.
    assert (F : forall gs, fields_eqb fs gs = true <-> fs = gs).
    { induction IH as [|f fs Hf _ IHs]; intros [|g gs]; cbn [fields_eqb]; try (split; [discriminate|discriminate]); try tauto.
      rewrite andb_true_iff, IHs.
      destruct f as [x c|x c|x c], g as [y d|y d|y d]; cbn in Hf; try (split; [intros [? _]; discriminate|discriminate]).
      - rewrite andb_true_iff, String.eqb_eq, Hf. split; [intros [[-> ->] ->]; reflexivity|intros [= -> -> ->]; auto].
      - rewrite andb_true_iff, String.eqb_eq, (nodes_eqb_eq _ Hf). split; [intros [[-> ->] ->]; reflexivity|intros [= -> -> ->]; auto].
      - rewrite andb_true_iff, !String.eqb_eq. split; [intros [[-> ->] ->]; reflexivity|intros [= -> -> ->]; auto]. }
    rewrite F. split; [intros [-> ->]; reflexivity|intros [= -> ->]; auto].
Qed.
Definition node_dec (a b : node) : {a = b} + {a <> b}.
Proof.
  destruct (node_eqb a b) eqn:E; [left|right].
  - apply node_eqb_eq, E.
  - intros H. apply node_eqb_eq in H. rewrite H in E. discriminate.
Defined.

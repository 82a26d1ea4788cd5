(** Linear-time checks on sorted name lists and their soundness.  Not part of the
    model: only used to prove facts about the shipped tables quickly. *)
From Verif Require Import PyStr.
From Coq Require Import Sorted Lia.

Fixpoint sltb (a b : string) : bool :=
  match a, b with
  | _, EmptyString => false
  | EmptyString, String _ _ => true
  | String x a', String y b' =>
      if Ascii.eqb x y then sltb a' b' else (nat_of_ascii x <? nat_of_ascii y)%nat
  end.
Definition slt (a b : string) : Prop := sltb a b = true.

Lemma nat_of_ascii_inj x y : nat_of_ascii x = nat_of_ascii y -> x = y.
Proof.
  intros H. rewrite <- (ascii_nat_embedding x), <- (ascii_nat_embedding y). congruence.
Qed.

Lemma sltb_irrefl a : sltb a a = false.
Proof. induction a as [|x a IH]; [reflexivity|]. cbn. rewrite Ascii.eqb_refl. exact IH. Qed.

Lemma slt_trans a b c : slt a b -> slt b c -> slt a c.
Proof.
  unfold slt. revert b c. induction a as [|x a IH]; intros [|y b] [|z c]; cbn; try discriminate; auto.
  destruct (Ascii.eqb_spec x y) as [->|N1], (Ascii.eqb_spec y z) as [->|N2].
  - rewrite ?Ascii.eqb_refl. apply IH.
  - intros _ H2. try (destruct (Ascii.eqb_spec y z) as [->|_]; [congruence|]). exact H2.
  - intros H1 _. try (destruct (Ascii.eqb_spec x z) as [->|_]; [congruence|]). exact H1.
  - intros H1 H2. apply Nat.ltb_lt in H1, H2.
    destruct (Ascii.eqb_spec x z) as [->|_]; [lia|]. apply Nat.ltb_lt; lia.
Qed.

Lemma slt_total a b : a <> b -> sltb a b = false -> slt b a.
Proof.
  unfold slt. revert b. induction a as [|x a IH]; intros [|y b]; cbn; try congruence; auto.
  intros N. destruct (Ascii.eqb_spec x y) as [->|NE].
  - rewrite ?Ascii.eqb_refl. intros H. apply IH; [congruence|exact H].
  - intros H. apply Nat.ltb_ge in H.
    destruct (Ascii.eqb_spec y x) as [->|_]; [congruence|]. apply Nat.ltb_lt.
    assert (nat_of_ascii x <> nat_of_ascii y) by (intros E; apply NE, nat_of_ascii_inj, E). lia.
Qed.

(** Strictly sorted. *)
Fixpoint sortedb (l : list string) : bool :=
  match l with
  | a :: (b :: _) as r => sltb a b && sortedb r
  | _ => true
  end.

Lemma sortedb_ok l : sortedb l = true -> StronglySorted slt l.
Proof.
  intros H. apply Sorted_StronglySorted; [exact slt_trans|].
  induction l as [|a [|b r] IH]; [constructor|constructor;constructor|].
  cbn [sortedb] in H. apply andb_true_iff in H. destruct H as [H1 H2].
  constructor; [apply IH, H2|constructor; exact H1].
Qed.

Lemma sorted_NoDup l : StronglySorted slt l -> NoDup l.
Proof.
  induction 1 as [|a l S IH F]; constructor; [|exact IH].
  intros I. rewrite Forall_forall in F. specialize (F _ I). unfold slt in F.
  rewrite sltb_irrefl in F. discriminate.
Qed.

(** Common elements of two sorted lists. *)
Fixpoint common_fuel (fuel : nat) (a b : list string) : list string :=
  match fuel with
  | O => []
  | S f =>
      match a, b with
      | x :: a', y :: b' =>
          if String.eqb x y then x :: common_fuel f a' b'
          else if sltb x y then common_fuel f a' b else common_fuel f a b'
      | _, _ => []
      end
  end.
Definition common (a b : list string) : list string :=
  common_fuel (List.length a + List.length b) a b.

Lemma common_ok a b x :
  StronglySorted slt a -> StronglySorted slt b -> In x a -> In x b -> In x (common a b).
Proof.
  unfold common.
  assert (G : forall fuel a b, (List.length a + List.length b <= fuel)%nat ->
     StronglySorted slt a -> StronglySorted slt b -> In x a -> In x b -> In x (common_fuel fuel a b)).
  { clear a b. induction fuel as [|f IH]; intros a b L Sa Sb Ia Ib.
    - destruct a; [destruct Ia|cbn in L; lia].
    - destruct a as [|p a]; [destruct Ia|]. destruct b as [|q b]; [destruct Ib|].
      cbn [common_fuel].
      pose proof (StronglySorted_inv Sa) as [Sa' Fa]. pose proof (StronglySorted_inv Sb) as [Sb' Fb].
      rewrite Forall_forall in Fa, Fb. cbn [List.length] in L.
      destruct (String.eqb_spec p q) as [->|N].
      + destruct Ia as [->|Ia]; [left; reflexivity|].
        destruct Ib as [->|Ib]; [left; reflexivity|]. right. apply IH; auto; lia.
      + destruct (sltb p q) eqn:E.
        * destruct Ia as [->|Ia].
          -- exfalso. destruct Ib as [->|Ib]; [congruence|].
             pose proof (slt_trans _ _ _ E (Fb _ Ib)) as H. unfold slt in H.
             rewrite sltb_irrefl in H. discriminate.
          -- apply IH; auto. cbn; lia.
        * pose proof (slt_total _ _ N E) as E'.
          destruct Ib as [->|Ib].
          -- exfalso. destruct Ia as [->|Ia]; [congruence|].
             pose proof (slt_trans _ _ _ E' (Fa _ Ia)) as H. unfold slt in H.
             rewrite sltb_irrefl in H. discriminate.
          -- apply IH; auto. cbn; lia. }
  apply G. lia.
Qed.

(** A balanced search tree over a sorted list, for membership. *)
Inductive tree := Leaf | Node (l : tree) (x : string) (r : tree).
Fixpoint tmem (x : string) (t : tree) : bool :=
  match t with
  | Leaf => false
  | Node l y r => if String.eqb x y then true else if sltb x y then tmem x l else tmem x r
  end.
Fixpoint tlist (t : tree) : list string :=
  match t with Leaf => [] | Node l x r => (tlist l ++ x :: tlist r)%list end.
Fixpoint build (depth : nat) (l : list string) : tree * list string :=
  match depth with
  | O => (Leaf, l)
  | S d =>
      let '(a, rest) := build d l in
      match rest with
      | [] => (a, [])
      | x :: rest' => let '(b, rest'') := build d rest' in (Node a x b, rest'')
      end
  end.
Definition tree_of (l : list string) : tree := fst (build 12 l).

Lemma build_list d l t r : build d l = (t, r) -> l = (tlist t ++ r)%list.
Proof.
  revert l t r. induction d as [|d IH]; intros l t r; cbn [build].
  - intros [= <- <-]. reflexivity.
  - destruct (build d l) as [a rest] eqn:E1. apply IH in E1. destruct rest as [|x rest'].
    + intros [= <- <-]. exact E1.
    + destruct (build d rest') as [b rest''] eqn:E2. apply IH in E2. intros [= <- <-].
      cbn [tlist]. rewrite E1, E2, <- app_assoc. reflexivity.
Qed.
Lemma tmem_list x t : tmem x t = true -> In x (tlist t).
Proof.
  induction t as [|l IHl y r IHr]; cbn; [discriminate|].
  destruct (String.eqb_spec x y) as [->|N]; intros H; apply in_app_iff; [right; left; reflexivity|].
  destruct (sltb x y); [left; auto|right; right; auto].
Qed.
Lemma tree_of_ok x l : tmem x (tree_of l) = true -> In x l.
Proof.
  unfold tree_of. destruct (build 12 l) as [t r] eqn:E. cbn. intros H.
  rewrite (build_list _ _ _ _ E). apply in_app_iff. left. apply tmem_list, H.
Qed.

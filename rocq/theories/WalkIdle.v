(** A traversal whose visitors find nothing to do returns the tree as it is. *)
From Verif Require Import PyStr Ast AstFacts ImportPass ImportSpec ImportFacts Walk WalkBridge.
From Coq Require Import Lia.

Section Idle.
  Context {T : Type}.
  Variable pre : node -> list frame -> T -> res (bool * T).
  Variable again : node -> list frame -> T -> bool.
  Variable post : node -> list frame -> T -> res (reply * T).
  (** [calm parent n]: nothing is done to a node with this parent. *)
  Variable calm : node -> node -> Prop.
  Variable idle : T -> Prop.
  Hypothesis one_visit : forall n p st s,
    match st with g :: _ => calm (e_node g) n | [] => exists k fs, n = Other k fs /\ forall p, calm p n end ->
    idle s ->
    exists go s1, pre n (MkFrame n p :: st) s = Ok (go, s1) /\ idle s1 /\
      post n (MkFrame n p :: st) s1 = Ok (Reply (VNode n), s).
  Notation W d := (walk pre again post d).
  Definition calm_below (n : node) : Prop := forall m c, In m (nodes n) -> In c (children m) -> calm m c.
  Definition still (d : nat) (n : node) : Prop := forall p st s,
    match st with g :: _ => calm (e_node g) n | [] => exists k fs, n = Other k fs /\ forall p, calm p n end ->
    calm_below n -> idle s -> W d n p (st, s) = Ok (Reply (VNode n), (st, s)).

  Lemma calm_child n c : In c (children n) -> calm_below n -> calm n c /\ calm_below c.
  Proof.
    intros I C. split; [apply C; [rewrite nodes_children; left; reflexivity|exact I]|].
    intros m x Hm Hx. apply C; [eapply child_nodes; eassumption|exact Hx].
  Qed.
  Lemma still_under d x parent q p st s : still d x -> calm parent x -> calm_below x -> idle s ->
    W d x q (MkFrame parent p :: st, s) = Ok (Reply (VNode x), (MkFrame parent p :: st, s)).
  Proof. intros A B C I. apply A; assumption. Qed.
  Lemma still_list d nm parent p st s : idle s -> forall l i,
    (forall x, In x l -> still d x /\ calm parent x /\ calm_below x) ->
    walk_list (W d) nm l i (MkFrame parent p :: st, s) = Ok (l, (MkFrame parent p :: st, s)).
  Proof.
    intros I. induction l as [|x l IH]; intros i H; [reflexivity|]. cbn [walk_list].
    destruct (H x (or_introl eq_refl)) as [A [B C]]. unfold wstate in *. rewrite (still_under _ _ _ _ _ _ _ A B C I). cbn [bind].
    rewrite IH; [reflexivity|]. intros y Hy. apply H. right. exact Hy.
  Qed.
  Lemma still_fields d k p st s : idle s -> forall todo done,
    (forall x, In x (children (Other k todo)) -> still d x /\ calm (Other k (done ++ todo)) x /\ calm_below x) ->
    walk_fields (W d) k done todo (MkFrame (Other k (done ++ todo)) p :: st, s)
    = Ok (Other k (done ++ todo), (MkFrame (Other k (done ++ todo)) p :: st, s)).
  Proof.
    intros I. induction todo as [|f todo IH]; intros done H; [cbn [walk_fields]; rewrite app_nil_r; reflexivity|].
    assert (R : forall x : list field, (done ++ f :: todo)%list = ((done ++ [f]) ++ todo)%list) by (intros; rewrite <- app_assoc; reflexivity).
    specialize (IH (done ++ [f])%list). rewrite <- (R []) in IH.
    assert (IH' : walk_fields (W d) k (done ++ [f])%list todo (MkFrame (Other k (done ++ f :: todo)) p :: st, s)
                  = Ok (Other k (done ++ f :: todo), (MkFrame (Other k (done ++ f :: todo)) p :: st, s))).
    { apply IH. intros x Hx. apply H. rewrite children_fields in *. cbn [flat_map]. apply in_or_app. right. exact Hx. }
    clear IH. cbn [walk_fields]. destruct f as [nm c|nm l|nm x].
    - destruct (H c) as [A [B C]]. { rewrite children_fields. left. reflexivity. }
      unfold wstate in *. rewrite (still_under _ _ _ _ _ _ _ A B C I). cbn [bind value_of set_field fst snd set_top e_pos].
      rewrite <- (R []). exact IH'.
    - unfold wstate in *. rewrite still_list; [|exact I|].
      + cbn [bind fst snd set_top e_pos]. rewrite <- (R []). exact IH'.
      + intros x Hx. apply H. rewrite children_fields. cbn [flat_map]. apply in_or_app. left. exact Hx.
    - exact IH'.
  Qed.
  Lemma still_children d n p st s : (forall c, In c (children n) -> still d c) -> calm_below n -> idle s ->
    walk_children (W d) n (MkFrame n p :: st, s) = Ok (n, (MkFrame n p :: st, s)).
  Proof.
    intros H C I.
    assert (A : forall c, In c (children n) -> still d c /\ calm n c /\ calm_below c)
      by (intros c Hc; destruct (calm_child n c Hc C); auto).
    clear H C. destruct n as [i|v a|f a k|l|m l i|k fs]; cbn [walk_children]; try reflexivity; unfold wstate in *.
    - destruct (A v) as [A1 [B C]]; [left; reflexivity|]. rewrite (still_under _ _ _ _ _ _ _ A1 B C I). reflexivity.
    - destruct (A f) as [A1 [B C]]; [left; reflexivity|]. rewrite (still_under _ _ _ _ _ _ _ A1 B C I). cbn [bind value_of call_with fst snd set_top e_pos].
      rewrite still_list; [|exact I|]. 2:{ intros x Hx. apply A. cbn [children]. right. apply in_or_app. left. exact Hx. }
      cbn [bind fst snd set_top e_pos].
      rewrite still_list; [reflexivity|exact I|]. intros x Hx. apply A. cbn [children]. right. apply in_or_app. right. exact Hx.
    - apply (still_fields d k p st s I fs []). exact A.
  Qed.
  Lemma depth_children n c d : In c (children n) -> depth n <= S d -> depth c <= d.
  Proof.
    assert (L : forall l x, In x l -> depth x <= deepest l).
    { induction l as [|y l IH]; intros x Hx; [contradiction|]. cbn [deepest fold_right]. destruct Hx as [<-|Hx]; [lia|]. specialize (IH x Hx). unfold deepest in IH. lia. }
    intros Hc. rewrite depth_eq. destruct n as [i|v a|f a k|l|m l i|k fs]; try contradiction.
    - destruct Hc as [<-|[]]. lia.
    - cbn [children] in Hc. destruct Hc as [<-|Hc]; [lia|]. apply in_app_or in Hc as [Hc|Hc]; apply L in Hc; lia.
    - rewrite children_fields in Hc. intros D. assert (E : depth c <= deepest_field fs); [|lia]. clear D.
      induction fs as [|g fs IH]; [contradiction|]. cbn [flat_map] in Hc. apply in_app_or in Hc.
      destruct g as [nm x|nm l|nm x]; cbn [field_nodes deepest_field fold_right] in *; fold (deepest_field fs).
      + destruct Hc as [[<-|[]]|Hc]; [lia|]. specialize (IH Hc). lia.
      + destruct Hc as [Hc|Hc]; [apply L in Hc; lia|]. specialize (IH Hc). lia.
      + destruct Hc as [[]|Hc]. apply IH, Hc.
  Qed.
  Theorem walk_idle n : forall d, depth n <= d -> still d n.
  Proof.
    intros d. revert n. induction d as [|d IH]; intros n D; [rewrite depth_eq in D; lia|].
    intros p st s Hc C I. cbn [walk fst snd]. destruct (one_visit n p st s Hc I) as [go [s1 [E1 [I1 E2]]]].
    unfold wstate in *. rewrite E1. cbn [bind].
    assert (S : walk_children (W d) n (MkFrame n p :: st, s1) = Ok (n, (MkFrame n p :: st, s1))).
    { apply still_children; auto. intros c Hi. apply IH. eapply depth_children; eassumption. }
    unfold wstate in *.
    destruct go; rewrite ?S; cbn [bind fst snd]; destruct (again n (MkFrame n p :: st) s1); rewrite ?S; cbn [bind fst snd]; rewrite E2; reflexivity.
  Qed.
End Idle.

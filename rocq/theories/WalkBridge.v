(** The traversal of module [Ast] (import pass) is the traversal of module [Walk] without
    second visits, as long as the recursion limit exceeds the depth of the tree. *)
From Verif Require Import PyStr Ast AstFacts Walk.
From Coq Require Import Lia.

(** Nesting depth of a syntax tree. *)
Fixpoint depth (n : node) : nat :=
  let deepest := fix deepest (l : list node) : nat :=
    match l with [] => 0 | x :: r => Nat.max (depth x) (deepest r) end in
  S (match n with
     | Attribute v _ => depth v
     | Call f a k => Nat.max (depth f) (Nat.max (deepest a) (deepest k))
     | Other _ fs =>
         (fix over (fs : list field) : nat :=
            match fs with
            | [] => 0
            | One _ c :: r => Nat.max (depth c) (over r)
            | Many _ l :: r => Nat.max (deepest l) (over r)
            | Data _ _ :: r => over r
            end) fs
     | _ => 0
     end).
Definition deepest (l : list node) : nat := fold_right (fun x m => Nat.max (depth x) m) 0 l.
Definition deepest_field (fs : list field) : nat :=
  fold_right (fun f m => match f with
                         | One _ c => Nat.max (depth c) m
                         | Many _ l => Nat.max (deepest l) m
                         | Data _ _ => m
                         end) 0 fs.
Lemma depth_eq n : depth n = S (match n with
                                | Attribute v _ => depth v
                                | Call f a k => Nat.max (depth f) (Nat.max (deepest a) (deepest k))
                                | Other _ fs => deepest_field fs
                                | _ => 0
                                end).
Proof.
  destruct n as [| |f a k| | |k fs]; try reflexivity.
Qed.

Section Bridge.
  Context {T : Type}.
  Variable pre : node -> list frame -> T -> res (bool * T).
  Variable post : node -> list frame -> T -> res (visited * T).
  Definition never (n : node) (st : list frame) (u : T) : bool := false.
  Definition as_reply (n : node) (st : list frame) (u : T) : res (reply * T) :=
    let* (v, u) := post n st u in Ok (Reply v, u).
  Definition replied (r : res (visited * (list frame * T))) : res (reply * (list frame * T)) :=
    let* (v, st) := r in Ok (Reply v, st).
  Notation W d := (walk pre never as_reply d).

  Definition bridged (d : nat) (n : node) : Prop := forall p st, W d n p st = replied (visit pre post n p st).
  Lemma bridge_list d nm l : Forall (bridged d) l -> forall i st,
    walk_list (W d) nm l i st = visit_list pre post nm l i st.
  Proof.
    induction 1 as [|x l B _ IH]; intros i st; [reflexivity|]. rewrite visit_list_cons. cbn [walk_list].
    rewrite B. unfold replied. destruct (visit pre post x (At nm i) st) as [[v st1]|]; [|reflexivity]. cbn [bind].
    rewrite IH. reflexivity.
  Qed.
  Lemma bridge_fields d k fs : Forall (field_all (bridged d)) fs -> forall done st,
    walk_fields (W d) k done fs st = visit_fields pre post k done fs st.
  Proof.
    induction 1 as [|f fs B _ IH]; intros done st; [reflexivity|]. rewrite visit_fields_cons. cbn [walk_fields].
    destruct f as [nm c|nm l|nm x].
    - rewrite B. unfold replied. destruct (visit pre post c (At nm 0) st) as [[v st1]|]; [|reflexivity]. cbn [bind value_of]. apply IH.
    - rewrite (bridge_list d nm l B). destruct (visit_list pre post nm l 0 st) as [[l' st1]|]; [|reflexivity]. cbn [bind]. apply IH.
    - apply IH.
  Qed.
  Lemma bridge_step d n :
    match n with
    | Attribute v _ => bridged d v
    | Call f a k => bridged d f /\ Forall (bridged d) a /\ Forall (bridged d) k
    | Other _ fs => Forall (field_all (bridged d)) fs
    | _ => True
    end -> bridged (S d) n.
  Proof.
    intros B p st. rewrite visit_eq. cbn [walk]. cbv zeta.
    destruct (pre n (MkFrame n p :: fst st) (snd st)) as [[go u]|]; [|reflexivity]. cbn [bind].
    assert (E : (if go then walk_children (W d) n (MkFrame n p :: fst st, u) else Ok (n, (MkFrame n p :: fst st, u)))
                = (if go then generic_visit pre post n (MkFrame n p :: fst st, u) else Ok (n, (MkFrame n p :: fst st, u)))).
    { destruct go; [|reflexivity]. destruct n as [i|v a|f a k|l|m l i|k fs]; cbn [walk_children generic_visit]; try reflexivity.
      - rewrite B. unfold replied. destruct (visit pre post v _ _) as [[r st1]|]; [|reflexivity]. cbn [bind value_of].
        destruct r; reflexivity.
      - destruct B as [Bf [Ba Bk]]. rewrite Bf. unfold replied.
        destruct (visit pre post f _ _) as [[r st1]|]; [|reflexivity]. cbn [bind value_of].
        rewrite (bridge_list d "args" a Ba).
        destruct r; cbn [call_with]; cbv zeta;
          (destruct (visit_list pre post "args" a 0 _) as [[a' st2]|]; [|reflexivity]); cbn [bind];
          rewrite (bridge_list d "keywords" k Bk); reflexivity.
      - apply (bridge_fields d k fs B). }
    unfold wstate in *. rewrite E. clear E.
    destruct (if go then generic_visit pre post n _ else _) as [[n1 st1]|]; [|reflexivity]. cbn [bind never].
    unfold as_reply, replied. destruct (post n1 (fst st1) (snd st1)) as [[v u1]|]; reflexivity.
  Qed.
  Lemma deepest_forall d l : Forall (fun n => forall d, depth n <= d -> bridged d n) l -> deepest l <= d -> Forall (bridged d) l.
  Proof.
    induction 1 as [|x l B _ IH]; intros L; constructor; cbn [deepest fold_right] in L.
    - apply B. lia.
    - apply IH. unfold deepest. lia.
  Qed.
  Theorem walk_is_visit n : forall d, depth n <= d -> bridged d n.
  Proof.
    induction n as [i|v a IH|f a k IHf IHa IHk|l|m l i|k fs IH] using node_ind2; intros [|d] L; rewrite depth_eq in L;
      try lia; apply bridge_step; auto.
    - apply IH. lia.
    - split; [apply IHf; lia|]. split; apply deepest_forall; auto; lia.
    - assert (L' : deepest_field fs <= d) by lia. clear L. induction IH as [|f fs B _ IH']; constructor; cbn [deepest_field fold_right] in L'.
      + destruct f as [nm c|nm l|nm x]; cbn [field_all] in *; [apply B; lia|apply deepest_forall; [exact B|lia]|exact I].
      + apply IH'. unfold deepest_field. destruct f; lia.
  Qed.
End Bridge.

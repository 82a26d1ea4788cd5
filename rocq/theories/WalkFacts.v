(** General facts about the traversal of module [Walk]. *)
From Verif Require Import PyStr Ast AstFacts Walk.
From Coq Require Import Lia.

(** ** Induction on a successful walk *)
Section Induct.
  Context {S : Type}.
  Variable P : node -> pos -> list frame -> S -> reply -> S -> Prop.

  Inductive wl (nm : string) (st : list frame) : nat -> list node -> S -> list node -> S -> Prop :=
  | wl_nil i u : wl nm st i [] u [] u
  | wl_cons i x l u v u1 rest u2 :
      P x (At nm i) st u (Reply v) u1 -> wl nm st (1 + i) l u1 rest u2 ->
      wl nm st i (x :: l) u (spliced v ++ rest) u2
  | wl_last i x u u1 : P x (At nm i) st u Unlisted u1 -> wl nm st i [x] u [] u1
  | wl_skip i x y l u u1 rest u2 :
      P x (At nm i) st u Unlisted u1 -> wl nm st (1 + i) l u1 rest u2 ->
      wl nm st i (x :: y :: l) u rest u2.

  Inductive wf (k : string) (p : pos) (st : list frame) : list field -> list field -> S -> list field -> S -> Prop :=
  | wf_nil done u : wf k p st done [] u done u
  | wf_data done nm x todo u fs u' :
      wf k p st (done ++ [Data nm x]) todo u fs u' ->
      wf k p st done (Data nm x :: todo) u fs u'
  | wf_one done nm c todo u r u1 fs u' :
      P c (At nm 0) (MkFrame (Other k (done ++ One nm c :: todo)) p :: st) u r u1 ->
      wf k p st (done ++ set_field nm (value_of r)) todo u1 fs u' ->
      wf k p st done (One nm c :: todo) u fs u'
  | wf_many done nm l todo u l' u1 fs u' :
      wl nm (MkFrame (Other k (done ++ Many nm l :: todo)) p :: st) 0 l u l' u1 ->
      wf k p st (done ++ [Many nm l']) todo u1 fs u' ->
      wf k p st done (Many nm l :: todo) u fs u'.

  (** What [generic_visit] does to a node. *)
  Inductive wc (p : pos) (st : list frame) : node -> S -> node -> S -> Prop :=
  | wc_name i u : wc p st (Name i) u (Name i) u
  | wc_import l u : wc p st (Import l) u (Import l) u
  | wc_from m l i u : wc p st (ImportFrom m l i) u (ImportFrom m l i) u
  | wc_attr v a u r u1 :
      P v (At "value" 0) (MkFrame (Attribute v a) p :: st) u r u1 ->
      wc p st (Attribute v a) u (attr_with (value_of r) a) u1
  | wc_call f a k u r u1 a' u2 k' u3 :
      P f (At "func" 0) (MkFrame (Call f a k) p :: st) u r u1 ->
      wl "args" (MkFrame (call_with (value_of r) a k) p :: st) 0 a u1 a' u2 ->
      wl "keywords" (MkFrame (call_with (value_of r) a' k) p :: st) 0 k u2 k' u3 ->
      wc p st (Call f a k) u (call_with (value_of r) a' k') u3
  | wc_other k fs u fs' u' :
      wf k p st [] fs u fs' u' -> wc p st (Other k fs) u (Other k fs') u'.

  Section Step.
    Variable V : walker (S := S).
    Hypothesis HV : forall n p st u r st' u', V n p (st, u) = Ok (r, (st', u')) -> st' = st /\ P n p st u r u'.

    Lemma walk_list_wl nm : forall l i st u l' st' u',
      walk_list V nm l i (st, u) = Ok (l', (st', u')) -> st' = st /\ wl nm st i l u l' u'.
    Proof.
      fix IH 1. intros [|x l] i st u l' st' u' E; cbn [walk_list] in E.
      - injection E as <- <- <-. split; constructor.
      - destruct (V x (At nm i) (st, u)) as [[r [st1 u1]]|] eqn:E1; [|discriminate]. cbn [bind] in E.
        apply HV in E1 as [-> P1]. destruct r as [v|].
        + destruct (walk_list V nm l (1 + i) (st, u1)) as [[rest [st2 u2]]|] eqn:E2; [|discriminate].
          cbn [bind] in E. injection E as <- <- <-. apply IH in E2 as [-> P2]. split; [reflexivity|].
          econstructor; eassumption.
        + destruct l as [|y l].
          * injection E as <- <- <-. split; [reflexivity|]. apply wl_last, P1.
          * apply IH in E as [-> P2]. split; [reflexivity|]. eapply wl_skip; eassumption.
    Qed.

    Lemma walk_fields_wf k : forall todo done p st u n' st' u',
      walk_fields V k done todo (MkFrame (Other k (done ++ todo)) p :: st, u) = Ok (n', (st', u')) ->
      exists fs', n' = Other k fs' /\ st' = MkFrame n' p :: st /\ wf k p st done todo u fs' u'.
    Proof.
      induction todo as [|f todo IH]; intros done p st u n' st' u' E; cbn [walk_fields] in E.
      - injection E as <- <- <-. exists done. rewrite app_nil_r. repeat split; constructor.
      - destruct f as [nm c|nm l|nm x].
        + match type of E with context [V c (At nm 0) (?s, u)] => set (stk := s) in E end.
          destruct (V c (At nm 0) (stk, u)) as [[r [st1 u1]]|] eqn:E1; [|discriminate]. cbn [bind] in E.
          apply HV in E1 as [-> R1]. subst stk. cbn [fst snd set_top e_pos] in E.
          apply IH in E as (fs' & -> & -> & I). exists fs'. repeat split. econstructor; eassumption.
        + match type of E with context [walk_list V nm l 0 (?s, u)] => set (stk := s) in E end.
          destruct (walk_list V nm l 0 (stk, u)) as [[l' [st1 u1]]|] eqn:E1; [|discriminate]. cbn [bind] in E.
          apply walk_list_wl in E1 as [-> R1]. subst stk. cbn [fst snd set_top e_pos] in E.
          apply IH in E as (fs' & -> & -> & I). exists fs'. repeat split. econstructor; eassumption.
        + replace (done ++ Data nm x :: todo)%list with ((done ++ [Data nm x]) ++ todo)%list in E
            by (rewrite <- app_assoc; reflexivity).
          apply IH in E as (fs' & -> & -> & I). exists fs'. repeat split. econstructor; eassumption.
    Qed.

    Lemma walk_children_wc n p st u n' st' u' :
      walk_children V n (MkFrame n p :: st, u) = Ok (n', (st', u')) ->
      st' = MkFrame n' p :: st /\ wc p st n u n' u'.
    Proof.
      intros E. destruct n as [i|v a|f a k|l|m l i|k fs]; cbn [walk_children] in E;
        try (injection E as <- <- <-; split; constructor; fail).
      - match type of E with context [V v _ (?s, u)] => set (stk := s) in E end.
        destruct (V v (At "value" 0) (stk, u)) as [[r [st1 u1]]|] eqn:E1; [|discriminate].
        cbn [bind] in E. apply HV in E1 as [-> R1]. subst stk. injection E as <- <- <-. cbn [fst set_top e_pos].
        split; [reflexivity|]. exact (wc_attr p st v a u r u1 R1).
      - match type of E with context [V f _ (?s, u)] => set (stk := s) in E end.
        destruct (V f (At "func" 0) (stk, u)) as [[r [st1 u1]]|] eqn:E1; [|discriminate].
        cbn [bind] in E. apply HV in E1 as [-> R1]. cbn [fst snd] in E. unfold stk in E. cbn [set_top e_pos] in E.
        match type of E with context [walk_list _ "args" a 0 (?x, u1)] => set (s1 := x) in E end.
        destruct (walk_list V "args" a 0 (s1, u1)) as [[a' [st2 u2]]|] eqn:E2; [|discriminate].
        cbn [bind fst snd] in E. apply walk_list_wl in E2 as [-> R2]. unfold s1 in E. cbn [set_top e_pos] in E.
        match type of E with context [walk_list _ "keywords" k 0 (?x, u2)] => set (s2 := x) in E end.
        destruct (walk_list V "keywords" k 0 (s2, u2)) as [[k' [st3 u3]]|] eqn:E3; [|discriminate].
        cbn [bind fst snd] in E. apply walk_list_wl in E3 as [-> R3]. unfold s2 in E. cbn [set_top e_pos] in E.
        injection E as <- <- <-. split; [reflexivity|]. econstructor; [exact R1|exact R2|exact R3].
      - apply (walk_fields_wf k fs []) in E as (fs' & -> & -> & I). split; [reflexivity|]. constructor. exact I.
    Qed.
  End Step.

  Variable pre : node -> list frame -> S -> res (bool * S).
  Variable again : node -> list frame -> S -> bool.
  Variable post : node -> list frame -> S -> res (reply * S).
  Hypothesis Hvisit : forall n p st u go u1 n1 u2 n2 u3 r u4,
    pre n (MkFrame n p :: st) u = Ok (go, u1) ->
    (if go : bool then wc p st n u1 n1 u2 else n1 = n /\ u2 = u1) ->
    (if again n1 (MkFrame n1 p :: st) u2 then wc p st n1 u2 n2 u3 else n2 = n1 /\ u3 = u2) ->
    post n2 (MkFrame n2 p :: st) u3 = Ok (r, u4) ->
    P n p st u r u4.

  Theorem walk_sound d : forall n p st u r st' u',
    walk pre again post d n p (st, u) = Ok (r, (st', u')) -> st' = st /\ P n p st u r u'.
  Proof.
    induction d as [|d IH]; intros n p st u r st' u' E; [discriminate|]. cbn [walk fst snd] in E.
    destruct (pre n (MkFrame n p :: st) u) as [[go u1]|] eqn:E1; [|discriminate]. cbn [bind] in E.
    assert (A : exists n1 u2, (if go then walk_children (walk pre again post d) n (MkFrame n p :: st, u1)
                               else Ok (n, (MkFrame n p :: st, u1))) = Ok (n1, (MkFrame n1 p :: st, u2))
              /\ (if go : bool then wc p st n u1 n1 u2 else n1 = n /\ u2 = u1)).
    { destruct go; [|eauto].
      destruct (walk_children (walk pre again post d) n (MkFrame n p :: st, u1)) as [[n1 [st1 u2]]|] eqn:E2; [|discriminate].
      apply (walk_children_wc _ IH) in E2 as [-> W]. eauto. }
    destruct A as (n1 & u2 & EA & W1). rewrite EA in E. cbn [bind fst snd] in E.
    assert (A : exists n2 u3, (if again n1 (MkFrame n1 p :: st) u2 then walk_children (walk pre again post d) n1 (MkFrame n1 p :: st, u2)
                               else Ok (n1, (MkFrame n1 p :: st, u2))) = Ok (n2, (MkFrame n2 p :: st, u3))
              /\ (if again n1 (MkFrame n1 p :: st) u2 then wc p st n1 u2 n2 u3 else n2 = n1 /\ u3 = u2)).
    { destruct (again n1 (MkFrame n1 p :: st) u2); [|eauto].
      destruct (walk_children (walk pre again post d) n1 (MkFrame n1 p :: st, u2)) as [[n2 [st2 u3]]|] eqn:E2; [|discriminate].
      apply (walk_children_wc _ IH) in E2 as [-> W]. eauto. }
    destruct A as (n2 & u3 & EB & W2). unfold wstate in *. rewrite EB in E. cbn [bind fst snd tl] in E.
    destruct (post n2 (MkFrame n2 p :: st) u3) as [[w u4]|] eqn:E3; [|discriminate]. cbn [bind] in E.
    injection E as <- <- <-. split; [reflexivity|]. eapply Hvisit; eassumption.
  Qed.
End Induct.

(** ** Relations between states *)
Section Relation.
  Context {S : Type}.
  Variable R : S -> S -> Prop.
  Hypothesis Rrefl : forall u, R u u.
  Hypothesis Rtrans : forall u v w, R u v -> R v w -> R u w.
  Let P (n : node) (p : pos) (st : list frame) (u : S) (r : reply) (u' : S) := R u u'.
  Lemma wl_rel nm st i l u l' u' : wl P nm st i l u l' u' -> R u u'.
  Proof. induction 1; eauto. Qed.
  Lemma wf_rel k p st done todo u fs u' : wf P k p st done todo u fs u' -> R u u'.
  Proof. induction 1; eauto using wl_rel. Qed.
  Lemma wc_rel p st n u n' u' : wc P p st n u n' u' -> R u u'.
  Proof.
    destruct 1; eauto using wf_rel.
    eapply Rtrans; [eassumption|]. eapply Rtrans; eapply wl_rel; eassumption.
  Qed.
  Variable pre : node -> list frame -> S -> res (bool * S).
  Variable again : node -> list frame -> S -> bool.
  Variable post : node -> list frame -> S -> res (reply * S).
  Hypothesis Rpre : forall n st u go u', pre n st u = Ok (go, u') -> R u u'.
  Hypothesis Rpost : forall n st u r u', post n st u = Ok (r, u') -> R u u'.
  Theorem walk_rel d n p st u r st' u' :
    walk pre again post d n p (st, u) = Ok (r, (st', u')) -> R u u'.
  Proof.
    intros E. apply (walk_sound P pre again post) in E as [_ E]; [exact E|].
    clear - Rrefl Rtrans Rpre Rpost. intros n p st u go u1 n1 u2 n2 u3 r u4 E1 W1 W2 E2.
    apply Rpre in E1. apply Rpost in E2.
    assert (R u1 u2) by (destruct go; [eapply wc_rel; exact W1|destruct W1 as [_ ->]; auto]).
    assert (R u2 u3) by (destruct (again _ _ _); [eapply wc_rel; exact W2|destruct W2 as [_ ->]; auto]).
    unfold P. eauto.
  Qed.
End Relation.

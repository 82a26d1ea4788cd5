(** Induction on trees and general facts about the visitor. *)
From Verif Require Import PyStr Ast.
From Coq Require Import Lia.

(** ** Induction *)
Definition field_all (P : node -> Prop) (f : field) : Prop :=
  match f with One _ n => P n | Many _ l => Forall P l | Data _ _ => True end.

Section Induction.
  Variable P : node -> Prop.
  Hypothesis HName : forall i, P (Name i).
  Hypothesis HAttribute : forall v a, P v -> P (Attribute v a).
  Hypothesis HCall : forall f a k, P f -> Forall P a -> Forall P k -> P (Call f a k).
  Hypothesis HImport : forall l, P (Import l).
  Hypothesis HImportFrom : forall m l n, P (ImportFrom m l n).
  Hypothesis HOther : forall k fs, Forall (field_all P) fs -> P (Other k fs).
  Fixpoint node_ind2 (n : node) : P n :=
    let all := fix all (l : list node) : Forall P l :=
      match l with [] => Forall_nil _ | x :: r => Forall_cons _ (node_ind2 x) (all r) end in
    match n with
    | Name i => HName i
    | Attribute v a => HAttribute v a (node_ind2 v)
    | Call f a k => HCall f a k (node_ind2 f) (all a) (all k)
    | Import l => HImport l
    | ImportFrom m l i => HImportFrom m l i
    | Other k fs =>
        HOther k fs ((fix go (fs : list field) : Forall (field_all P) fs :=
          match fs with
          | [] => Forall_nil _
          | f :: r =>
              Forall_cons f (match f return field_all P f with
                             | One _ c => node_ind2 c
                             | Many _ l => all l
                             | Data _ _ => I
                             end) (go r)
          end) fs)
    end.
End Induction.

(** ** The visitor, unfolded *)
Section Facts.
  Context {S : Type}.
  Variable pre : node -> list frame -> S -> res (bool * S).
  Variable post : node -> list frame -> S -> res (visited * S).
  Notation state := (list frame * S)%type.

  Definition visit_list (nm : string) :=
    fix go (l : list node) (i : nat) (st : state) : res (list node * state) :=
    match l with
    | [] => Ok ([], st)
    | x :: l' =>
        let* (r, st') := visit pre post x (At nm i) st in
        let* (rest, st'') := go l' (1 + i) st' in
        Ok ((spliced r ++ rest)%list, st'')
    end.
  Definition visit_fields (k : string) :=
    fix go (done todo : list field) (st : state) {struct todo} : res (node * state) :=
    match todo with
    | [] => Ok (Other k done, st)
    | Data nm x :: r => go (done ++ [Data nm x])%list r st
    | One nm c :: r =>
        let* (v, st1) := visit pre post c (At nm 0) st in
        let done' := (done ++ set_field nm v)%list in
        go done' r (set_top (Other k (done' ++ r)) (fst st1), snd st1)
    | Many nm l :: r =>
        let* (l', st1) := visit_list nm l 0 st in
        let done' := (done ++ [Many nm l'])%list in
        go done' r (set_top (Other k (done' ++ r)) (fst st1), snd st1)
    end.
  Lemma visit_list_cons nm x l i st :
    visit_list nm (x :: l) i st =
    let* (r, st') := visit pre post x (At nm i) st in
    let* (rest, st'') := visit_list nm l (1 + i) st' in
    Ok ((spliced r ++ rest)%list, st'').
  Proof. reflexivity. Qed.
  Lemma visit_list_nil nm i st : visit_list nm [] i st = Ok ([], st).
  Proof. reflexivity. Qed.
  Lemma visit_fields_cons k done f r st :
    visit_fields k done (f :: r) st =
    match f with
    | Data nm x => visit_fields k (done ++ [Data nm x])%list r st
    | One nm c =>
        let* (v, st1) := visit pre post c (At nm 0) st in
        let done' := (done ++ set_field nm v)%list in
        visit_fields k done' r (set_top (Other k (done' ++ r)) (fst st1), snd st1)
    | Many nm l =>
        let* (l', st1) := visit_list nm l 0 st in
        let done' := (done ++ [Many nm l'])%list in
        visit_fields k done' r (set_top (Other k (done' ++ r)) (fst st1), snd st1)
    end.
  Proof. destruct f; reflexivity. Qed.
  Lemma visit_fields_nil k done st : visit_fields k done [] st = Ok (Other k done, st).
  Proof. reflexivity. Qed.
  Definition generic_visit (n : node) (st : state) : res (node * state) :=
    match n with
    | Attribute v a =>
        let* (r, st1) := visit pre post v (At "value" 0) st in
        let n' := match r with
                  | VNode v' => Attribute v' a
                  | _ => Other "Attribute" (set_field "value" r ++ [Data "attr" a])
                  end in
        Ok (n', (set_top n' (fst st1), snd st1))
    | Call f args kws =>
        let* (r, st1) := visit pre post f (At "func" 0) st in
        let n1 a k := match r with
                      | VNode f' => Call f' a k
                      | _ => Other "Call" (set_field "func" r ++ [Many "args" a; Many "keywords" k])
                      end in
        let st1 := (set_top (n1 args kws) (fst st1), snd st1) in
        let* (args', st2) := visit_list "args" args 0 st1 in
        let st2 := (set_top (n1 args' kws) (fst st2), snd st2) in
        let* (kws', st3) := visit_list "keywords" kws 0 st2 in
        let n' := n1 args' kws' in
        Ok (n', (set_top n' (fst st3), snd st3))
    | Other k fs => visit_fields k [] fs st
    | _ => Ok (n, st)
    end.

  Lemma bind_ext {A B} (r r' : res A) (f g : A -> res B) :
    r = r' -> (forall x, f x = g x) -> bind r f = bind r' g.
  Proof. intros <- H. destruct r; cbn; auto. Qed.

  Lemma visit_eq n p st :
    visit pre post n p st =
    let stack := MkFrame n p :: fst st in
    let* (go, u) := pre n stack (snd st) in
    let* (n', st') := (if go : bool then generic_visit n (stack, u) else Ok (n, (stack, u))) in
    let* (r, u') := post n' (fst st') (snd st') in
    Ok (r, (tl (fst st'), u')).
  Proof. destruct n; reflexivity. Qed.

  (** *** Stack discipline and state relations *)
  Variable R : S -> S -> Prop.
  Hypothesis Rrefl : forall u, R u u.
  Hypothesis Rtrans : forall u v w, R u v -> R v w -> R u w.
  Hypothesis Rvisit : forall n n' st st' u go u1 u2 r u3,
    pre n st u = Ok (go, u1) -> R u1 u2 -> kind_of n' = kind_of n -> List.length st' = List.length st ->
    tl st' = tl st -> post n' st' u2 = Ok (r, u3) -> R u u3.

  Definition good (n : node) : Prop := forall p st u r st' u',
    visit pre post n p (st, u) = Ok (r, (st', u')) -> st' = st /\ R u u'.

  Lemma good_list nm l : Forall good l -> forall i st u l' st' u',
    visit_list nm l i (st, u) = Ok (l', (st', u')) -> st' = st /\ R u u'.
  Proof.
    induction 1 as [|x l Hx Hl IH]; intros i st u l' st' u' E; rewrite ?visit_list_cons, ?visit_list_nil in E.
    - injection E as <- <- <-. auto.
    - destruct (visit pre post x (At nm i) (st, u)) as [[r [st1 u1]]|] eqn:E1; [|discriminate]. cbn [bind] in E.
      destruct (visit_list nm l (1 + i) (st1, u1)) as [[rest [st2 u2]]|] eqn:E2; [|discriminate]. cbn [bind] in E.
      injection E as <- <- <-. apply Hx in E1 as [-> R1]. apply IH in E2 as [-> R2]. eauto.
  Qed.

  Lemma set_top_len n st : List.length (set_top n st) = List.length st.
  Proof. destruct st; reflexivity. Qed.
  Lemma set_top_tl n st : tl (set_top n st) = tl st.
  Proof. destruct st; reflexivity. Qed.

  Lemma good_fields k todo : Forall (field_all good) todo -> forall done st u n' st' u',
    visit_fields k done todo (st, u) = Ok (n', (st', u')) ->
    List.length st' = List.length st /\ tl st' = tl st /\ kind_of n' = k /\ R u u'.
  Proof.
    induction 1 as [|f todo Hf Ht IH]; intros done st u n' st' u' E; rewrite ?visit_fields_cons, ?visit_fields_nil in E.
    - injection E as <- <- <-. auto.
    - destruct f as [nm c|nm l|nm x].
      + destruct (visit pre post c (At nm 0) (st, u)) as [[r [st1 u1]]|] eqn:E1; [|discriminate]. cbn [bind] in E.
        apply Hf in E1 as [-> R1]. cbn [fst snd] in E. apply IH in E as (L & T & K & R2).
        rewrite set_top_len in L. rewrite set_top_tl in T. eauto.
      + destruct (visit_list nm l 0 (st, u)) as [[l' [st1 u1]]|] eqn:E1; [|discriminate]. cbn [bind] in E.
        apply (good_list nm l Hf) in E1 as [-> R1]. cbn [fst snd] in E. apply IH in E as (L & T & K & R2).
        rewrite set_top_len in L. rewrite set_top_tl in T. eauto.
      + apply IH in E. exact E.
  Qed.

  Lemma generic_good n :
    match n with
    | Attribute v _ => good v
    | Call f a k => good f /\ Forall good a /\ Forall good k
    | Other _ fs => Forall (field_all good) fs
    | _ => True
    end ->
    forall st u n' st' u', generic_visit n (st, u) = Ok (n', (st', u')) ->
    List.length st' = List.length st /\ tl st' = tl st /\ kind_of n' = kind_of n /\ R u u'.
  Proof.
    intros H st u n' st' u' E. destruct n as [i|v a|f a k|l|m l i|k fs]; cbn [generic_visit] in E;
      try (injection E as <- <- <-; auto; fail).
    - destruct (visit pre post v (At "value" 0) (st, u)) as [[r [st1 u1]]|] eqn:E1; [|discriminate].
      cbn [bind] in E. apply H in E1 as [-> R1]. injection E as <- <- <-. cbn [fst].
      rewrite set_top_len, set_top_tl. destruct r; auto.
    - destruct H as (Hf & Ha & Hk).
      destruct (visit pre post f (At "func" 0) (st, u)) as [[r [st1 u1]]|] eqn:E1; [|discriminate].
      cbn [bind] in E. apply Hf in E1 as [-> R1]. cbn [fst snd] in E.
      match type of E with context [visit_list "args" a 0 (?x, u1)] => set (s1 := x) in E end.
      destruct (visit_list "args" a 0 (s1, u1)) as [[a' [st2 u2]]|] eqn:E2; [|discriminate].
      cbn [bind fst snd] in E. apply (good_list _ _ Ha) in E2 as [-> R2].
      match type of E with context [visit_list "keywords" k 0 (?x, u2)] => set (s2 := x) in E end.
      destruct (visit_list "keywords" k 0 (s2, u2)) as [[k' [st3 u3]]|] eqn:E3; [|discriminate].
      cbn [bind fst snd] in E. apply (good_list _ _ Hk) in E3 as [-> R3].
      injection E as <- <- <-. subst s2 s1. rewrite !set_top_len, !set_top_tl.
      repeat split; [destruct r; reflexivity|eauto].
    - apply (good_fields k fs H) in E. exact E.
  Qed.

  Lemma visit_step n :
    match n with
    | Attribute v _ => good v
    | Call f a k => good f /\ Forall good a /\ Forall good k
    | Other _ fs => Forall (field_all good) fs
    | _ => True
    end -> good n.
  Proof.
    intros H p st u r st' u' E. rewrite visit_eq in E. cbv zeta in E. cbn [fst snd] in E.
    destruct (pre n (MkFrame n p :: st) u) as [[go u1]|] eqn:E1; [|discriminate]. cbn [bind] in E.
    destruct go.
    - destruct (generic_visit n (MkFrame n p :: st, u1)) as [[n' [st2 u2]]|] eqn:E2; [|discriminate].
      cbn [bind fst snd] in E.
      apply (generic_good n H) in E2 as (L & T & K & R1).
      destruct (post n' st2 u2) as [[v u3]|] eqn:E3; [|discriminate]. cbn [bind] in E.
      injection E as <- <- <-. rewrite T. split; [reflexivity|].
      eapply Rvisit; [exact E1|exact R1|exact K|exact L|exact T|exact E3].
    - cbn [bind fst snd] in E.
      destruct (post n (MkFrame n p :: st) u1) as [[v u3]|] eqn:E3; [|discriminate]. cbn [bind] in E.
      injection E as <- <- <-. split; [reflexivity|].
      eapply Rvisit; [exact E1|apply Rrefl|reflexivity|reflexivity|reflexivity|exact E3].
  Qed.

  Theorem visit_good n : good n.
  Proof. induction n using node_ind2; apply visit_step; auto. Qed.
End Facts.

(** ** Induction on a successful visit *)
Section Induct.
  Context {S : Type}.
  Variable pre : node -> list frame -> S -> res (bool * S).
  Variable post : node -> list frame -> S -> res (visited * S).
  Variable P : node -> pos -> list frame -> S -> visited -> S -> Prop.

  (** The elements of a list field, left to right. *)
  Inductive in_list (nm : string) (st : list frame) : nat -> list node -> S -> list node -> S -> Prop :=
  | in_nil i u : in_list nm st i [] u [] u
  | in_cons i x l u r u1 rest u2 :
      P x (At nm i) st u r u1 -> in_list nm st (1 + i) l u1 rest u2 ->
      in_list nm st i (x :: l) u (spliced r ++ rest) u2.

  (** The fields of a node, left to right; [p] and [st] are those of the node. *)
  Inductive in_fields (k : string) (p : pos) (st : list frame) : list field -> list field -> S -> list field -> S -> Prop :=
  | if_nil done u : in_fields k p st done [] u done u
  | if_data done nm x todo u fs u' :
      in_fields k p st (done ++ [Data nm x]) todo u fs u' ->
      in_fields k p st done (Data nm x :: todo) u fs u'
  | if_one done nm c todo u v u1 fs u' :
      P c (At nm 0) (MkFrame (Other k (done ++ One nm c :: todo)) p :: st) u v u1 ->
      in_fields k p st (done ++ set_field nm v) todo u1 fs u' ->
      in_fields k p st done (One nm c :: todo) u fs u'
  | if_many done nm l todo u l' u1 fs u' :
      in_list nm (MkFrame (Other k (done ++ Many nm l :: todo)) p :: st) 0 l u l' u1 ->
      in_fields k p st (done ++ [Many nm l']) todo u1 fs u' ->
      in_fields k p st done (Many nm l :: todo) u fs u'.

  Definition attr_of (r : visited) (a : string) : node :=
    match r with
    | VNode v' => Attribute v' a
    | _ => Other "Attribute" (set_field "value" r ++ [Data "attr" a])
    end.
  Definition call_of (r : visited) (a k : list node) : node :=
    match r with
    | VNode f' => Call f' a k
    | _ => Other "Call" (set_field "func" r ++ [Many "args" a; Many "keywords" k])
    end.

  (** What [generic_visit] does to a node. *)
  Inductive generic (p : pos) (st : list frame) : node -> S -> node -> S -> Prop :=
  | g_name i u : generic p st (Name i) u (Name i) u
  | g_import l u : generic p st (Import l) u (Import l) u
  | g_from m l i u : generic p st (ImportFrom m l i) u (ImportFrom m l i) u
  | g_attr v a u r u1 :
      P v (At "value" 0) (MkFrame (Attribute v a) p :: st) u r u1 ->
      generic p st (Attribute v a) u (attr_of r a) u1
  | g_call f a k u r u1 a' u2 k' u3 :
      P f (At "func" 0) (MkFrame (Call f a k) p :: st) u r u1 ->
      in_list "args" (MkFrame (call_of r a k) p :: st) 0 a u1 a' u2 ->
      in_list "keywords" (MkFrame (call_of r a' k) p :: st) 0 k u2 k' u3 ->
      generic p st (Call f a k) u (call_of r a' k') u3
  | g_other k fs u fs' u' :
      in_fields k p st [] fs u fs' u' -> generic p st (Other k fs) u (Other k fs') u'.

  Hypothesis Hvisit : forall n p st u go u1 n' u2 r u3,
    pre n (MkFrame n p :: st) u = Ok (go, u1) ->
    (if go : bool then generic p st n u1 n' u2 else n' = n /\ u2 = u1) ->
    post n' (MkFrame n' p :: st) u2 = Ok (r, u3) ->
    P n p st u r u3.

  Definition sound (n : node) : Prop := forall p st u r st' u',
    visit pre post n p (st, u) = Ok (r, (st', u')) -> st' = st /\ P n p st u r u'.

  Lemma sound_list nm l : Forall sound l -> forall i st u l' st' u',
    visit_list pre post nm l i (st, u) = Ok (l', (st', u')) -> st' = st /\ in_list nm st i l u l' u'.
  Proof.
    induction 1 as [|x l Hx Hl IH]; intros i st u l' st' u' E; rewrite ?visit_list_cons, ?visit_list_nil in E.
    - injection E as <- <- <-. split; constructor.
    - destruct (visit pre post x (At nm i) (st, u)) as [[r [st1 u1]]|] eqn:E1; [|discriminate]. cbn [bind] in E.
      destruct (visit_list pre post nm l (1 + i) (st1, u1)) as [[rest [st2 u2]]|] eqn:E2; [|discriminate].
      cbn [bind] in E. injection E as <- <- <-. apply Hx in E1 as [-> R1]. apply IH in E2 as [-> R2].
      split; [reflexivity|]. econstructor; eassumption.
  Qed.

  Lemma sound_fields k todo : Forall (field_all sound) todo -> forall done p st u n' st' u',
    visit_fields pre post k done todo (MkFrame (Other k (done ++ todo)) p :: st, u) = Ok (n', (st', u')) ->
    exists fs', n' = Other k fs' /\ st' = MkFrame n' p :: st /\ in_fields k p st done todo u fs' u'.
  Proof.
    induction 1 as [|f todo Hf Ht IH]; intros done p st u n' st' u' E; rewrite ?visit_fields_cons, ?visit_fields_nil in E.
    - injection E as <- <- <-. exists done. rewrite app_nil_r. repeat split; constructor.
    - destruct f as [nm c|nm l|nm x].
      + match type of E with context [visit pre post c (At nm 0) (?s, u)] => set (stk := s) in E end.
        destruct (visit pre post c (At nm 0) (stk, u)) as [[r [st1 u1]]|] eqn:E1; [|discriminate]. cbn [bind] in E.
        apply Hf in E1 as [-> R1]. subst stk. cbn [fst snd set_top e_pos] in E.
        apply IH in E as (fs' & -> & -> & I). exists fs'. repeat split. econstructor; eassumption.
      + match type of E with context [visit_list pre post nm l 0 (?s, u)] => set (stk := s) in E end.
        destruct (visit_list pre post nm l 0 (stk, u)) as [[l' [st1 u1]]|] eqn:E1; [|discriminate]. cbn [bind] in E.
        apply (sound_list nm l Hf) in E1 as [-> R1]. subst stk. cbn [fst snd set_top e_pos] in E.
        apply IH in E as (fs' & -> & -> & I). exists fs'. repeat split. econstructor; eassumption.
      + replace (done ++ Data nm x :: todo)%list with ((done ++ [Data nm x]) ++ todo)%list in E
          by (rewrite <- app_assoc; reflexivity).
        apply IH in E as (fs' & -> & -> & I). exists fs'. repeat split. econstructor; eassumption.
  Qed.

  Lemma sound_generic n :
    match n with
    | Attribute v _ => sound v
    | Call f a k => sound f /\ Forall sound a /\ Forall sound k
    | Other _ fs => Forall (field_all sound) fs
    | _ => True
    end ->
    forall p st u n' st' u', generic_visit pre post n (MkFrame n p :: st, u) = Ok (n', (st', u')) ->
    st' = MkFrame n' p :: st /\ generic p st n u n' u'.
  Proof.
    intros H p st u n' st' u' E. destruct n as [i|v a|f a k|l|m l i|k fs]; cbn [generic_visit] in E;
      try (injection E as <- <- <-; split; constructor; fail).
    - match type of E with context [visit pre post v _ (?s, u)] => set (stk := s) in E end.
      destruct (visit pre post v (At "value" 0) (stk, u)) as [[r [st1 u1]]|] eqn:E1; [|discriminate].
      cbn [bind] in E. apply H in E1 as [-> R1]. subst stk. injection E as <- <- <-. cbn [fst set_top e_pos].
      split; [destruct r; reflexivity|].
      exact (g_attr p st v a u r u1 R1).
    - destruct H as (Hf & Ha & Hk).
      match type of E with context [visit pre post f _ (?s, u)] => set (stk := s) in E end.
      destruct (visit pre post f (At "func" 0) (stk, u)) as [[r [st1 u1]]|] eqn:E1; [|discriminate].
      cbn [bind] in E. apply Hf in E1 as [-> R1]. cbn [fst snd] in E. unfold stk in E. cbn [set_top e_pos] in E.
      fold (call_of r a k) in E.
      match type of E with context [visit_list _ _ "args" a 0 (?x, u1)] => set (s1 := x) in E end.
      destruct (visit_list pre post "args" a 0 (s1, u1)) as [[a' [st2 u2]]|] eqn:E2; [|discriminate].
      cbn [bind fst snd] in E. apply (sound_list _ _ Ha) in E2 as [-> R2]. unfold s1 in E. cbn [set_top e_pos] in E.
      fold (call_of r a' k) in E.
      match type of E with context [visit_list _ _ "keywords" k 0 (?x, u2)] => set (s2 := x) in E end.
      destruct (visit_list pre post "keywords" k 0 (s2, u2)) as [[k' [st3 u3]]|] eqn:E3; [|discriminate].
      cbn [bind fst snd] in E. apply (sound_list _ _ Hk) in E3 as [-> R3]. unfold s2 in E. cbn [set_top e_pos] in E.
      fold (call_of r a' k') in E. injection E as <- <- <-.
      split; [reflexivity|]. econstructor; [exact R1|exact R2|exact R3].
    - replace fs with ([] ++ fs)%list in E at 2 by reflexivity.
      apply (sound_fields k fs H) in E as (fs' & -> & -> & I). split; [reflexivity|]. constructor. exact I.
  Qed.

  Theorem visit_sound n : sound n.
  Proof.
    induction n using node_ind2; intros p st u r st' u' E; rewrite visit_eq in E; cbv zeta in E; cbn [fst snd] in E;
    match type of E with context [pre ?n ?s u] => destruct (pre n s u) as [[go u1]|] eqn:E1; [|discriminate] end;
    cbn [bind] in E; destruct go.
    all: lazymatch type of E with
         | context [generic_visit pre post ?m ?s] =>
             destruct (generic_visit pre post m s) as [[n' [st2 u2]]|] eqn:E2; [|discriminate]
         | _ => idtac
         end.
    all: cbn [bind fst snd] in E.
    all: try (apply sound_generic in E2 as (-> & G); [|auto]).
    all: match type of E with context [post ?m ?s ?v] =>
           destruct (post m s v) as [[w u3]|] eqn:E3; [|discriminate] end; cbn [bind tl] in E;
         injection E as <- <- <-; split; [reflexivity|].
    all: eapply Hvisit; [exact E1| |exact E3]; cbn beta iota; first [exact G | split; reflexivity].
  Qed.
End Induct.

(** The children of a node, in order. *)
Definition children (n : node) : list node :=
  match n with
  | Attribute v _ => [v]
  | Call f a k => f :: a ++ k
  | Other _ fs => flat_map (fun f => match f with One _ c => [c] | Many _ l => l | Data _ _ => [] end) fs
  | _ => []
  end.

(** ** A visit that never fails *)
Section Total.
  Context {S : Type}.
  Variable pre : node -> list frame -> S -> res (bool * S).
  Variable post : node -> list frame -> S -> res (visited * S).
  Variable P : node -> pos -> list frame -> S -> visited -> S -> Prop.
  Hypothesis Hvisit : forall n p st u go u1 n' u2 r u3,
    pre n (MkFrame n p :: st) u = Ok (go, u1) ->
    (if go : bool then generic P p st n u1 n' u2 else n' = n /\ u2 = u1) ->
    post n' (MkFrame n' p :: st) u2 = Ok (r, u3) ->
    P n p st u r u3.
  Variable Good : node -> list frame -> Prop.
  Variable Inv : S -> Prop.
  Hypothesis Hchild : forall n st c fr, Good n st -> In c (children n) -> Good c (fr :: st).
  Hypothesis Hinv : forall n p st u r u', Good n st -> Inv u -> P n p st u r u' -> Inv u'.
  Hypothesis Hpre : forall n p st u, Good n st -> Inv u ->
    exists go u1, pre n (MkFrame n p :: st) u = Ok (go, u1) /\ Inv u1.
  Hypothesis Hpost : forall n p st u go u1 n' u2, Good n st -> Inv u ->
    pre n (MkFrame n p :: st) u = Ok (go, u1) ->
    (if go : bool then generic P p st n u1 n' u2 else n' = n /\ u2 = u1) -> Inv u2 ->
    exists r u3, post n' (MkFrame n' p :: st) u2 = Ok (r, u3).

  Definition total (n : node) : Prop := forall p st u, Good n st -> Inv u ->
    exists r u', visit pre post n p (st, u) = Ok (r, (st, u')) /\ P n p st u r u' /\ Inv u'.

  Lemma total_list nm l st : Forall total l -> (forall x fr, In x l -> Good x (fr :: st)) -> forall fr i u, Inv u ->
    exists l' u', visit_list pre post nm l i (fr :: st, u) = Ok (l', (fr :: st, u')) /\ Inv u'.
  Proof.
    intros H. induction H as [|x l Hx Hl IH]; intros G fr i u I.
    - exists [], u. rewrite visit_list_nil. auto.
    - destruct (Hx (At nm i) (fr :: st) u (G x fr (or_introl eq_refl)) I) as (r & u1 & E1 & _ & I1).
      destruct (IH (fun y f Hy => G y f (or_intror Hy)) fr (1 + i) u1 I1) as (l' & u2 & E2 & I2).
      exists (spliced r ++ l')%list, u2. rewrite visit_list_cons, E1. cbn [bind]. rewrite E2. cbn [bind]. auto.
  Qed.
  Lemma total_fields k todo st : Forall (field_all total) todo ->
    (forall x fr, In x (flat_map (fun f => match f with One _ c => [c] | Many _ l => l | Data _ _ => [] end) todo) -> Good x (fr :: st)) ->
    forall done fr u, Inv u ->
    exists n' st' u', visit_fields pre post k done todo (fr :: st, u) = Ok (n', (st', u')) /\ Inv u'.
  Proof.
    intros H. induction H as [|f todo Hf Ht IH]; intros G done fr u I.
    - rewrite visit_fields_nil. eauto.
    - assert (G' : forall x fr, In x (flat_map (fun f => match f with One _ c => [c] | Many _ l => l | Data _ _ => [] end) todo) -> Good x (fr :: st))
        by (intros x fr' Hx; apply G; cbn [flat_map]; apply in_or_app; auto).
      rewrite visit_fields_cons. destruct f as [nm c|nm l|nm x]; cbn [field_all] in Hf.
      + destruct (Hf (At nm 0) (fr :: st) u) as (r & u1 & E1 & _ & I1); [apply G; left; reflexivity|exact I|].
        rewrite E1. cbn [bind fst snd set_top]. apply (IH G' _ _ _ I1).
      + destruct (total_list nm l st Hf) with (fr := fr) (i := 0) (u := u) as (l' & u1 & E1 & I1).
        { intros x fr' Hx. apply G. cbn [flat_map]. apply in_or_app. auto. }
        { exact I. }
        rewrite E1. cbn [bind fst snd set_top]. apply (IH G' _ _ _ I1).
      + apply (IH G' _ _ _ I).
  Qed.
  Lemma total_generic n st : Good n st ->
    match n with
    | Attribute v _ => total v
    | Call f a k => total f /\ Forall total a /\ Forall total k
    | Other _ fs => Forall (field_all total) fs
    | _ => True
    end ->
    forall p u, Inv u ->
    exists n' st' u', generic_visit pre post n (MkFrame n p :: st, u) = Ok (n', (st', u')) /\ Inv u'.
  Proof.
    intros G H p u I. pose proof (fun c fr => Hchild n st c fr G) as C.
    destruct n as [i|v a|f a k|l|m l i|k fs]; cbn [generic_visit]; eauto.
    - destruct (H (At "value" 0) (MkFrame (Attribute v a) p :: st) u) as (r & u1 & E & _ & I1);
        [apply C; left; reflexivity|exact I|]. rewrite E. cbn [bind fst snd]. eauto.
    - destruct H as (Hf & Ha & Hk).
      destruct (Hf (At "func" 0) (MkFrame (Call f a k) p :: st) u) as (r & u1 & E & _ & I1);
        [apply C; left; reflexivity|exact I|]. rewrite E. cbn [bind fst snd set_top].
      match goal with |- context [visit_list pre post "args" a 0 (?f :: st, u1)] =>
        destruct (total_list "args" a st Ha) with (fr := f) (i := 0) (u := u1) as (a' & u2 & E2 & I2);
        [intros x fr' Hx; apply C; right; apply in_or_app; auto|exact I1|] end.
      rewrite E2. cbn [bind fst snd set_top].
      match goal with |- context [visit_list pre post "keywords" k 0 (?f :: st, u2)] =>
        destruct (total_list "keywords" k st Hk) with (fr := f) (i := 0) (u := u2) as (k' & u3 & E3 & I3);
        [intros x fr' Hx; apply C; right; apply in_or_app; auto|exact I2|] end.
      rewrite E3. cbn [bind fst snd set_top]. eauto.
    - apply total_fields; [exact H| |exact I]. intros x fr Hx. apply C, Hx.
  Qed.

  Lemma total_step n :
    match n with
    | Attribute v _ => total v
    | Call f a k => total f /\ Forall total a /\ Forall total k
    | Other _ fs => Forall (field_all total) fs
    | _ => True
    end -> total n.
  Proof.
    intros H p st u G I.
    assert (E : exists r st' u', visit pre post n p (st, u) = Ok (r, (st', u'))).
    { rewrite visit_eq. cbv zeta. cbn [fst snd]. destruct (Hpre n p st u G I) as (go & u1 & E1 & I1).
      rewrite E1. cbn [bind]. destruct go.
      - destruct (total_generic n st G H p u1 I1) as (n' & st' & u2 & E2 & I2). rewrite E2. cbn [bind fst snd].
        apply (sound_generic pre post P) in E2 as [-> Gn].
        + destruct (Hpost n p st u true u1 n' u2 G I E1 Gn I2) as (r & u3 & E3). rewrite E3. cbn [bind]. eauto.
        + pose proof (visit_sound pre post P Hvisit) as V. destruct n; auto.
          * split; [apply V|]. split; apply Forall_forall; intros x _; apply V.
          * apply Forall_forall. intros [nm c|nm l|nm x] _; cbn [field_all]; auto. apply Forall_forall. intros y _. apply V.
      - cbn [bind fst snd].
        destruct (Hpost n p st u false u1 n u1 G I E1 (conj eq_refl eq_refl) I1) as (r & u3 & E3). rewrite E3. cbn [bind]. eauto. }
    destruct E as (r & st' & u' & E). pose proof E as E'.
    apply (visit_sound pre post P Hvisit) in E' as [-> HP]. exists r, u'. split; [exact E|]. split; [exact HP|].
    eapply Hinv; eassumption.
  Qed.
  Theorem visit_total n : total n.
  Proof. induction n using node_ind2; apply total_step; auto. Qed.
End Total.

(** During a traversal the stack of enclosing nodes and the stack of scopes are right. *)
From Coq Require Import Lia.
From Verif Require Import PyStr PyDict Ast ImportPass Walk BasicPass TraversalSpec.

Section Guard.
  Context {T : Type}.
  Variable kinds : list string.
  Variable scopes : T -> list (list pos).
  Variable exact : bool.
  Variable pre : node -> list frame -> T -> res (bool * T).
  Variable again : node -> list frame -> T -> bool.
  Variable post : node -> list frame -> T -> res (reply * T).

  (** The visitors open and close scopes as the base class does. *)
  Hypothesis pre_opens : forall n st s go s', pre n st s = Ok (go, s') ->
    scopes s' = if mem_str (kind_of n) kinds then map e_pos st :: scopes s else scopes s.
  Hypothesis post_closes : forall n st s r s', post n st s = Ok (r, s') ->
    scopes s' = if mem_str (kind_of n) kinds then tl (scopes s) else scopes s.

  Hypothesis post_exact : exact = true -> forall n st s r s', post n st s = Ok (r, s') -> r <> Unlisted.

  Notation checked_pre := (checked_pre kinds scopes exact pre).
  Notation checked_post := (checked_post kinds scopes exact post).

  Lemma path_eqb_refl x : path_eqb x x = true.
  Proof.
    induction x as [|[f i] x IH]; [reflexivity|]. cbn [path_eqb pos_eqb p_field p_index].
    unfold pos_eqb. cbn [p_field p_index]. rewrite String.eqb_refl, Nat.eqb_refl. exact IH.
  Qed.
  Lemma paths_eqb_refl l : paths_eqb l l = true.
  Proof. induction l as [|x l IH]; [reflexivity|]. cbn. rewrite path_eqb_refl, IH. reflexivity. Qed.
  Lemma attr_with_kind r a : kind_of (attr_with r a) = "Attribute".
  Proof. destruct r; reflexivity. Qed.
  Lemma call_with_kind r a k : kind_of (call_with r a k) = "Call".
  Proof. destruct r; reflexivity. Qed.

  (** The stack and the scopes when a child is visited. *)
  Definition fine (stack : list frame) (s : T) : Prop := real_parents exact stack = true /\ scopes s = enclosing_scopes kinds stack.
  Let V := walk pre again post.
  Let V' := walk checked_pre again checked_post.
  Definition agrees (W W' : walker) : Prop := forall n p st s,
    fine st s ->
    match st with g :: _ => hangs exact (e_node g) p (kind_of n) = true | [] => True end ->
    W' n p (st, s) = W n p (st, s) /\
    forall r st' s', W n p (st, s) = Ok (r, (st', s')) -> st' = st /\ scopes s' = scopes s /\ (exact = true -> r <> Unlisted).

  Lemma fine_top n' n p st s : kind_of n' = kind_of n -> fine (MkFrame n p :: st) s -> fine (MkFrame n' p :: st) s.
  Proof.
    intros K [R E]. split.
    - destruct st as [|h st]; [reflexivity|]. cbn [real_parents e_pos e_node] in *. rewrite K. exact R.
    - cbn [enclosing_scopes e_node map e_pos] in *. rewrite K. exact E.
  Qed.
  Lemma fine_scopes st s s' : scopes s' = scopes s -> fine st s -> fine st s'.
  Proof. unfold fine. intros ->. auto. Qed.
  Lemma hangs_many n nm all i x : In (Many nm all) (fields_of n) ->
    In x all -> (exact = true -> nth_error all i = Some x) -> hangs exact n (At nm i) (kind_of x) = true.
  Proof.
    intros I Ix N. unfold hangs. apply existsb_exists. exists (Many nm all). split; [exact I|].
    cbn [field_name p_field p_index]. rewrite String.eqb_refl. cbn [andb]. destruct exact.
    - rewrite (N eq_refl). apply String.eqb_refl.
    - apply existsb_exists. exists x. split; [exact Ix|apply String.eqb_refl].
  Qed.
  Lemma hangs_one n nm i c : In (One nm c) (fields_of n) -> hangs exact n (At nm i) (kind_of c) = true.
  Proof.
    intros I. unfold hangs. apply existsb_exists. exists (One nm c). split; [exact I|].
    cbn [field_name p_field]. rewrite String.eqb_refl. apply String.eqb_refl.
  Qed.

  Section Children.
  Variables W W' : walker (S := T).
  Hypothesis A : agrees W W'.

  Lemma list_agrees nm all n p st : In (Many nm all) (fields_of n) -> forall l i s,
    fine (MkFrame n p :: st) s ->
    (forall x, In x l -> In x all) -> (exact = true -> forall j x, nth_error l j = Some x -> nth_error all (i + j) = Some x) ->
    walk_list W' nm l i (MkFrame n p :: st, s) = walk_list W nm l i (MkFrame n p :: st, s) /\
    forall l' st' s', walk_list W nm l i (MkFrame n p :: st, s) = Ok (l', (st', s')) -> st' = MkFrame n p :: st /\ scopes s' = scopes s.
  Proof.
    intros I. fix IH 1. intros [|x l] i s F S N; cbn [walk_list].
    - split; [reflexivity|]. intros l' st' s' [= <- <- <-]. split; reflexivity.
    - destruct (A x (At nm i) (MkFrame n p :: st) s F) as [E1 S1].
      { cbn [e_node]. apply (hangs_many n nm all); [exact I|apply S; left; reflexivity|].
        intros X. specialize (N X 0 x eq_refl). rewrite Nat.add_0_r in N. exact N. }
      rewrite E1. destruct (W x (At nm i) (MkFrame n p :: st, s)) as [[r [st1 s1]]|] eqn:Q; [|split; [reflexivity|discriminate]].
      cbn [bind]. destruct (S1 r st1 s1 eq_refl) as [-> [S2 U]]. destruct r as [v|].
      + destruct (IH l (1 + i) s1) as [E2 S3].
        { eapply fine_scopes; eassumption. }
        { intros y J. apply S. right. exact J. }
        { intros X j y J. specialize (N X (Datatypes.S j) y J). rewrite <- N. f_equal. lia. }
        rewrite E2. split; [reflexivity|]. intros l' st' s' J.
        destruct (walk_list W nm l (1 + i) (MkFrame n p :: st, s1)) as [[rest [st2 s2]]|]; [|discriminate].
        cbn [bind] in J. injection J as <- <- <-. destruct (S3 _ _ _ eq_refl) as [-> ->]. split; [reflexivity|exact S2].
      + assert (X : exact = false) by (destruct exact; [exfalso; exact (U eq_refl eq_refl)|reflexivity]).
        destruct l as [|y l].
        * split; [reflexivity|]. intros l' st' s' [= <- <- <-]. split; [reflexivity|exact S2].
        * destruct (IH l (1 + i) s1) as [E2 S3].
          { eapply fine_scopes; eassumption. }
          { intros z J. apply S. right. right. exact J. }
          { rewrite X. discriminate. }
          rewrite E2. split; [reflexivity|]. intros l' st' s' J.
          destruct (S3 _ _ _ J) as [-> ->]. split; [reflexivity|exact S2].
  Qed.
  Lemma whole_list_agrees nm all n p st s : In (Many nm all) (fields_of n) -> fine (MkFrame n p :: st) s ->
    walk_list W' nm all 0 (MkFrame n p :: st, s) = walk_list W nm all 0 (MkFrame n p :: st, s) /\
    forall l' st' s', walk_list W nm all 0 (MkFrame n p :: st, s) = Ok (l', (st', s')) -> st' = MkFrame n p :: st /\ scopes s' = scopes s.
  Proof. intros I F. apply (list_agrees nm all n p st I); auto. Qed.

  Lemma fields_agree k p st : forall todo done s,
    fine (MkFrame (Other k (done ++ todo)) p :: st) s ->
    walk_fields W' k done todo (MkFrame (Other k (done ++ todo)) p :: st, s)
      = walk_fields W k done todo (MkFrame (Other k (done ++ todo)) p :: st, s) /\
    forall n' st' s', walk_fields W k done todo (MkFrame (Other k (done ++ todo)) p :: st, s) = Ok (n', (st', s')) ->
      st' = MkFrame n' p :: st /\ scopes s' = scopes s /\ kind_of n' = k.
  Proof.
    induction todo as [|f todo IH]; intros done s F; cbn [walk_fields].
    - split; [reflexivity|]. intros n' st' s' [= <- <- <-]. rewrite app_nil_r. repeat split.
    - destruct f as [nm c|nm l|nm x].
      + destruct (A c (At nm 0) _ s F) as [E1 S1].
        { cbn [e_node]. apply hangs_one. cbn [fields_of]. apply in_or_app. right. left. reflexivity. }
        unfold wstate in *. rewrite E1.
        match goal with |- context [W c (At nm 0) ?a] => destruct (W c (At nm 0) a) as [[r [st1 s1]]|] eqn:Q end; [|split; [reflexivity|discriminate]].
        cbn [bind]. destruct (S1 _ _ _ eq_refl) as [-> [S2 _]]. cbn [fst snd set_top e_pos].
        destruct (IH (done ++ set_field nm (value_of r))%list s1) as [E2 S3].
        { eapply fine_scopes; [exact S2|]. eapply fine_top; [|exact F]. reflexivity. }
        rewrite E2. split; [reflexivity|]. intros n' st' s' J. destruct (S3 _ _ _ J) as [-> [-> K]]. repeat split; assumption.
      + destruct (fun I => whole_list_agrees nm l _ p st s I F) as [E1 S1].
        { cbn [fields_of]. apply in_or_app. right. left. reflexivity. }
        unfold wstate in *. rewrite E1.
        match goal with |- context [walk_list W nm l 0 ?a] => destruct (walk_list W nm l 0 a) as [[l' [st1 s1]]|] eqn:Q end; [|split; [reflexivity|discriminate]].
        cbn [bind]. destruct (S1 _ _ _ eq_refl) as [-> S2]. cbn [fst snd set_top e_pos].
        destruct (IH (done ++ [Many nm l'])%list s1) as [E2 S3].
        { eapply fine_scopes; [exact S2|]. eapply fine_top; [|exact F]. reflexivity. }
        rewrite E2. split; [reflexivity|]. intros n' st' s' J. destruct (S3 _ _ _ J) as [-> [-> K]]. repeat split; assumption.
      + replace (done ++ Data nm x :: todo)%list with ((done ++ [Data nm x]) ++ todo)%list in * by (rewrite <- app_assoc; reflexivity).
        apply IH. exact F.
  Qed.

  Lemma children_agree n p st s : fine (MkFrame n p :: st) s ->
    walk_children W' n (MkFrame n p :: st, s) = walk_children W n (MkFrame n p :: st, s) /\
    forall n' st' s', walk_children W n (MkFrame n p :: st, s) = Ok (n', (st', s')) ->
      st' = MkFrame n' p :: st /\ scopes s' = scopes s /\ kind_of n' = kind_of n.
  Proof.
    intros F. destruct n as [i|v a|f a k|l|m l i|k fs]; cbn [walk_children].
    1,4,5: split; [reflexivity|]; intros n' st' s' [= <- <- <-]; repeat split.
    - destruct (A v (At "value" 0) _ s F) as [E1 S1]; [cbn [e_node]; apply hangs_one; left; reflexivity|].
      rewrite E1. unfold wstate in *.
      match goal with |- context [W v ?q ?a] => destruct (W v q a) as [[r [st1 s1]]|] eqn:Q end; [|split; [reflexivity|discriminate]].
      cbn [bind]. destruct (S1 _ _ _ eq_refl) as [-> [S2 _]]. split; [reflexivity|]. intros n' st' s' [= <- <- <-].
      cbn [fst snd set_top e_pos]. repeat split; [exact S2|apply attr_with_kind].
    - destruct (A f (At "func" 0) _ s F) as [E1 S1]; [cbn [e_node]; apply hangs_one; left; reflexivity|].
      rewrite E1. unfold wstate in *.
      match goal with |- context [W f ?q ?a] => destruct (W f q a) as [[r [st1 s1]]|] eqn:Q end; [|split; [reflexivity|discriminate]].
      cbn [bind]. destruct (S1 _ _ _ eq_refl) as [-> [S2 _]]. cbn [fst snd set_top e_pos].
      assert (F1 : fine (MkFrame (call_with (value_of r) a k) p :: st) s1).
      { eapply fine_scopes; [exact S2|]. eapply fine_top; [|exact F]. apply call_with_kind. }
      destruct (fun I => whole_list_agrees "args" a _ p st s1 I F1) as [E2 S3].
      { destruct (value_of r); cbn; auto 8. }
      rewrite E2.
      match goal with |- context [walk_list W "args" a 0 ?b] => destruct (walk_list W "args" a 0 b) as [[a' [st2 s2]]|] eqn:Q2 end; [|split; [reflexivity|discriminate]].
      cbn [bind]. destruct (S3 _ _ _ eq_refl) as [-> S4]. cbn [fst snd set_top e_pos].
      assert (F2 : fine (MkFrame (call_with (value_of r) a' k) p :: st) s2).
      { eapply fine_scopes; [exact S4|]. eapply fine_top; [|exact F1]. rewrite !call_with_kind. reflexivity. }
      destruct (fun I => whole_list_agrees "keywords" k _ p st s2 I F2) as [E3 S5].
      { destruct (value_of r); cbn; auto 8. }
      rewrite E3.
      match goal with |- context [walk_list W "keywords" k 0 ?b] => destruct (walk_list W "keywords" k 0 b) as [[k' [st3 s3]]|] eqn:Q3 end; [|split; [reflexivity|discriminate]].
      cbn [bind]. destruct (S5 _ _ _ eq_refl) as [-> S6]. cbn [fst snd set_top e_pos].
      split; [reflexivity|]. intros n' st' s' [= <- <- <-]. repeat split; [congruence|apply call_with_kind].
    - destruct (fields_agree k p st fs [] s F) as [E1 S1]. split; [exact E1|]. exact S1.
  Qed.
  End Children.

  Theorem walk_checked d : agrees (V d) (V' d).
  Proof.
    induction d as [|d IH]; intros n p st s F Hn; unfold V, V' in *; cbn [walk]; [split; [reflexivity|discriminate]|].
    cbn [fst snd]. destruct F as [F1 F2].
    assert (R : real_parents exact (MkFrame n p :: st) = true).
    { destruct st as [|g st]; [reflexivity|]. cbn [real_parents e_node e_pos]. rewrite Hn. exact F1. }
    unfold TraversalSpec.checked_pre at 1. rewrite R, F2. cbn [tl]. rewrite paths_eqb_refl. cbn [andb].
    destruct (pre n (MkFrame n p :: st) s) as [[go s1]|] eqn:E1; [|split; [reflexivity|discriminate]]. cbn [bind].
    apply pre_opens in E1.
    assert (S1 : fine (MkFrame n p :: st) s1).
    { split; [exact R|]. rewrite E1. cbn [enclosing_scopes e_node]. rewrite F2. destruct (mem_str _ _); reflexivity. }
    pose proof (children_agree _ _ IH n p st s1 S1) as [E2 S2].
    assert (B : exists x, (if go then walk_children (walk checked_pre again checked_post d) n (MkFrame n p :: st, s1) else Ok (n, (MkFrame n p :: st, s1))) = x /\
                (if go then walk_children (walk pre again post d) n (MkFrame n p :: st, s1) else Ok (n, (MkFrame n p :: st, s1))) = x /\
                forall n1 st1 s2, x = Ok (n1, (st1, s2)) -> st1 = MkFrame n1 p :: st /\ scopes s2 = scopes s1 /\ kind_of n1 = kind_of n).
    { destruct go.
      - eexists. split; [exact E2|]. split; [reflexivity|exact S2].
      - eexists. split; [reflexivity|]. split; [reflexivity|]. intros n1 st1 s2 [= <- <- <-]. repeat split. }
    clear E2 S2. destruct B as [x [X1 [X2 X3]]]. unfold wstate in *. rewrite X1, X2. clear X1 X2.
    destruct x as [[n1 [st1 s2]]|]; [|split; [reflexivity|discriminate]]. cbn [bind fst snd].
    destruct (X3 _ _ _ eq_refl) as [-> [S3 K1]]. clear X3.
    assert (S4 : fine (MkFrame n1 p :: st) s2).
    { eapply fine_scopes; [exact S3|]. eapply fine_top; [exact K1|exact S1]. }
    pose proof (children_agree _ _ IH n1 p st s2 S4) as [E2 S2].
    set (b := again n1 (MkFrame n1 p :: st) s2) in *.
    assert (B : exists x, (if b then walk_children (walk checked_pre again checked_post d) n1 (MkFrame n1 p :: st, s2) else Ok (n1, (MkFrame n1 p :: st, s2))) = x /\
                (if b then walk_children (walk pre again post d) n1 (MkFrame n1 p :: st, s2) else Ok (n1, (MkFrame n1 p :: st, s2))) = x /\
                forall n2 st2 s3, x = Ok (n2, (st2, s3)) -> st2 = MkFrame n2 p :: st /\ scopes s3 = scopes s2 /\ kind_of n2 = kind_of n1).
    { destruct b.
      - eexists. split; [exact E2|]. split; [reflexivity|exact S2].
      - eexists. split; [reflexivity|]. split; [reflexivity|]. intros n2 st2 s3 [= <- <- <-]. repeat split. }
    clear E2 S2. destruct B as [x [X1 [X2 X3]]]. unfold wstate in *. rewrite X1, X2. clear X1 X2.
    destruct x as [[n2 [st2 s3]]|]; [|split; [reflexivity|discriminate]]. cbn [bind fst snd].
    destruct (X3 _ _ _ eq_refl) as [-> [S5 K2]]. clear X3.
    assert (S6 : fine (MkFrame n2 p :: st) s3).
    { eapply fine_scopes; [exact S5|]. eapply fine_top; [exact K2|exact S4]. }
    unfold TraversalSpec.checked_post at 1. destruct S6 as [R6 Q6]. rewrite R6, Q6, paths_eqb_refl. cbn [andb].
    destruct (post n2 (MkFrame n2 p :: st) s3) as [[r s4]|] eqn:E3; [|split; [reflexivity|discriminate]]. cbn [bind].
    split; [reflexivity|]. intros r' st' s' [= <- <- <-]. cbn [tl]. split; [reflexivity|]. split.
    - apply post_closes in E3. rewrite E3, Q6, K2, K1. cbn [enclosing_scopes e_node]. rewrite K2, K1.
      destruct (mem_str (kind_of n) kinds); cbn [tl]; rewrite ?F2; reflexivity.
    - intros X. eapply post_exact; eassumption.
  Qed.
End Guard.

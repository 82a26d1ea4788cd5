(** Proofs about FileTree.v: conversions that stop at a file. *)
From Coq Require Import Permutation Lia.
From Verif Require Import PyStr PyDict PyStrFacts PyDictFacts Ast UtilsFile FileTree FileTreeSpec FileTreeFacts FileTreeMirror FileTreeRun FileTreeLoop FileTreeTotal.
Open Scope list_scope.

Section Stop.
Context {C : Type}.
Variable convert : (string -> bool) -> string -> string -> C -> res (string * C).
Variable order : fs -> path -> list string -> list string.
Variable search : string -> string -> bool.
Variable pats : list string.
Variable f0 : fs.
Variables src dst : path.
Hypothesis any : any_order order.
Hypothesis apart1 : ~ inside dst src.
Hypothesis apart2 : ~ inside src dst.

Notation ex := (excluded search pats).
Notation gets := (reached ex f0 src).
Notation go := (transfer_dir convert order search).
Notation fit := (fit search pats f0 src dst).
Notation ready := (ready dst).
Notation same_input := (same_input f0 src).
Notation changes := (changes search pats f0 src dst).
Notation post := (post convert search pats f0 src dst).
Hypothesis plain : forall rel, ~ gets rel Special.

(** Directories are made. *)
Definition made (w w' : world) : Prop := forall q, disk w' @@ q = disk w @@ q \/ (disk w @@ q = None /\ disk w' @@ q = Some Dir).

(** The conversion of a file with a path in [P] raised [e]. *)
Definition stop (P : path -> Prop) (w w' : world) (c : C) (e : string) : Prop :=
  exists l c1 rel s exists_path,
    conversions (looks_at f0 (fun p => inside p src)) convert src c l c1 /\ looks_at f0 (fun p => inside p src) exists_path /\ NoDup (map (fun x => fst (fst x)) l) /\
    (forall r s t, In (r, s, t) l -> gets r (File s) /\ P r /\ disk w' @@ (r ++ dst) = Some (File t)) /\
    gets rel (File s) /\ P rel /\ ~ In rel (map (fun x => fst (fst x)) l) /\
    convert exists_path (render (rel ++ src)) s c1 = Raise e /\
    forall q, disk w' @@ q = disk w @@ q \/ (disk w @@ q = None /\ disk w' @@ q = Some Dir) \/
      exists r s t, In (r, s, t) l /\ q = r ++ dst.

Lemma stop_weaken (P Q : path -> Prop) w w' c e : (forall r, P r -> Q r) -> stop P w w' c e -> stop Q w w' c e.
Proof.
  intros I (l & c1 & rel & s & ep & A & Lk & B & D & E & F & G & H & J). exists l, c1, rel, s, ep. repeat split; auto.
  - apply (D _ _ _ H0).
  - apply I. apply (D _ _ _ H0).
  - apply (D _ _ _ H0).
Qed.
Lemma stop_made P w w1 w' c e : made w w1 -> stop P w1 w' c e -> stop P w w' c e.
Proof.
  intros M (l & c1 & rel & s & ep & A & Lk & B & D & E & F & G & H & J). exists l, c1, rel, s, ep. repeat (split; [assumption|]).
  intros q. destruct (J q) as [X|[[X Y]|X]]; [|destruct (M q) as [Z|[Z1 Z2]]; [|congruence]|right; right; exact X].
  - rewrite X. destruct (M q) as [Z|Z]; [left; exact Z|right; left; exact Z].
  - right. left. rewrite <- Z. auto.
Qed.
Lemma stop_later (P Q : path -> Prop) w w1 w' c c1 e :
  (forall r, P r -> r <> []) -> (forall r, P r -> Q r -> False) -> fit P w ->
  post P w w1 c c1 -> stop Q w1 w' c1 e -> stop (fun r => P r \/ Q r) w w' c e.
Proof.
  intros NP Dj Ft [(l1 & K1 & N1 & I1 & F1) D1 Ch1 _] (l2 & c2 & rel & s & ep & A & Lk & B & D & E & F & G & H & J).
  assert (J0 : forall r t, disk w1 @@ (r ++ dst) = Some t -> P r -> disk w' @@ (r ++ dst) = Some t).
  { intros r t X Pr. destruct (J (r ++ dst)) as [Y|[[Y _]|(r' & s' & t' & Y & Z)]]; [congruence|congruence|].
    apply app_inv_tail in Z. subst r'. exfalso. apply (Dj r Pr). apply (D _ _ _ Y). }
  exists (l1 ++ l2), c2, rel, s, ep. split; [eapply conversions_app; eassumption|]. split; [exact Lk|]. split.
  { rewrite map_app. apply nodup_app; auto. intros r J1 J2. apply in_map_iff in J1. destruct J1 as ([[r1 s1] t1] & <- & J1).
    apply in_map_iff in J2. destruct J2 as ([[r2 s2] t2] & X & J2). cbn in *. subst r2.
    apply (Dj r1); [apply (I1 r1 s1); eauto|apply (D _ _ _ J2)]. }
  split.
  { intros r s' t I. apply in_app_or in I as [I|I].
    - destruct (proj1 (I1 r s') (ex_intro _ t I)) as [X Y]. split; [exact X|]. split; [left; exact Y|]. apply J0; [exact (F1 _ _ _ I)|exact Y].
    - destruct (D _ _ _ I) as (X & Y & Z). auto. }
  split; [exact E|]. split; [right; exact F|]. split.
  { rewrite map_app. intros I. apply in_app_or in I as [I|I]; [|contradiction]. apply in_map_iff in I as ([[r1 s1] t1] & X & I). cbn in X. subst r1.
    apply (Dj rel); [apply (I1 rel s1); eauto|exact F]. }
  split; [exact H|]. intros q.
  assert (C1 : disk w1 @@ q = disk w @@ q \/ (disk w @@ q = None /\ disk w1 @@ q = Some Dir) \/ exists r s t, In (r, s, t) l1 /\ q = r ++ dst).
  { destruct (Ch1 q) as [X|[(r & e' & Gr & Pr & Nr & -> & X)|(X & Y & _)]]; [left; exact X| |right; left; auto].
    destruct e' as [s'| | |]; try contradiction.
    - right. right. destruct (proj2 (I1 r s') (conj Gr Pr)) as [t I]. exists r, s', t. auto.
    - specialize (D1 r Gr Pr Nr). specialize (Ft r Dir Gr Pr). destruct (disk w @@ (r ++ dst)) as [[]|]; try contradiction.
      + left. exact D1.
      + right. left. auto. }
  destruct (J q) as [X|[[X Y]|(r & s' & t & X & Y)]].
  - rewrite X. destruct C1 as [Z|[Z|(r & s' & t & Z & Z')]]; [left; exact Z|right; left; exact Z|]. right. right. exists r, s', t. split; [apply in_or_app; left; exact Z|exact Z'].
  - destruct C1 as [Z|[[_ Z]|(r & s' & t & Z & Z')]]; [right; left; rewrite <- Z; auto|congruence|].
    right. right. exists r, s', t. split; [apply in_or_app; left; exact Z|exact Z'].
  - right. right. exists r, s', t. split; [apply in_or_app; right; exact X|exact Y].
Qed.

(** It succeeds or stops at a file. *)
Definition ends (P : path -> Prop) (w : world) (c : C) (x : world * res C) : Prop :=
  (exists w' c', x = (w', Ok c')) \/ (exists w' e, x = (w', Raise e) /\ stop P w w' c e).

Definition child_ends (fuel : nat) : Prop := forall n rel e w c,
  gets (n :: rel) e -> (forall r e, gets r e -> below (n :: rel) r -> (List.length r < List.length (n :: rel) + fuel)%nat) ->
  same_input w -> sound (disk w) -> fit (below (n :: rel)) w -> free_way dst w ->
  (match e with Dir => disk w @@ (n :: rel ++ dst) = Some Dir | _ => ready rel w end) ->
  ends (below (n :: rel)) w c (go fuel pats (n :: rel ++ src) (n :: rel ++ dst) c w).

Lemma loop_ends fuel rel : child_ends fuel -> gets rel Dir -> 
  (forall r e, gets r e -> below rel r -> (List.length r < List.length rel + S fuel)%nat) -> forall ns w c,
  NoDup ns -> (forall n, In n ns -> hidden n = false /\ f0 @@ (n :: rel ++ src) <> None) ->
  same_input w -> sound (disk w) -> ready rel w -> free_way dst w -> (forall n, In n ns -> fit (below (n :: rel)) w) ->
  ends (fun r => exists n, In n ns /\ below (n :: rel) r) w c
    (for_each (step convert order search pats fuel (rel ++ src) (rel ++ dst)) ns c w).
Proof.
  intros IH G Dp ns. induction ns as [|n ns IHn]; intros w c Nd V Sm Sd Rd Fw Ft; cbn [for_each]; [left; eexists; eexists; reflexivity|].
  inversion Nd as [|? ? Nn Nd']; subst. unfold bind at 1.
  set (st := step convert order search pats fuel (rel ++ src) (rel ++ dst)) in *.
  assert (S1 : ends (below (n :: rel)) w c (st n c w)).
  { clear IHn. unfold st, step. cbv zeta. unfold join_path. destruct (V n (or_introl eq_refl)) as [Vn At].
    destruct (ex (n :: rel ++ src)) eqn:Ex; [left; eexists; eexists; reflexivity|].
    destruct (f0 @@ (n :: rel ++ src)) as [e|] eqn:E0; [|congruence].
    assert (Gn : gets (n :: rel) e) by (constructor; assumption).
    assert (En : disk w @@ (n :: rel ++ src) = Some e) by (rewrite <- E0; exact (Sm (n :: rel))).
    assert (Fn := Ft n (or_introl eq_refl)). assert (Fe := Fn _ _ Gn (inside_refl _)). cbn [app] in Fe.
    assert (Dn : forall r e, gets r e -> below (n :: rel) r -> (List.length r < List.length (n :: rel) + fuel)%nat).
    { intros r e' Gr B. assert (X := Dp r e' Gr (proj1 (below_child _ _ _ B))). cbn. lia. }
    unfold bind, see. destruct (isdir (disk w) (n :: rel ++ src)) eqn:Di.
    - apply isdir_at in Di. rewrite En in Di. injection Di as ->.
      destruct (exists_at (disk w) (n :: rel ++ dst)) eqn:Ea; cbn [negb andb].
      + cbn. apply (IH n rel Dir); auto. unfold exists_at in Ea.
        destruct (disk w @@ (n :: rel ++ dst)) as [[]|]; cbn in Fe; try contradiction; try discriminate Ea. reflexivity.
      + assert (N0 : disk w @@ (n :: rel ++ dst) = None).
        { unfold exists_at in Ea. destruct (disk w @@ (n :: rel ++ dst)) as [[]|]; cbn in Fe; try contradiction; try discriminate Ea. reflexivity. }
        assert (M : exists w2, makedirs (n :: rel ++ dst) w = (w2, Ok tt)).
        { destruct Rd as [Rd|[-> Rd]].
          - cbn [makedirs]. unfold bind, see, exists_at. rewrite Rd. cbn. unfold mkdir, see. rewrite N0. cbn [dirname tl].
            unfold isdir. rewrite Rd. eexists. reflexivity.
          - apply makedirs_total; [|exact N0]. cbn [app] in *. intros q [r Q]. destruct r as [|m r]; cbn in Q; [subst q; left; exact N0|].
            injection Q as _ Q. apply Fw. exists r. exact Q. }
        destruct M as [w2 M]. rewrite M. apply makedirs_spec in M. cbn [tl] in M. destruct M as (_ & Gw & D2 & _ & K2 & O2).
        assert (M2 : made w w2) by (intro q; destruct (Gw q) as [Q|(Q1 & Q2 & _)]; auto).
        assert (C2 : changes (fun r => r = n :: rel) w w2).
        { intro q. destruct (path_eqb_spec q (n :: rel ++ dst)) as [->|Nq].
          { right. left. exists (n :: rel), Dir. repeat split; auto. discriminate. }
          destruct Rd as [Rd|[-> Rd]].
          - left. apply O2; [|exact Nq]. unfold exists_at. rewrite Rd. reflexivity.
          - destruct (Gw q) as [Q|(Q1 & Q2 & Q3)]; [left; exact Q|right; right]. repeat split; auto.
            cbn [app] in *. destruct Q3 as [[|m r3] Q3]; cbn in Q3; [congruence|]. injection Q3 as _ Q3. exists r3. exact Q3. }
        assert (X : ends (below (n :: rel)) w2 c (go fuel pats (n :: rel ++ src) (n :: rel ++ dst) c w2)).
        { apply (IH n rel Dir); auto.
          * eapply changes_input; [exact apart1|exact apart2|exact C2|exact Sm].
          * intros r e Gr Br. destruct (path_eqb_spec r (n :: rel)) as [->|Nr].
            -- cbn [app]. rewrite D2. apply reached_at in Gr. rewrite (reached_at _ _ _ _ _ _ Gn) in Gr. injection Gr as <-. exact I.
            -- rewrite (changes_other _ _ _ _ _ _ w w2 r C2); [exact (Fn _ _ Gr Br)|exact (proj2 (proj2 (below_child _ _ _ Br)))|].
               intros r' -> E. congruence.
          * eapply free_way_kept; eassumption. }
        destruct X as [X|(w' & e & X & Y)]; [left; exact X|right; exists w', e; split; [exact X|]]. eapply stop_made; eassumption.
    - cbn [andb]. cbn. apply (IH n rel e); auto.
      assert (N : e <> Dir) by (intros ->; unfold isdir in Di; rewrite En in Di; discriminate).
      destruct e; auto. congruence. }
  destruct S1 as [(w1 & c1 & S1)|(w1 & e & S1 & S2)]; rewrite S1.
  2:{ right. exists w1, e. split; [reflexivity|]. eapply stop_weaken; [|exact S2]. intros r B. exists n. split; [left; reflexivity|exact B]. }
  assert (P1 : post (fun r => exists m, In m [n] /\ below (m :: rel) r) w w1 c c1).
  { apply (loop_post convert order search pats f0 src dst apart1 apart2 fuel rel); auto.
    - apply children_ok; assumption.
    - constructor; [intros []|constructor].
    - intros m [<-|[]]. apply V. left. reflexivity.
    - intros m [<-|[]]. apply Ft. left. reflexivity.
    - cbn [for_each]. unfold bind at 1. fold (step convert order search pats fuel (rel ++ src) (rel ++ dst)). unfold st in S1. unfold step in S1. rewrite S1. reflexivity. }
  assert (X : ends (fun r => exists m, In m ns /\ below (m :: rel) r) w1 c1 (for_each st ns c1 w1)).
  { apply IHn; auto.
    - intros m I. apply V. right. exact I.
    - eapply changes_input; [exact apart1|exact apart2|exact (p_changes _ _ _ _ _ _ _ _ _ _ _ P1)|exact Sm].
    - exact (p_sound _ _ _ _ _ _ _ _ _ _ _ P1 Sd).
    - eapply ready_kept; [|exact (p_changes _ _ _ _ _ _ _ _ _ _ _ P1)|exact Rd]. intros r (m & _ & B). apply (below_child _ _ _ B).
    - eapply free_way_kept; [exact (p_changes _ _ _ _ _ _ _ _ _ _ _ P1)|exact Fw].
    - intros m I. eapply fit_kept; [| |exact (p_changes _ _ _ _ _ _ _ _ _ _ _ P1)|apply Ft; right; exact I].
      + intros r B. apply (below_child _ _ _ B).
      + intros r (m' & [<-|[]] & B1) B2. apply Nn. rewrite (below_apart _ _ _ _ B1 B2). exact I. }
  destruct X as [X|(w' & e & X & Y)]; [left; exact X|right; exists w', e; split; [exact X|]].
  eapply stop_weaken; [|eapply stop_later; [| | |exact P1|exact Y]].
  - cbn. intros r [(m & [<-|[]] & B)|(m & I & B)]; [exists n; auto|exists m; auto].
  - intros r (m & _ & B). apply (below_child _ _ _ B).
  - intros r (m & [<-|[]] & B1) (m' & I & B2). apply Nn. rewrite (below_apart _ _ _ _ B1 B2). exact I.
  - intros r e' Gr (m & [<-|[]] & B). exact (Ft n (or_introl eq_refl) r e' Gr B).
Qed.

Lemma dir_ends fuel rel w c : child_ends fuel -> gets rel Dir ->
  (forall r e, gets r e -> below rel r -> (List.length r < List.length rel + S fuel)%nat) ->
  same_input w -> sound (disk w) -> ready rel w -> free_way dst w ->
  fit (fun r => below rel r /\ r <> rel) w ->
  ends (below rel) w c (go (S fuel) pats (rel ++ src) (rel ++ dst) c w).
Proof.
  intros IH G Dp Sm Sd Rd Fw Ft. cbn [transfer_dir]. unfold see at 1.
  rewrite (Sm rel), (reached_at _ _ _ _ _ _ G).
  set (ns := filter _ _).
  assert (X : ends (fun r => exists n, In n ns /\ below (n :: rel) r) w c
    (for_each (step convert order search pats fuel (rel ++ src) (rel ++ dst)) ns c w)).
  { apply loop_ends; auto.
    - apply NoDup_filter. eapply Permutation_NoDup; [apply Permutation_sym, any|]. apply names_nodup. exact Sd.
    - intros n J. apply filter_In in J. destruct J as [J V]. apply negb_true_iff in V. split; [exact V|].
      replace (f0 @@ (n :: rel ++ src)) with (disk w @@ (n :: rel ++ src)) by exact (Sm (n :: rel)).
      apply in_names_at. eapply Permutation_in; [apply any|exact J].
    - intros n _ r e Gr B. apply Ft; [exact Gr|]. split; apply (below_child _ _ _ B). }
  destruct X as [X|(w' & e & X & Y)]; [left; exact X|right; exists w', e; split; [exact X|]].
  eapply stop_weaken; [|exact Y]. intros r (n & _ & B). apply (below_child _ _ _ B).
Qed.

Lemma file_ends fuel n rel s w c : gets (n :: rel) (File s) -> same_input w -> fit (below (n :: rel)) w -> ready rel w -> free_way dst w ->
  ends (below (n :: rel)) w c (go (S fuel) pats (n :: rel ++ src) (n :: rel ++ dst) c w).
Proof.
  intros G Sm Ft Rd Fw. cbn [transfer_dir]. unfold see at 1.
  assert (E := reached_at _ _ _ _ _ _ G). rewrite <- (Sm (n :: rel)) in E. cbn [app] in E. rewrite E.
  destruct (gets_child _ _ _ _ _ _ _ G) as (_ & _ & _ & Ex). rewrite Ex.
  assert (Fe := Ft _ _ G (inside_refl _)). cbn [app] in Fe.
  assert (Nd : isdir (disk w) (n :: rel ++ dst) = false).
  { unfold isdir. destruct (disk w @@ (n :: rel ++ dst)) as [[]|]; try reflexivity. destruct Fe. }
  rewrite Nd. cbn [dirname tl].
  assert (Pr : exists w1, prepare (rel ++ dst) w = (w1, Ok tt) /\ changes (fun _ => False) w w1 /\ made w w1 /\ disk w1 @@ (rel ++ dst) = Some Dir).
  { unfold prepare, bind, see. destruct Rd as [Rd|[-> Rd]].
    - exists w. unfold exists_at. rewrite Rd. cbn. unfold isdir. rewrite Rd. split; [reflexivity|]. split; [apply changes_refl|].
      split; [intro q; left; reflexivity|reflexivity].
    - cbn [app] in *. destruct (makedirs_total dst w Fw Rd) as [w1 M]. exists w1. unfold exists_at. rewrite Rd, M.
      apply makedirs_spec in M. destruct M as (_ & Gw & D2 & _). unfold isdir. rewrite D2. split; [reflexivity|]. split; [|split; [|reflexivity]].
      + intro q. destruct (Gw q) as [Q|Q]; [left; exact Q|right; right; exact Q].
      + intro q. destruct (Gw q) as [Q|(Q1 & Q2 & _)]; auto. }
  destruct Pr as (w1 & Pr & Ch & Md & D1). unfold bind at 1. rewrite Pr.
  assert (Sm1 := changes_input _ _ _ _ _ apart1 apart2 _ _ _ Ch Sm).
  unfold transfer_file, see at 1. assert (E1 := Sm1 (n :: rel)). rewrite (reached_at _ _ _ _ _ _ G) in E1. cbn [app] in E1. rewrite E1.
  destruct (convert (exists_text (disk w1)) (render (n :: rel ++ src)) s c) as [[t c1]|x] eqn:Cv.
  2:{ right. exists w1, x. split; [reflexivity|]. eapply stop_made; [exact Md|]. exists [], c, (n :: rel), s, (exists_text (disk w1)).
      split; [constructor|]. split; [exact (looks_now _ _ w1 Sm1)|]. repeat split; auto; try contradiction; [constructor|apply inside_refl]. }
  left. destruct (path_eqb_spec (n :: rel ++ src) (n :: rel ++ dst)) as [Es|_].
  { exfalso. exact (dst_not_src _ _ apart1 apart2 (n :: rel) (n :: rel) (eq_sym Es)). }
  cbn [andb]. unfold bind, write_file, see.
  assert (Same : disk w1 @@ (n :: rel ++ dst) = disk w @@ (n :: rel ++ dst)).
  { apply (changes_other _ _ _ _ _ _ w w1 (n :: rel) Ch); [discriminate|intros r []]. }
  rewrite Same. cbn [dirname tl]. unfold isdir. rewrite D1.
  destruct (disk w @@ (n :: rel ++ dst)) as [[]|]; cbn in Fe; try contradiction; eexists; eexists; reflexivity.
Qed.

Lemma children_ends fuel : child_ends fuel.
Proof.
  induction fuel as [|fuel IH]; intros n rel e w c G Dp Sm Sd Ft Fw Rd.
  { exfalso. assert (X := Dp _ _ G (inside_refl _)). lia. }
  destruct e.
  - eapply file_ends; eassumption.
  - change (n :: rel ++ src) with ((n :: rel) ++ src). change (n :: rel ++ dst) with ((n :: rel) ++ dst) in *.
    apply dir_ends; auto.
    + left. exact Rd.
    + intros r e Gr [B _]. exact (Ft r e Gr B).
  - cbn [transfer_dir]. unfold see at 1. assert (E := reached_at _ _ _ _ _ _ G). rewrite <- (Sm (n :: rel)) in E. cbn [app] in E.
    rewrite E. left. eexists. eexists. reflexivity.
  - destruct (plain _ G).
Qed.

Lemma root_ends fuel w c : gets [] Dir -> (forall r e, gets r e -> (List.length r < fuel)%nat) ->
  same_input w -> sound (disk w) -> fit (fun _ => True) w -> free_way dst w ->
  ends (fun _ => True) w c (go fuel pats src dst c w).
Proof.
  intros G Dp Sm Sd Ft Fw. destruct fuel as [|fuel]; [exfalso; assert (X := Dp _ _ G); cbn in X; lia|].
  assert (X : ends (below []) w c (go (S fuel) pats src dst c w)).
  { apply (dir_ends fuel []); auto.
    - apply children_ends.
    - intros r e Gr _. cbn. exact (Dp r e Gr).
    - destruct (Fw dst (inside_refl _)); [right; auto|left; assumption].
    - intros r e Gr _. exact (Ft r e Gr I). }
  destruct X as [X|(w' & e & X & Y)]; [left; exact X|right; exists w', e; split; [exact X|]].
  eapply stop_weaken; [|exact Y]. auto.
Qed.
End Stop.

(** Proofs about FileTree.v: conversions that succeed. *)
From Coq Require Import Permutation Lia.
From Verif Require Import PyStr PyDict PyStrFacts PyDictFacts Ast UtilsFile FileTree FileTreeSpec FileTreeFacts FileTreeMirror FileTreeRun FileTreeLoop.
Open Scope list_scope.

(** Nothing but directories on the way to [p]. *)
Definition free_way (p : path) (w : world) : Prop := forall q, inside p q -> disk w @@ q = None \/ disk w @@ q = Some Dir.

Lemma makedirs_total p : forall w, free_way p w -> disk w @@ p = None -> exists w', makedirs p w = (w', Ok tt).
Proof.
  induction p as [|n d IH]; intros w Fw N; [discriminate N|]. cbn [makedirs]. unfold bind at 1. unfold see at 1.
  assert (Fd : free_way d w) by (intros q I; apply Fw; apply inside_cons; exact I).
  assert (M : forall w1, disk w1 @@ (n :: d) = None -> disk w1 @@ d = Some Dir -> exists w', mkdir (n :: d) w1 = (w', Ok tt)).
  { intros w1 N1 D1. unfold mkdir, see. rewrite N1. cbn [dirname tl]. unfold isdir. rewrite D1. eexists. reflexivity. }
  destruct (Fd d (inside_refl d)) as [E|E].
  - unfold exists_at. rewrite E. destruct (IH w Fd E) as [w1 M1]. rewrite M1. apply makedirs_spec in M1.
    destruct M1 as (_ & G & D1 & _). apply M; [|exact D1].
    destruct (G (n :: d)) as [Q|(_ & _ & [r Q])]; [congruence|]. exfalso.
    apply (f_equal (@List.length _)) in Q. rewrite app_length in Q. cbn in Q. lia.
  - unfold exists_at. rewrite E. cbn. apply M; assumption.
Qed.

Section Total.
Context {C : Type}.
Variable convert : (string -> bool) -> string -> string -> C -> res (string * C).
Variable codes_of : C -> dict Z string.
Variable order : fs -> path -> list string -> list string.
Variable search : string -> string -> bool.
Variable isort : string -> option string.
Variable pats : list string.
Variable f0 : fs.
Variables src dst : path.
Hypothesis any : any_order order.
Hypothesis apart1 : ~ inside dst src.
Hypothesis apart2 : ~ inside src dst.

Notation ex := (excluded search pats).
Notation gets := (reached ex f0 src).
Notation go := (transfer_dir convert order search).
Notation fit := (fit search pats f0 src dst).
Notation ready := (ready dst).
Notation same_input := (same_input f0 src).
Notation changes := (changes search pats f0 src dst).
Notation post := (post convert search pats f0 src dst).

Hypothesis converts : forall exists_path rel s c, gets rel (File s) -> exists t c', convert exists_path (render (rel ++ src)) s c = Ok (t, c').
Hypothesis plain : forall rel, ~ gets rel Special.

Lemma free_way_kept P w w' : changes P w w' -> free_way dst w -> free_way dst w'.
Proof.
  intros Ch Fw q I. destruct (Ch q) as [E|[(r & e & _ & _ & N & -> & _)|(_ & E & _)]].
  - rewrite E. apply Fw. exact I.
  - exfalso. destruct I as [x E]. apply (f_equal (@List.length _)) in E. rewrite !app_length in E. destruct r; [congruence|cbn in E; lia].
  - right. exact E.
Qed.

Definition child_total (fuel : nat) : Prop := forall n rel e w c,
  gets (n :: rel) e -> (forall r e, gets r e -> below (n :: rel) r -> (List.length r < List.length (n :: rel) + fuel)%nat) ->
  same_input w -> sound (disk w) -> fit (below (n :: rel)) w -> free_way dst w ->
  (match e with Dir => disk w @@ (n :: rel ++ dst) = Some Dir | _ => ready rel w end) ->
  exists w' c', go fuel pats (n :: rel ++ src) (n :: rel ++ dst) c w = (w', Ok c').

Lemma loop_total fuel rel : child_total fuel -> gets rel Dir -> 
  (forall r e, gets r e -> below rel r -> (List.length r < List.length rel + S fuel)%nat) -> forall ns w c,
  NoDup ns -> (forall n, In n ns -> hidden n = false /\ f0 @@ (n :: rel ++ src) <> None) ->
  same_input w -> sound (disk w) -> ready rel w -> free_way dst w -> (forall n, In n ns -> fit (below (n :: rel)) w) ->
  exists w' c',
  for_each (step convert order search pats fuel (rel ++ src) (rel ++ dst)) ns c w = (w', Ok c').
Proof.
  intros IH G Dp ns. induction ns as [|n ns IHn]; intros w c Nd V Sm Sd Rd Fw Ft; cbn [for_each]; [eexists; eexists; reflexivity|].
  inversion Nd as [|? ? Nn Nd']; subst. unfold bind at 1.
  set (st := step convert order search pats fuel (rel ++ src) (rel ++ dst)) in *.
  assert (S1 : exists w1 c1, st n c w = (w1, Ok c1)).
  { clear IHn. unfold st, step. cbv zeta. unfold join_path. destruct (V n (or_introl eq_refl)) as [Vn At].
    destruct (ex (n :: rel ++ src)) eqn:Ex; [eexists; eexists; reflexivity|].
    destruct (f0 @@ (n :: rel ++ src)) as [e|] eqn:E0; [|congruence].
    assert (Gn : gets (n :: rel) e) by (constructor; assumption).
    assert (En : disk w @@ (n :: rel ++ src) = Some e) by (rewrite <- E0; exact (Sm (n :: rel))).
    assert (Fn := Ft n (or_introl eq_refl)). assert (Fe := Fn _ _ Gn (inside_refl _)). cbn [app] in Fe.
    assert (Dn : forall r e, gets r e -> below (n :: rel) r -> (List.length r < List.length (n :: rel) + fuel)%nat).
    { intros r e' Gr B. assert (X := Dp r e' Gr (proj1 (below_child _ _ _ B))). cbn. lia. }
    unfold bind, see. destruct (isdir (disk w) (n :: rel ++ src)) eqn:Di.
    - apply isdir_at in Di. rewrite En in Di. injection Di as ->.
      destruct (exists_at (disk w) (n :: rel ++ dst)) eqn:Ea; cbn [negb andb].
      + cbn. apply (IH n rel Dir); auto. unfold exists_at in Ea.
        destruct (disk w @@ (n :: rel ++ dst)) as [[]|]; cbn in Fe; try contradiction; try discriminate Ea. reflexivity.
      + assert (N0 : disk w @@ (n :: rel ++ dst) = None).
        { unfold exists_at in Ea. destruct (disk w @@ (n :: rel ++ dst)) as [[]|]; cbn in Fe; try contradiction; try discriminate Ea. reflexivity. }
        assert (M : exists w2, makedirs (n :: rel ++ dst) w = (w2, Ok tt)).
        { destruct Rd as [Rd|[-> Rd]].
          - cbn [makedirs]. unfold bind, see, exists_at. rewrite Rd. cbn. unfold mkdir, see. rewrite N0. cbn [dirname tl].
            unfold isdir. rewrite Rd. eexists. reflexivity.
          - apply makedirs_total; [|exact N0]. cbn [app] in *. intros q [r Q]. destruct r as [|m r]; cbn in Q; [subst q; left; exact N0|].
            injection Q as _ Q. apply Fw. exists r. exact Q. }
        destruct M as [w2 M]. rewrite M. apply makedirs_spec in M. cbn [tl] in M. destruct M as (_ & Gw & D2 & _ & K2 & O2).
        assert (C2 : changes (fun r => r = n :: rel) w w2).
        { intro q. destruct (path_eqb_spec q (n :: rel ++ dst)) as [->|Nq].
          { right. left. exists (n :: rel), Dir. repeat split; auto. discriminate. }
          destruct Rd as [Rd|[-> Rd]].
          - left. apply O2; [|exact Nq]. unfold exists_at. rewrite Rd. reflexivity.
          - destruct (Gw q) as [Q|(Q1 & Q2 & Q3)]; [left; exact Q|right; right]. repeat split; auto.
            cbn [app] in *. destruct Q3 as [[|m r3] Q3]; cbn in Q3; [congruence|]. injection Q3 as _ Q3. exists r3. exact Q3. }
        apply (IH n rel Dir); auto.
        * eapply changes_input; [exact apart1|exact apart2|exact C2|exact Sm].
        * intros r e Gr Br. destruct (path_eqb_spec r (n :: rel)) as [->|Nr].
          -- cbn [app]. rewrite D2. apply reached_at in Gr. rewrite (reached_at _ _ _ _ _ _ Gn) in Gr. injection Gr as <-. exact I.
          -- rewrite (changes_other _ _ _ _ _ _ w w2 r C2); [exact (Fn _ _ Gr Br)|exact (proj2 (proj2 (below_child _ _ _ Br)))|].
             intros r' -> E. congruence.
        * eapply free_way_kept; eassumption.
    - cbn [andb]. cbn. apply (IH n rel e); auto.
      assert (N : e <> Dir) by (intros ->; unfold isdir in Di; rewrite En in Di; discriminate).
      destruct e; auto. congruence. }
  destruct S1 as (w1 & c1 & S1). rewrite S1.
  (* the state after the first name *)
  assert (P1 : post (fun r => exists m, In m [n] /\ below (m :: rel) r) w w1 c c1).
  { apply (loop_post convert order search pats f0 src dst apart1 apart2 fuel rel); auto.
    - apply children_ok; assumption.
    - constructor; [intros []|constructor].
    - intros m [<-|[]]. apply V. left. reflexivity.
    - intros m [<-|[]]. apply Ft. left. reflexivity.
    - cbn [for_each]. unfold bind at 1. fold (step convert order search pats fuel (rel ++ src) (rel ++ dst)). unfold st in S1. unfold step in S1. rewrite S1. reflexivity. }
  apply IHn; auto.
  - intros m I. apply V. right. exact I.
  - eapply changes_input; [exact apart1|exact apart2|exact (p_changes _ _ _ _ _ _ _ _ _ _ _ P1)|exact Sm].
  - exact (p_sound _ _ _ _ _ _ _ _ _ _ _ P1 Sd).
  - eapply ready_kept; [|exact (p_changes _ _ _ _ _ _ _ _ _ _ _ P1)|exact Rd]. intros r (m & _ & B). apply (below_child _ _ _ B).
  - eapply free_way_kept; [exact (p_changes _ _ _ _ _ _ _ _ _ _ _ P1)|exact Fw].
  - intros m I. eapply fit_kept; [| |exact (p_changes _ _ _ _ _ _ _ _ _ _ _ P1)|apply Ft; right; exact I].
    + intros r B. apply (below_child _ _ _ B).
    + intros r (m' & [<-|[]] & B1) B2. apply Nn. rewrite (below_apart _ _ _ _ B1 B2). exact I.
Qed.

Lemma dir_total fuel rel w c : child_total fuel -> gets rel Dir ->
  (forall r e, gets r e -> below rel r -> (List.length r < List.length rel + S fuel)%nat) ->
  same_input w -> sound (disk w) -> ready rel w -> free_way dst w ->
  fit (fun r => below rel r /\ r <> rel) w ->
  exists w' c', go (S fuel) pats (rel ++ src) (rel ++ dst) c w = (w', Ok c').
Proof.
  intros IH G Dp Sm Sd Rd Fw Ft. cbn [transfer_dir]. unfold see at 1.
  rewrite (Sm rel), (reached_at _ _ _ _ _ _ G). apply loop_total; auto.
  - apply NoDup_filter. eapply Permutation_NoDup; [apply Permutation_sym, any|]. apply names_nodup. exact Sd.
  - intros n J. apply filter_In in J. destruct J as [J V]. apply negb_true_iff in V. split; [exact V|].
    replace (f0 @@ (n :: rel ++ src)) with (disk w @@ (n :: rel ++ src)) by exact (Sm (n :: rel)).
    apply in_names_at. eapply Permutation_in; [apply any|exact J].
  - intros n _ r e Gr B. apply Ft; [exact Gr|]. split; apply (below_child _ _ _ B).
Qed.

Lemma file_total fuel n rel s w c : gets (n :: rel) (File s) -> same_input w -> fit (below (n :: rel)) w -> ready rel w -> free_way dst w ->
  exists w' c', go (S fuel) pats (n :: rel ++ src) (n :: rel ++ dst) c w = (w', Ok c').
Proof.
  intros G Sm Ft Rd Fw. cbn [transfer_dir]. unfold see at 1.
  assert (E := reached_at _ _ _ _ _ _ G). rewrite <- (Sm (n :: rel)) in E. cbn [app] in E. rewrite E.
  destruct (gets_child _ _ _ _ _ _ _ G) as (_ & _ & _ & Ex). rewrite Ex.
  assert (Fe := Ft _ _ G (inside_refl _)). cbn [app] in Fe.
  assert (Nd : isdir (disk w) (n :: rel ++ dst) = false).
  { unfold isdir. destruct (disk w @@ (n :: rel ++ dst)) as [[]|]; try reflexivity. destruct Fe. }
  rewrite Nd. cbn [dirname tl].
  assert (Pr : exists w1, prepare (rel ++ dst) w = (w1, Ok tt) /\ changes (fun _ => False) w w1 /\ disk w1 @@ (rel ++ dst) = Some Dir).
  { unfold prepare, bind, see. destruct Rd as [Rd|[-> Rd]].
    - exists w. unfold exists_at. rewrite Rd. cbn. unfold isdir. rewrite Rd. split; [reflexivity|]. split; [apply changes_refl|reflexivity].
    - cbn [app] in *. destruct (makedirs_total dst w Fw Rd) as [w1 M]. exists w1. unfold exists_at. rewrite Rd, M.
      apply makedirs_spec in M. destruct M as (_ & Gw & D2 & _). unfold isdir. rewrite D2. split; [reflexivity|]. split; [|reflexivity].
      intro q. destruct (Gw q) as [Q|Q]; [left; exact Q|right; right; exact Q]. }
  destruct Pr as (w1 & Pr & Ch & D1). unfold bind at 1. rewrite Pr.
  assert (Sm1 := changes_input _ _ _ _ _ apart1 apart2 _ _ _ Ch Sm).
  unfold transfer_file, see at 1. assert (E1 := Sm1 (n :: rel)). rewrite (reached_at _ _ _ _ _ _ G) in E1. cbn [app] in E1. rewrite E1.
  destruct (converts (exists_text (disk w1)) (n :: rel) s c G) as (t & c1 & Cv). cbn [app] in Cv. rewrite Cv.
  destruct (path_eqb_spec (n :: rel ++ src) (n :: rel ++ dst)) as [Es|_].
  { exfalso. exact (dst_not_src _ _ apart1 apart2 (n :: rel) (n :: rel) (eq_sym Es)). }
  cbn [andb]. unfold bind, write_file, see.
  assert (Same : disk w1 @@ (n :: rel ++ dst) = disk w @@ (n :: rel ++ dst)).
  { apply (changes_other _ _ _ _ _ _ w w1 (n :: rel) Ch); [discriminate|intros r []]. }
  rewrite Same. cbn [dirname tl]. unfold isdir. rewrite D1.
  destruct (disk w @@ (n :: rel ++ dst)) as [[]|]; cbn in Fe; try contradiction; eexists; eexists; reflexivity.
Qed.

Lemma children_total fuel : child_total fuel.
Proof.
  induction fuel as [|fuel IH]; intros n rel e w c G Dp Sm Sd Ft Fw Rd.
  { exfalso. assert (X := Dp _ _ G (inside_refl _)). lia. }
  destruct e.
  - eapply file_total; eassumption.
  - change (n :: rel ++ src) with ((n :: rel) ++ src). change (n :: rel ++ dst) with ((n :: rel) ++ dst) in *.
    apply dir_total; auto.
    + left. exact Rd.
    + intros r e Gr [B _]. exact (Ft r e Gr B).
  - cbn [transfer_dir]. unfold see at 1. assert (E := reached_at _ _ _ _ _ _ G). rewrite <- (Sm (n :: rel)) in E. cbn [app] in E.
    rewrite E. eexists. eexists. reflexivity.
  - destruct (plain _ G).
Qed.

Lemma root_total fuel w c : gets [] Dir -> (forall r e, gets r e -> (List.length r < fuel)%nat) ->
  same_input w -> sound (disk w) -> fit (fun _ => True) w -> free_way dst w ->
  exists w' c', go fuel pats src dst c w = (w', Ok c').
Proof.
  intros G Dp Sm Sd Ft Fw. destruct fuel as [|fuel]; [exfalso; assert (X := Dp _ _ G); cbn in X; lia|].
  apply (dir_total fuel []); auto.
  - apply children_total.
  - intros r e Gr _. cbn. exact (Dp r e Gr).
  - destruct (Fw dst (inside_refl _)); [right; auto|left; assumption].
  - intros r e Gr _. exact (Ft r e Gr I).
Qed.
End Total.

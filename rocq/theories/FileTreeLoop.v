(** Proofs about FileTree.v: an output directory inside the input. *)
From Coq Require Import Permutation Lia.
From Verif Require Import PyStr PyDict PyStrFacts PyDictFacts Ast UtilsFile FileTree FileTreeSpec FileTreeFacts FileTreeMirror FileTreeRun.
Open Scope list_scope.

Section Loop.
Context {C : Type}.
Variable convert : (string -> bool) -> string -> string -> C -> res (string * C).
Variable codes_of : C -> dict Z string.
Variable order : fs -> path -> list string -> list string.
Variable search : string -> string -> bool.
Variable isort : string -> option string.
Variable pats : list string.
Variable top : path.                          (* the input *)
Variable ns : list string.                    (* the names on the way from it to the output *)
Hypothesis any : any_order order.
Hypothesis seen : forall n, In n ns -> hidden n = false.
Hypothesis kept : forall q, (forall n, In n q -> In n ns) -> excluded search pats (q ++ top) = false.

(** Only directories have such a name; the directories [D] stay. *)
Definition only_dirs (w : world) : Prop := forall n p e, disk w @@ (n :: p) = Some e -> inside (n :: p) top -> In n ns -> e = Dir.
Definition inv (D : path -> Prop) (w : world) : Prop :=
  sound (disk w) /\ only_dirs w /\ forall p, D p -> disk w @@ p = Some Dir.
Definition keeps {A} (D : path -> Prop) (a : act A) : Prop := forall w, inv D w -> inv D (fst (a w)).

Lemma keeps_ret {A} D (a : A) : keeps D (ret a). Proof. intros w I. exact I. Qed.
Lemma keeps_fail {A} D e : keeps D (@fail A e). Proof. intros w I. exact I. Qed.
Lemma keeps_bind {A B} D (x : act A) (k : A -> act B) : keeps D x -> (forall a, keeps D (k a)) -> keeps D (bind x k).
Proof.
  intros X K w I. unfold bind. specialize (X w I). destruct (x w) as [w1 [a|e]]; cbn in *; [|exact X]. exact (K a w1 X).
Qed.
Lemma keeps_see {A} D (k : fs -> act A) : (forall w, inv D w -> inv D (fst (k (disk w) w))) -> keeps D (see k).
Proof. intros K w. apply K. Qed.

Lemma inv_set D w p e o : inv D w -> disk w @@ p <> Some Dir ->
  (forall n q, p = n :: q -> inside p top -> In n ns -> e = Dir) ->
  inv D (MkWorld (dset path_eqb p e (disk w)) o).
Proof.
  intros (Sd & O & Dd) Np Ok. split; [|split]; cbn [disk].
  - apply (dset_nodup _ path_eqb_spec). exact Sd.
  - intros n q e'. cbn [disk]. destruct (path_eqb_spec (n :: q) p) as [<-|N].
    + rewrite at_set_same; [|discriminate]. intro X. injection X as <-. apply Ok with (q := q). reflexivity.
    + rewrite (at_set_other _ _ _ _ N). apply O.
  - intros q Dq. destruct (path_eqb_spec q p) as [->|N]; [destruct (Np (Dd _ Dq))|].
    rewrite (at_set_other _ _ _ _ N). exact (Dd _ Dq).
Qed.

Lemma keeps_mkdir D p : keeps D (mkdir p).
Proof.
  apply keeps_see. intros w I. destruct (disk w @@ p) eqn:E; [exact I|].
  destruct (isdir (disk w) (dirname p)); [|exact I]. apply inv_set; [exact I|congruence|reflexivity].
Qed.
Lemma keeps_makedirs D p : keeps D (makedirs p).
Proof.
  induction p as [|n d IH]; cbn [makedirs]; [apply keeps_fail|]. apply keeps_bind; [|intros _; apply keeps_mkdir].
  apply keeps_see. intros w I. destruct (exists_at (disk w) d); [exact I|apply IH; exact I].
Qed.
Lemma keeps_remove D p : keeps D (remove p).
Proof.
  apply keeps_see. intros w (Sd & O & Dd). destruct (disk w @@ p) as [e|] eqn:E; [|split; auto].
  assert (K : e <> Dir -> inv D (fst (doing (Remove p) w))).
  { intro Ne. cbn. split; [|split]; cbn [disk].
    - apply (ddel_nodup _ path_eqb_spec). exact Sd.
    - intros n q e' X. apply O. revert X. cbn. destruct (path_eqb_spec (n :: q) p) as [<-|N].
      + rewrite (ddel_get_same _ path_eqb_spec); [discriminate|exact Sd].
      + rewrite (ddel_get_other _ path_eqb_spec); auto.
    - intros q Dq. destruct q as [|n q]; [reflexivity|]. cbn. rewrite (ddel_get_other _ path_eqb_spec); [exact (Dd _ Dq)|].
      intros <-. rewrite (Dd _ Dq) in E. congruence. }
  destruct e; try (split; [|split]; assumption); apply K; discriminate.
Qed.
Lemma keeps_write D p s : (forall n q, p = n :: q -> ~ In n ns) -> keeps D (write_file p s).
Proof.
  intro N. apply keeps_see. intros w I.
  assert (K : disk w @@ p <> Some Dir -> inv D (fst ((if isdir (disk w) (dirname p) then doing (Write p s) else fail "FileNotFoundError") w))).
  { intro Nd. destruct (isdir (disk w) (dirname p)); [|exact I]. apply inv_set; [exact I|exact Nd|].
    intros n q E _ J. destruct (N n q E J). }
  destruct (disk w @@ p) as [[]|]; try exact I; apply K; discriminate.
Qed.
Lemma keeps_prepare D p : keeps D (prepare p).
Proof.
  unfold prepare. apply keeps_bind.
  - apply keeps_see. intros w I. destruct (exists_at (disk w) p); [exact I|apply keeps_makedirs; exact I].
  - intros _. apply keeps_see. intros w I. destruct (isdir (disk w) p); [exact I|].
    apply (keeps_bind D (remove p) (fun _ => makedirs p)); [apply keeps_remove|intros _; apply keeps_makedirs|exact I].
Qed.

Notation go := (transfer_dir convert order search).
Definition step fuel a b : string -> C -> act C := fun n c =>
            let old := join_path a n in
            let new := join_path b n in
            if excluded search pats old then ret c
            else
              do* _ := see (fun f => if isdir f old && negb (exists_at f new) then makedirs new else ret tt) in
              go fuel pats old new c.

Lemma keeps_for_each D (st : string -> C -> act C) l : (forall n c, keeps D (st n c)) -> forall c, keeps D (for_each st l c).
Proof. intro S. induction l as [|n l IH]; intro c; cbn [for_each]; [apply keeps_ret|]. apply keeps_bind; auto. Qed.

Lemma keeps_go D fuel : forall a b c, inside a top -> (D a \/ exists n a' b', a = n :: a' /\ b = n :: b') -> keeps D (go fuel pats a b c).
Proof.
  induction fuel as [|k IH]; intros a b c Ia Sh; cbn [transfer_dir]; [apply keeps_fail|].
  apply keeps_see. intros w I. destruct (disk w @@ a) as [[s| | |]|] eqn:E; try exact I.
  - destruct (excluded search pats a); [exact I|].
    destruct Sh as [Da|(n & a' & b' & -> & ->)].
    { destruct I as (_ & _ & Dd). rewrite (Dd _ Da) in E. discriminate. }
    assert (Nn : ~ In n ns).
    { intro J. destruct I as (_ & O & _). assert (X := O n a' _ E Ia J). discriminate. }
    revert I. match goal with |- inv D w -> inv D (fst (?x w)) => enough (K : keeps D x) by exact (K w) end.
    cbv zeta. apply keeps_bind; [apply keeps_prepare|]. intros _.
    unfold transfer_file. apply keeps_see. intros w1 I1.
    destruct (disk w1 @@ (n :: a')) as [[s1| | |]|]; try exact I1.
    destruct (convert _ _ s1 c) as [[t c1]|]; [|exact I1].
    match goal with |- inv D (fst ((if ?x then _ else _) _)) => destruct x end; [exact I1|].
    revert I1. match goal with |- inv D w1 -> inv D (fst (?x w1)) => enough (K : keeps D x) by exact (K w1) end.
    apply keeps_bind; [|intros _; apply keeps_ret]. apply keeps_write. intros m q X.
    unfold join_path in X. cbn [basename hd] in X. destruct (isdir (disk w) (n :: b')); injection X as <- _; exact Nn.
  - revert I. match goal with |- inv D w -> inv D (fst (?x w)) => enough (K : keeps D x) by exact (K w) end.
    apply keeps_for_each. intros n c'. cbv zeta. unfold join_path. destruct (excluded search pats (n :: a)); [apply keeps_ret|].
    apply keeps_bind.
    + apply keeps_see. intros w1 I1. destruct (_ && _)%bool; [apply keeps_makedirs; exact I1|exact I1].
    + intros _. apply IH; [apply inside_cons; exact Ia|]. right. exists n, a, b. split; reflexivity.
Qed.
Lemma keeps_step D fuel a b n c : inside a top -> keeps D (step fuel a b n c).
Proof.
  intro Ia. unfold step. cbv zeta. unfold join_path. destruct (excluded search pats (n :: a)); [apply keeps_ret|].
  apply keeps_bind.
  + apply keeps_see. intros w1 I1. destruct (_ && _)%bool; [apply keeps_makedirs; exact I1|exact I1].
  + intros _. apply keeps_go; [apply inside_cons; exact Ia|]. right. exists n, a, b. split; reflexivity.
Qed.

(** The directories on the way from [a] to [r ++ a]. *)
Definition way (r a p : path) : Prop := exists r1 r2, r = r1 ++ r2 /\ p = r2 ++ a.

Lemma loop_fails fuel a b n : inside a top ->
  (forall c w w' c', inv (way (b) a) w -> step fuel a (b ++ a) n c w <> (w', Ok c')) ->
  forall l, In n l -> forall c w w' c', inv (way b a) w -> for_each (step fuel a (b ++ a)) l c w <> (w', Ok c').
Proof.
  intros Ia St l. induction l as [|m l IH]; intros J c w w' c' I H; [destruct J|]. cbn [for_each] in H.
  apply bind_ok in H. destruct H as (w1 & c1 & H1 & H2).
  destruct (string_dec m n) as [->|N]; [exact (St _ _ _ _ I H1)|].
  destruct J as [J|J]; [congruence|]. refine (IH J _ _ _ _ _ H2).
  assert (K := keeps_step (way b a) fuel a (b ++ a) m c Ia w I). rewrite H1 in K. exact K.
Qed.

Lemma never_ends fuel : forall q r c w w' c',
  (forall n, In n q -> In n ns) -> (forall n, In n r -> In n ns) -> r <> [] ->
  inv (way r (q ++ top)) w ->
  go fuel pats (q ++ top) (r ++ q ++ top) c w <> (w', Ok c').
Proof.
  induction fuel as [|k IH]; intros q r c w w' c' Hq Hr Nr I H; [discriminate H|].
  cbn [transfer_dir] in H. unfold see at 1 in H. set (a := q ++ top) in *.
  assert (Da : disk w @@ a = Some Dir).
  { apply (proj2 (proj2 I)). exists r, []. rewrite app_nil_r. split; reflexivity. }
  rewrite Da in H. destruct (exists_last_or r) as [->|(r1 & n & ->)]; [congruence|].
  assert (Ia : inside a top) by (exists q; reflexivity).
  assert (Nn : In n ns) by (apply Hr; apply in_or_app; right; left; reflexivity).
  assert (Dn : forall w1, inv (way (r1 ++ [n]) a) w1 -> disk w1 @@ (n :: a) = Some Dir).
  { intros w1 (_ & _ & Dd). apply Dd. exists r1, [n]. split; reflexivity. }
  revert H. apply (loop_fails k a (r1 ++ [n]) n Ia); auto.
  - clear c w w' c' I Da. intros c w w' c' I H. unfold step in H. cbv zeta in H. unfold join_path in H.
    assert (Kx : excluded search pats (n :: a) = false).
    { apply (kept (n :: q)). intros m [<-|J]; auto. }
    rewrite Kx in H. apply bind_ok in H. destruct H as (w1 & [] & M & H). unfold see in M.
    assert (Iw1 : inv (way (r1 ++ [n]) a) w1 /\ disk w1 @@ (n :: (r1 ++ [n]) ++ a) = Some Dir).
    { unfold isdir in M. rewrite (Dn w I) in M. cbn [andb] in M.
      destruct (exists_at (disk w) (n :: (r1 ++ [n]) ++ a)) eqn:E; cbn [negb] in M.
      - injection M as <-. split; [exact I|]. unfold exists_at in E.
        destruct (disk w @@ (n :: (r1 ++ [n]) ++ a)) as [e|] eqn:X; [|discriminate]. f_equal.
        apply (proj1 (proj2 I) _ _ _ X); [|exact Nn]. exists (n :: (r1 ++ [n]) ++ q). unfold a. cbn. rewrite <- !app_assoc. reflexivity.
      - assert (K := keeps_makedirs (way (r1 ++ [n]) a) (n :: (r1 ++ [n]) ++ a) w I). rewrite M in K. split; [exact K|].
        apply makedirs_spec in M. apply M. }
    destruct Iw1 as [(Sd & O & Dd) Dw1].
    assert (E2 : n :: (r1 ++ [n]) ++ a = (n :: r1) ++ (n :: q) ++ top).
    { unfold a. cbn. rewrite <- app_assoc. reflexivity. }
    rewrite E2 in H. change (n :: a) with ((n :: q) ++ top) in H. revert H. apply IH.
    + intros m [<-|J]; auto.
    + intros m [<-|J]; [exact Nn|]. apply Hr. apply in_or_app. left. exact J.
    + discriminate.
    + split; [exact Sd|]. split; [exact O|]. intros p (x1 & x2 & Ex & ->).
      destruct x1 as [|m x1].
      * cbn in Ex. subst x2. rewrite <- E2. exact Dw1.
      * injection Ex as -> ->. apply Dd. exists x1, (x2 ++ [m]). unfold a. split; [symmetry; apply app_assoc|]. rewrite <- app_assoc. reflexivity.
  - apply filter_In. split; [|rewrite (seen n Nn); reflexivity].
    eapply Permutation_in; [apply Permutation_sym, any|]. apply in_names_at. rewrite (Dn w I). discriminate.
Qed.
End Loop.

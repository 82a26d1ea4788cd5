(** Proofs about FileTree.v: the output mirrors the input. *)
From Coq Require Import Permutation Lia.
From Verif Require Import PyStr PyDict PyStrFacts PyDictFacts Ast UtilsFile FileTree FileTreeSpec FileTreeFacts.
Open Scope list_scope.

Notation "f @@ p" := (at_path f p) (at level 30).

Lemma at_set_same p v f : p <> [] -> dset path_eqb p v f @@ p = Some v.
Proof. intro N. destruct p; [congruence|]. apply (dget_set_same _ path_eqb_spec). Qed.
Lemma at_set_other p q v f : q <> p -> dset path_eqb p v f @@ q = f @@ q.
Proof. intro N. destruct q; [reflexivity|]. apply (dget_set_other _ path_eqb_spec). exact N. Qed.
Lemma isdir_at f p : isdir f p = true <-> f @@ p = Some Dir.
Proof. unfold isdir. destruct (f @@ p) as [[]|]; split; congruence. Qed.

Definition keeps_sound (w w' : world) := sound (disk w) -> sound (disk w').

(** [q] unchanged, or a directory made on the way to [p]. *)
Definition grows (p : path) (w w' : world) : Prop := forall q,
  disk w' @@ q = disk w @@ q \/ (disk w @@ q = None /\ disk w' @@ q = Some Dir /\ inside p q).

Lemma mkdir_ok p w w' x : mkdir p w = (w', Ok x) ->
  p <> [] /\ disk w @@ p = None /\ disk w' @@ p = Some Dir /\ (forall q, q <> p -> disk w' @@ q = disk w @@ q) /\ keeps_sound w w'.
Proof.
  unfold mkdir, see. destruct (disk w @@ p) eqn:E; [discriminate|].
  destruct (isdir (disk w) (dirname p)); [|discriminate]. intro H. injection H as <- _. cbn.
  assert (N : p <> []) by (intros ->; discriminate E). repeat split; auto.
  - apply at_set_same. exact N.
  - intros q Nq. apply at_set_other. exact Nq.
  - intro Sd. apply (dset_nodup _ path_eqb_spec). exact Sd.
Qed.

Lemma bind_ok {A B} (x : act A) (k : A -> act B) w w' b : bind x k w = (w', Ok b) ->
  exists w1 a, x w = (w1, Ok a) /\ k a w1 = (w', Ok b).
Proof. unfold bind. destruct (x w) as [w1 [a|e]]; [|discriminate]. eauto. Qed.

Lemma grows_refl p w : grows p w w. Proof. intro q. left. reflexivity. Qed.
Lemma grows_trans p w1 w2 w3 : grows p w1 w2 -> grows p w2 w3 -> grows p w1 w3.
Proof.
  intros A B q. destruct (A q) as [E|(E1 & E2 & I)], (B q) as [E'|(E1' & E2' & I')].
  - left. congruence.
  - right. rewrite <- E. auto.
  - right. rewrite E'. auto.
  - right. auto.
Qed.

Lemma makedirs_spec p : forall w w' x, makedirs p w = (w', Ok x) ->
  p <> [] /\ grows p w w' /\ disk w' @@ p = Some Dir /\ disk w @@ p = None /\ keeps_sound w w' /\
  (exists_at (disk w) (tl p) = true -> forall q, q <> p -> disk w' @@ q = disk w @@ q).
Proof.
  induction p as [|n d IH]; intros w w' x H; cbn [makedirs] in H; [discriminate|].
  apply bind_ok in H. destruct H as (w1 & a & H1 & H2). unfold see in H1.
  apply mkdir_ok in H2. destruct H2 as (_ & N1 & D & O & Sk).
  assert (G2 : grows (n :: d) w1 w').
  { intro q. destruct (path_eqb_spec q (n :: d)) as [->|Nq]; [right; split; [exact N1|split; [exact D|apply inside_refl]]|left; apply O; exact Nq]. }
  split; [discriminate|]. cbn [tl]. destruct (exists_at (disk w) d) eqn:E.
  - injection H1 as <- _. auto 10.
  - apply IH in H1. destruct H1 as (_ & G & _ & _ & Sk1 & _).
    assert (G1 : grows (n :: d) w w1).
    { intro q. destruct (G q) as [Q|(Q1 & Q2 & Q3)]; [left; exact Q|right]. repeat split; auto. apply inside_cons. exact Q3. }
    split; [exact (grows_trans _ _ _ _ G1 G2)|]. split; [exact D|]. split; [|split].
    + destruct (G1 (n :: d)) as [Q|(Q & _)]; congruence.
    + intro Sd. auto.
    + discriminate.
Qed.

Lemma write_ok p s w w' x : write_file p s w = (w', Ok x) ->
  p <> [] /\ disk w' @@ p = Some (File s) /\ (forall q, q <> p -> disk w' @@ q = disk w @@ q) /\ keeps_sound w w' /\
  disk w @@ p <> Some Dir.
Proof.
  unfold write_file, see. intro H.
  assert (K : isdir (disk w) (dirname p) = true /\ doing (Write p s) w = (w', Ok x) /\ disk w @@ p <> Some Dir).
  { destruct (disk w @@ p) as [[]|]; try discriminate H; destruct (isdir (disk w) (dirname p)); try discriminate H;
      (repeat split; [exact H|discriminate]). }
  destruct K as (_ & K & N). injection K as <- _. cbn.
  assert (Np : p <> []) by (intros ->; apply N; reflexivity). repeat split; auto.
  - apply at_set_same. exact Np.
  - intros q Nq. apply at_set_other. exact Nq.
  - intro Sd. apply (dset_nodup _ path_eqb_spec). exact Sd.
Qed.

(** * Names of a directory *)
Lemma in_names f p n : In n (names f p) <-> In (n :: p) (dkeys f).
Proof.
  unfold names. rewrite in_flat_map. split.
  - intros ([|m d] & I & J); [destruct J|]. destruct (path_eqb_spec d p) as [->|]; [|destruct J].
    destruct J as [->|[]]. exact I.
  - intro I. exists (n :: p). split; [exact I|]. destruct (path_eqb_spec p p) as [_|N]; [left; reflexivity|congruence].
Qed.
Lemma in_names_at f p n : In n (names f p) <-> f @@ (n :: p) <> None.
Proof.
  rewrite in_names. cbn [at_path]. rewrite (dget_none_iff _ path_eqb_spec). split; [tauto|].
  intro H. destruct (dkeys_dec _ path_eqb_spec (n :: p) f) as [I|I]; [exact I|contradiction].
Qed.
Lemma names_nodup f p : sound f -> NoDup (names f p).
Proof.
  unfold sound, names. induction (dkeys f) as [|q l IH]; intro Sd; [constructor|].
  inversion Sd as [|? ? Nq Nl]; subst. cbn [flat_map]. destruct q as [|m d]; [apply IH; exact Nl|].
  destruct (path_eqb_spec d p) as [->|]; [|apply IH; exact Nl]. cbn. constructor; [|apply IH; exact Nl].
  intro I. apply Nq. apply in_flat_map in I. destruct I as ([|m' d'] & I & J); [destruct J|].
  destruct (path_eqb_spec d' p) as [->|]; [|destruct J]. destruct J as [->|[]]. exact I.
Qed.

Lemma nodup_app {A} (l m : list A) : NoDup l -> NoDup m -> (forall x, In x l -> In x m -> False) -> NoDup (l ++ m).
Proof.
  induction 1 as [|x l N Nd IH]; intros Nm D; [exact Nm|]. cbn. constructor.
  - intro I. apply in_app_or in I. destruct I as [I|I]; [exact (N I)|]. apply (D x); [left; reflexivity|exact I].
  - apply IH; [exact Nm|]. intros y I J. apply (D y); [right; exact I|exact J].
Qed.
Lemma exists_last_or {A} (l : list A) : l = [] \/ exists m x, l = m ++ [x].
Proof. destruct l as [|a l]; [left; reflexivity|right]. destruct (exists_last (l := a :: l)) as (m & x & E); [discriminate|]. eauto. Qed.
Lemma app_tail_same {A} (r1 r2 a b : list A) : r1 ++ a = r2 ++ b -> List.length a = List.length b -> a = b.
Proof.
  revert r2. induction r1 as [|x r1 IH]; intros [|y r2] E L; cbn in E; [exact E| | |].
  - subst a. cbn in L. rewrite app_length in L. lia.
  - subst b. cbn in L. rewrite app_length in L. lia.
  - injection E as _ E. exact (IH _ E L).
Qed.

(** * The conversion of a subtree *)
Definition below (rel r : path) : Prop := inside r rel.

Section Mirror.
Context {C : Type}.
Variable convert : (string -> bool) -> string -> string -> C -> res (string * C).
Variable order : fs -> path -> list string -> list string.
Variable search : string -> string -> bool.
Variable pats : list string.
Variable f0 : fs.
Variables src dst : path.
Hypothesis any : any_order order.
Hypothesis apart1 : ~ inside dst src.
Hypothesis apart2 : ~ inside src dst.

Notation ex := (excluded search pats).
Notation gets := (reached ex f0 src).
Notation go := (transfer_dir convert order search).

Lemma reached_at rel e : gets rel e -> f0 @@ (rel ++ src) = Some e.
Proof. intros []; assumption. Qed.
Lemma reached_dirs r rel e : gets (r ++ rel) e -> r <> [] -> gets rel Dir.
Proof.
  revert e. induction r as [|n r IH]; intros e G N; [congruence|]. inversion G; subst.
  destruct r as [|m r]; [assumption|]. eapply IH; [eassumption|discriminate].
Qed.

(** The input is as it was. *)
Definition same_input (w : world) : Prop := forall r, disk w @@ (r ++ src) = f0 @@ (r ++ src).

Lemma dst_not_src r r' : r ++ dst <> r' ++ src.
Proof.
  intro E. destruct (suffix_comparable _ _ _ _ E) as [I|I]; [apply apart1|apply apart2]; exact I.
Qed.
Lemma src_up r r' q : dst = r ++ q -> q = r' ++ src -> False.
Proof. intros E1 E2. apply apart1. exists (r ++ r'). rewrite <- app_assoc, <- E2. exact E1. Qed.

(** Only the output of the selected relative paths, and directories on the way to [dst]. *)
Definition changes (P : path -> Prop) (w w' : world) : Prop := forall q,
  disk w' @@ q = disk w @@ q \/
  (exists r e, gets r e /\ P r /\ r <> [] /\ q = r ++ dst /\ match e with File _ | Dir => True | _ => False end) \/
  (disk w @@ q = None /\ disk w' @@ q = Some Dir /\ inside dst q).

Record post (P : path -> Prop) (w w' : world) (c c' : C) : Prop := MkPost {
  p_list : exists l, conversions (looks_at f0 (fun p => inside p src)) convert src c l c' /\ NoDup (map (fun x => fst (fst x)) l) /\
           (forall r s, (exists t, In (r, s, t) l) <-> (gets r (File s) /\ P r)) /\
           (forall r s t, In (r, s, t) l -> disk w' @@ (r ++ dst) = Some (File t));
  p_dirs : forall r, gets r Dir -> P r -> r <> [] -> disk w' @@ (r ++ dst) = Some Dir;
  p_changes : changes P w w';
  p_sound : sound (disk w) -> sound (disk w')
}.

Lemma changes_input P w w' : changes P w w' -> same_input w -> same_input w'.
Proof.
  intros Ch Sm r. rewrite <- (Sm r). destruct (Ch (r ++ src)) as [E|[(r' & e & _ & _ & _ & E & _)|(_ & _ & [r' E])]].
  - exact E.
  - exfalso. exact (dst_not_src _ _ (eq_sym E)).
  - exfalso. exact (src_up _ _ _ E eq_refl).
Qed.
Lemma changes_weaken (P Q : path -> Prop) w w' : (forall r, P r -> Q r) -> changes P w w' -> changes Q w w'.
Proof.
  intros I Ch q. destruct (Ch q) as [E|[(r & e & A & B & D)|E]]; [left; exact E| |right; right; exact E].
  right. left. exists r, e. auto.
Qed.
Lemma changes_trans P w1 w2 w3 : changes P w1 w2 -> changes P w2 w3 -> changes P w1 w3.
Proof.
  intros A B q. destruct (B q) as [E|[E|(E1 & E2 & I)]]; [|right; left; exact E|].
  - rewrite E. destruct (A q) as [E'|[E'|E']]; auto.
  - destruct (A q) as [E'|[E'|(E1' & E2' & I')]]; [|right; left; exact E'|congruence].
    right. right. rewrite <- E'. auto.
Qed.
Lemma changes_refl P w : changes P w w. Proof. intro q. left. reflexivity. Qed.

(** What is at the output of [r], not selected by [P], below [dst]. *)
Lemma changes_other (P : path -> Prop) w w' r : changes P w w' -> r <> [] -> (forall r' , P r' -> r' <> r) -> disk w' @@ (r ++ dst) = disk w @@ (r ++ dst).
Proof.
  intros Ch N NP. destruct (Ch (r ++ dst)) as [E|[(r' & e & _ & Pr & _ & E & _)|(_ & _ & [r' E])]]; [exact E| |].
  - apply app_inv_tail in E. subst r'. destruct (NP _ Pr). reflexivity.
  - exfalso. apply N. assert (L : List.length dst = List.length (r' ++ r ++ dst)) by (rewrite <- E; reflexivity).
    rewrite !app_length in L. destruct r; [reflexivity|cbn in L; lia].
Qed.

Definition fit (P : path -> Prop) (w : world) : Prop :=
  forall r e, gets r e -> P r -> fits e (disk w @@ (r ++ dst)).

Lemma conversions_app looks c1 l1 c2 l2 c3 :
  conversions looks convert src c1 l1 c2 -> conversions looks convert src c2 l2 c3 -> conversions looks convert src c1 (l1 ++ l2) c3.
Proof. induction 1; intro B; [exact B|]. econstructor; [eassumption|eassumption|]. auto. Qed.
(** [os.path.exists] sees the disk. *)
Lemma found_key (d : fs) p e : dget path_eqb p d = Some e -> In p (dkeys d).
Proof.
  induction d as [|[q x] d IH]; cbn [dget]; [discriminate|]. destruct (path_eqb_spec p q) as [->|N]; [left; reflexivity|].
  intros H. right. exact (IH H).
Qed.
Lemma exists_text_spec g s : exists_text g s = true <-> s = "/"%string \/ exists p e, p <> [] /\ s = render p /\ g @@ p = Some e /\ e <> Dangling.
Proof.
  unfold exists_text. rewrite orb_true_iff, andb_true_iff, negb_true_iff, existsb_exists, String.eqb_eq. split.
  - intros [->|[Ne (p & I & H)]]; [left; reflexivity|right]. apply andb_true_iff in H as [R X]. apply String.eqb_eq in R. subst s.
    assert (Np : p <> []) by (intros ->; discriminate Ne). unfold exists_at in X. destruct (g @@ p) as [e|] eqn:E; [|discriminate].
    exists p, e. repeat split; auto. intros ->. discriminate X.
  - intros [->|(p & e & Np & -> & E & Nd)]; [left; reflexivity|right]. split.
    + destruct p as [|n p]; [congruence|]. unfold render. cbn [rev]. destruct (rev p) as [|m q]; [reflexivity|]. cbn. destruct (map _ _); reflexivity.
    + exists p. split.
      * destruct p as [|n p]; [congruence|]. cbn [at_path] in E. exact (found_key g _ _ E).
      * rewrite String.eqb_refl. unfold exists_at. rewrite E. destruct e; auto; congruence.
Qed.
Lemma looks_now w : same_input w -> looks_at f0 (fun p => inside p src) (exists_text (disk w)).
Proof. intros Sm. exists (disk w). split; [intros p [r ->]; apply Sm|]. intros s. apply exists_text_spec. Qed.

Lemma post_nothing (P : path -> Prop) w c : (forall r e, gets r e -> P r -> match e with File _ | Dir => False | _ => True end) -> post P w w c c.
Proof.
  intro N. split.
  - exists []. split; [constructor|]. split; [constructor|]. split; [|intros r s t []].
    intros r s. split; [intros [t []]|]. intros [G Pr]. destruct (N _ _ G Pr).
  - intros r G Pr _. destruct (N _ _ G Pr).
  - apply changes_refl.
  - auto.
Qed.

(** Two disjoint parts one after the other. *)
Lemma post_seq (P Q : path -> Prop) w1 w2 w3 c1 c2 c3 :
  (forall r, P r -> r <> []) -> (forall r, Q r -> r <> []) -> (forall r, P r -> Q r -> False) ->
  post P w1 w2 c1 c2 -> post Q w2 w3 c2 c3 -> post (fun r => P r \/ Q r) w1 w3 c1 c3.
Proof.
  intros NP NQ Dj [(l1 & K1 & N1 & I1 & F1) D1 Ch1 S1] [(l2 & K2 & N2 & I2 & F2) D2 Ch2 S2]. split.
  - exists (l1 ++ l2). split; [eapply conversions_app; eassumption|]. split; [|split].
    + rewrite map_app. apply nodup_app; auto. intros r J1 J2. apply in_map_iff in J1. destruct J1 as ([[r1 s1] t1] & <- & J1).
      apply in_map_iff in J2. destruct J2 as ([[r2 s2] t2] & E & J2). cbn in *. subst r2.
      apply (Dj r1); [apply (I1 r1 s1)|apply (I2 r1 s2)]; eauto.
    + intros r s. split.
      * intros [t J]. apply in_app_or in J. destruct J as [J|J].
        -- destruct (proj1 (I1 r s) (ex_intro _ t J)). auto.
        -- destruct (proj1 (I2 r s) (ex_intro _ t J)). auto.
      * intros [G [Pr|Qr]].
        -- destruct (proj2 (I1 r s) (conj G Pr)) as [t J]. exists t. apply in_or_app. left. exact J.
        -- destruct (proj2 (I2 r s) (conj G Qr)) as [t J]. exists t. apply in_or_app. right. exact J.
    + intros r s t J. apply in_app_or in J. destruct J as [J|J]; [|exact (F2 _ _ _ J)].
      rewrite <- (F1 _ _ _ J). destruct (proj1 (I1 r s) (ex_intro _ t J)) as [_ Pr].
      apply (changes_other Q); [exact Ch2|exact (NP _ Pr)|]. intros r' Qr ->. exact (Dj _ Pr Qr).
  - intros r G [Pr|Qr] N; [|exact (D2 r G Qr N)]. rewrite <- (D1 r G Pr N).
    apply (changes_other Q); [exact Ch2|exact N|]. intros r' Qr ->. exact (Dj _ Pr Qr).
  - eapply changes_trans; eapply changes_weaken; [|exact Ch1| |exact Ch2]; auto.
  - auto.
Qed.
Lemma post_ext (P Q : path -> Prop) w w' c c' :
  (forall r e, gets r e -> P r <-> Q r) -> post P w w' c c' -> post Q w w' c c'.
Proof.
  intros E [(l & K & N & I & F) D Ch Sd]. split.
  - exists l. split; [exact K|]. split; [exact N|]. split; [|exact F]. intros r s. rewrite I. split; intros [G Pr]; (split; [exact G|]);
      apply (E _ _ G); exact Pr.
  - intros r G Qr. apply D; [exact G|]. apply (E _ _ G). exact Qr.
  - intro q. destruct (Ch q) as [X|[(r & e & G & Pr & X)|X]]; auto. right. left. exists r, e. split; [exact G|].
    split; [apply (E _ _ G); exact Pr|exact X].
  - exact Sd.
Qed.

Lemma below_split rel r : below rel r -> r = rel \/ exists n, below (n :: rel) r.
Proof.
  intros [r0 ->]. destruct (exists_last_or r0) as [->|(r1 & n & ->)]; [left; reflexivity|right].
  exists n, r1. rewrite <- app_assoc. reflexivity.
Qed.
Lemma below_child rel n r : below (n :: rel) r -> below rel r /\ r <> rel /\ r <> [].
Proof.
  intros [r0 ->]. split; [exists (r0 ++ [n]); rewrite <- app_assoc; reflexivity|]. split.
  - intro E. apply (f_equal (@List.length _)) in E. rewrite app_length in E. cbn in E. lia.
  - destruct r0; discriminate.
Qed.
Lemma below_apart rel n m r : below (n :: rel) r -> below (m :: rel) r -> n = m.
Proof.
  intros [r1 ->] [r2 E]. apply app_tail_same in E; [congruence|reflexivity].
Qed.

(** The directory of the new files is there, or is [dst] itself. *)
Definition ready (rel : path) (w : world) : Prop :=
  disk w @@ (rel ++ dst) = Some Dir \/ (rel = [] /\ disk w @@ dst = None).

Lemma ready_kept (P : path -> Prop) rel w w' : (forall r, P r -> r <> rel) -> changes P w w' -> ready rel w -> ready rel w'.
Proof.
  intros N Ch R. destruct (Ch (rel ++ dst)) as [E|[(r & e & _ & Pr & _ & E & _)|(_ & E & _)]].
  - destruct R as [R|[-> R]]; [left; congruence|right; cbn in *; split; congruence].
  - apply app_inv_tail in E. destruct (N _ Pr). congruence.
  - left. exact E.
Qed.

Definition child_ok (fuel : nat) : Prop := forall n rel e w c w' c',
  gets (n :: rel) e -> same_input w -> sound (disk w) -> fit (below (n :: rel)) w ->
  (match e with Dir => disk w @@ (n :: rel ++ dst) = Some Dir | _ => ready rel w end) ->
  go fuel pats (n :: rel ++ src) (n :: rel ++ dst) c w = (w', Ok c') -> post (below (n :: rel)) w w' c c'.

Lemma gets_child n rel e : gets (n :: rel) e -> gets rel Dir /\ hidden n = false /\ f0 @@ (n :: rel ++ src) = Some e /\ ex (n :: rel ++ src) = false.
Proof. intro G. inversion G; subst. auto. Qed.
Lemma gets_at_child n rel r e : gets r e -> below (n :: rel) r -> exists e', gets (n :: rel) e'.
Proof.
  intros G [r0 ->]. destruct r0 as [|m r0]; [exists e; exact G|]. exists Dir.
  apply (reached_dirs (m :: r0) (n :: rel) e); [exact G|discriminate].
Qed.

Lemma fit_kept (P Q : path -> Prop) w w' : (forall r, Q r -> r <> []) -> (forall r, P r -> Q r -> False) -> changes P w w' -> fit Q w -> fit Q w'.
Proof.
  intros N Dj Ch Ft r e G Qr. rewrite (changes_other P w w' r); [exact (Ft r e G Qr)|exact Ch|exact (N _ Qr)|].
  intros r' Pr ->. exact (Dj _ Pr Qr).
Qed.

(** The loop over the names of a directory. *)
Lemma loop_post fuel rel : child_ok fuel -> gets rel Dir -> forall ns w c w' c',
  NoDup ns -> (forall n, In n ns -> hidden n = false /\ f0 @@ (n :: rel ++ src) <> None) ->
  same_input w -> sound (disk w) -> ready rel w -> (forall n, In n ns -> fit (below (n :: rel)) w) ->
  for_each (fun n c =>
            let old := join_path (rel ++ src) n in
            let new := join_path (rel ++ dst) n in
            if ex old then ret c
            else
              do* _ := see (fun f => if isdir f old && negb (exists_at f new) then makedirs new else ret tt) in
              go fuel pats old new c) ns c w = (w', Ok c') ->
  post (fun r => exists n, In n ns /\ below (n :: rel) r) w w' c c'.
Proof.
  intros IH G ns. induction ns as [|n ns IHn]; intros w c w' c' Nd V Sm Sd Rd Ft H; cbn [for_each] in H.
  { injection H as <- <-. apply post_nothing. intros r e _ (m & [] & _). }
  apply bind_ok in H. destruct H as (w1 & c1 & H1 & H2). inversion Nd as [|? ? Nn Nd']; subst.
  assert (P1 : post (below (n :: rel)) w w1 c c1).
  { clear H2 IHn. cbv zeta in H1. unfold join_path in H1. destruct (V n (or_introl eq_refl)) as [Vn At].
    destruct (ex (n :: rel ++ src)) eqn:Ex.
    - injection H1 as <- <-. apply post_nothing. intros r e Gr Br. exfalso.
      destruct (gets_at_child _ _ _ _ Gr Br) as [e' Ge]. apply gets_child in Ge. destruct Ge as (_ & _ & _ & Ge). congruence.
    - apply bind_ok in H1. destruct H1 as (w2 & x & M & T). unfold see in M.
      destruct (f0 @@ (n :: rel ++ src)) as [e|] eqn:E0; [|congruence].
      assert (Gn : gets (n :: rel) e) by (constructor; assumption).
      assert (En : disk w @@ (n :: rel ++ src) = Some e) by (rewrite <- E0; exact (Sm (n :: rel))).
      assert (Fn := Ft n (or_introl eq_refl)). assert (Fe := Fn _ _ Gn (inside_refl _)).
      destruct (isdir (disk w) (n :: rel ++ src)) eqn:Di.
      + apply isdir_at in Di. rewrite En in Di. injection Di as ->.
        destruct (exists_at (disk w) (n :: rel ++ dst)) eqn:Ea; cbn [negb andb] in M.
        * injection M as <- _. apply (IH n rel Dir); auto. unfold exists_at in Ea. cbn [app] in Fe.
          destruct (disk w @@ (n :: rel ++ dst)) as [[]|]; cbn in Fe; try contradiction; try discriminate Ea. reflexivity.
        * apply makedirs_spec in M. cbn [tl] in M. destruct M as (_ & Gw & D2 & N0 & K2 & O2).
          assert (C2 : changes (fun r => r = n :: rel) w w2).
          { intro q. destruct (path_eqb_spec q (n :: rel ++ dst)) as [->|Nq].
            { right. left. exists (n :: rel), Dir. repeat split; auto. discriminate. }
            destruct Rd as [Rd|[-> Rd]].
            - left. apply O2; [|exact Nq]. unfold exists_at. rewrite Rd. reflexivity.
            - destruct (Gw q) as [Q|(Q1 & Q2 & Q3)]; [left; exact Q|right; right]. repeat split; auto.
              cbn [app] in *. destruct Q3 as [[|m r3] Q3]; cbn in Q3; [congruence|]. injection Q3 as _ Q3. exists r3. exact Q3. }
          assert (Sm2 : same_input w2) by (eapply changes_input; eassumption).
          assert (P2 : post (below (n :: rel)) w2 w1 c c1).
          { apply (IH n rel Dir); auto. intros r e Gr Br.
            destruct (path_eqb_spec r (n :: rel)) as [->|Nr].
            - cbn [app]. rewrite D2. apply reached_at in Gr. rewrite (reached_at _ _ Gn) in Gr. injection Gr as <-. exact I.
            - rewrite (changes_other _ w w2 r C2); [exact (Fn _ _ Gr Br)|exact (proj2 (proj2 (below_child _ _ _ Br)))|].
              intros r' -> E. congruence. }
          destruct P2 as [L2 Ds Ch Sk]. split; auto.
          eapply changes_trans; [|exact Ch]. eapply changes_weaken; [|exact C2]. intros r ->. apply inside_refl.
      + cbn [andb] in M. injection M as <- _. apply (IH n rel e); auto.
        assert (N : e <> Dir) by (intros ->; unfold isdir in Di; rewrite En in Di; discriminate).
        destruct e; auto. congruence. }
  assert (Dj : forall r m, In m ns -> below (n :: rel) r -> below (m :: rel) r -> False).
  { intros r m I B1 B2. apply Nn. rewrite (below_apart _ _ _ _ B1 B2). exact I. }
  assert (P2 : post (fun r => exists m, In m ns /\ below (m :: rel) r) w1 w' c1 c').
  { apply IHn; auto.
    - intros m I. apply V. right. exact I.
    - eapply changes_input; [exact (p_changes _ _ _ _ _ P1)|exact Sm].
    - exact (p_sound _ _ _ _ _ P1 Sd).
    - eapply ready_kept; [|exact (p_changes _ _ _ _ _ P1)|exact Rd]. intros r B. apply (below_child _ _ _ B).
    - intros m I. eapply fit_kept; [| |exact (p_changes _ _ _ _ _ P1)|apply Ft; right; exact I].
      + intros r B. apply (below_child _ _ _ B).
      + intros r B1 B2. exact (Dj _ _ I B1 B2). }
  eapply post_ext; [|eapply post_seq; [| | |exact P1|exact P2]].
  - intros r e _. cbn. split.
    + intros [B|(m & I & B)]; [exists n; auto|exists m; auto].
    + intros (m & [->|I] & B); [left; exact B|right; exists m; auto].
  - intros r B. apply (below_child _ _ _ B).
  - intros r (m & _ & B). apply (below_child _ _ _ B).
  - intros r B1 (m & I & B2). exact (Dj _ _ I B1 B2).
Qed.

(** A directory. *)
Lemma dir_post fuel rel w c w' c' : child_ok fuel -> gets rel Dir -> same_input w -> sound (disk w) -> ready rel w ->
  (rel <> [] -> disk w @@ (rel ++ dst) = Some Dir) ->
  fit (fun r => below rel r /\ r <> rel) w ->
  go (S fuel) pats (rel ++ src) (rel ++ dst) c w = (w', Ok c') -> post (below rel) w w' c c'.
Proof.
  intros IH G Sm Sd Rd Dr Ft H. cbn [transfer_dir] in H. unfold see at 1 in H.
  rewrite (Sm rel), (reached_at _ _ G) in H.
  assert (In1 : forall n, In n (filter (fun n => negb (hidden n)) (order (disk w) (rel ++ src) (names (disk w) (rel ++ src)))) <->
                hidden n = false /\ f0 @@ (n :: rel ++ src) <> None).
  { intro n. rewrite filter_In, negb_true_iff. replace (f0 @@ (n :: rel ++ src)) with (disk w @@ (n :: rel ++ src)) by exact (Sm (n :: rel)). rewrite <- in_names_at.
    assert (Q := any (disk w) (rel ++ src) (names (disk w) (rel ++ src))). split; intros [A B]; split; auto.
    - eapply Permutation_in; eassumption.
    - eapply Permutation_in; [apply Permutation_sym|]; eassumption. }
  apply (loop_post fuel rel) in H; auto.
  - destruct H as [(l & K & N & I & F) D Ch Sk]. split.
    + exists l. split; [exact K|]. split; [exact N|]. split; [|exact F]. intros r s. rewrite I. split.
      * intros [Gr (n & _ & B)]. split; [exact Gr|]. apply (below_child _ _ _ B).
      * intros [Gr B]. split; [exact Gr|]. destruct (below_split _ _ B) as [->|[n Bn]].
        { apply reached_at in Gr. rewrite (reached_at _ _ G) in Gr. discriminate. }
        exists n. split; [|exact Bn]. apply In1. destruct (gets_at_child _ _ _ _ Gr Bn) as [e' Ge].
        apply gets_child in Ge. destruct Ge as (_ & V & A & _). split; [exact V|]. rewrite A. discriminate.
    + intros r Gr B Nr. destruct (below_split _ _ B) as [->|[n Bn]].
      * rewrite (changes_other _ _ _ _ Ch Nr); [exact (Dr Nr)|]. intros r' (n & _ & Bn). apply (below_child _ _ _ Bn).
      * apply D; auto. exists n. split; [|exact Bn]. apply In1. destruct (gets_at_child _ _ _ _ Gr Bn) as [e' Ge].
        apply gets_child in Ge. destruct Ge as (_ & V & A & _). split; [exact V|]. rewrite A. discriminate.
    + eapply changes_weaken; [|exact Ch]. intros r (n & _ & B). apply (below_child _ _ _ B).
    + exact Sk.
  - apply NoDup_filter. eapply Permutation_NoDup; [apply Permutation_sym, any|]. apply names_nodup. exact Sd.
  - intros n I. apply In1. exact I.
  - intros n _ r e Gr B. apply Ft; [exact Gr|]. split; apply (below_child _ _ _ B).
Qed.

(** A file. *)
Lemma file_post fuel n rel s w c w' c' : gets (n :: rel) (File s) -> same_input w -> fit (below (n :: rel)) w -> ready rel w ->
  go (S fuel) pats (n :: rel ++ src) (n :: rel ++ dst) c w = (w', Ok c') -> post (below (n :: rel)) w w' c c'.
Proof.
  intros G Sm Ft Rd H. cbn [transfer_dir] in H. unfold see at 1 in H.
  assert (E := reached_at _ _ G). rewrite <- (Sm (n :: rel)) in E. cbn [app] in E. rewrite E in H.
  destruct (gets_child _ _ _ G) as (_ & _ & _ & Ex). rewrite Ex in H.
  assert (Fe := Ft _ _ G (inside_refl _)). cbn [app] in Fe.
  assert (Nd : isdir (disk w) (n :: rel ++ dst) = false).
  { unfold isdir. destruct (disk w @@ (n :: rel ++ dst)) as [[]|]; try reflexivity. destruct Fe. }
  rewrite Nd in H. cbn [dirname tl] in H.
  apply bind_ok in H. destruct H as (w1 & x & Pr & T).
  assert (W1 : changes (fun _ => False) w w1 /\ (sound (disk w) -> sound (disk w1))).
  { unfold prepare in Pr. apply bind_ok in Pr. destruct Pr as (w2 & y & M1 & M2). unfold see in M1, M2.
    destruct Rd as [Rd|[-> Rd]].
    - unfold exists_at in M1. rewrite Rd in M1. injection M1 as <- _.
      unfold isdir in M2. rewrite Rd in M2. injection M2 as <- _. split; [apply changes_refl|auto].
    - cbn [app] in *. unfold exists_at in M1. rewrite Rd in M1. apply makedirs_spec in M1.
      destruct M1 as (_ & Gw & D2 & _ & K & _). unfold isdir in M2. rewrite D2 in M2. injection M2 as <- _. split; [|exact K].
      intro q. destruct (Gw q) as [Q|Q]; [left; exact Q|right; right; exact Q]. }
  destruct W1 as [Ch1 Sk1]. assert (Sm1 := changes_input _ _ _ Ch1 Sm).
  unfold transfer_file, see at 1 in T. assert (E1 := Sm1 (n :: rel)). rewrite (reached_at _ _ G) in E1. cbn [app] in E1.
  rewrite E1 in T. destruct (convert _ _ s c) as [[text c2]|] eqn:Cv; [|discriminate].
  destruct (path_eqb_spec (n :: rel ++ src) (n :: rel ++ dst)) as [Es|_].
  { exfalso. exact (dst_not_src (n :: rel) (n :: rel) (eq_sym Es)). }
  cbn [andb] in T. apply bind_ok in T. destruct T as (w3 & y & Wr & T). injection T as <- <-.
  apply write_ok in Wr. destruct Wr as (_ & A & O & Sk & _). split.
  - exists [(n :: rel, s, text)]. split; [econstructor; [exact (looks_now _ Sm1)|exact Cv|constructor]|]. split; [repeat constructor; intros []|]. split.
    + intros r s'. split.
      * intros [t [J|[]]]. injection J as <- <- _. split; [exact G|apply inside_refl].
      * intros [Gr [r0 ->]]. destruct r0 as [|m r0].
        { cbn in *. assert (X := reached_at _ _ Gr). rewrite (reached_at _ _ G) in X. injection X as ->. exists text. left. reflexivity. }
        exfalso. apply reached_dirs in Gr; [|discriminate]. assert (X := reached_at _ _ Gr). rewrite (reached_at _ _ G) in X. discriminate.
    + intros r s' t [J|[]]. injection J as <- <- <-. exact A.
  - intros r Gr [r0 ->] _. exfalso. destruct r0 as [|m r0].
    + assert (X := reached_at _ _ Gr). rewrite app_nil_l, (reached_at _ _ G) in X. discriminate.
    + apply reached_dirs in Gr; [|discriminate]. assert (X := reached_at _ _ Gr). rewrite (reached_at _ _ G) in X. discriminate.
  - eapply changes_trans; [eapply changes_weaken; [|exact Ch1]; intros r []|]. intro q.
    destruct (path_eqb_spec q (n :: rel ++ dst)) as [->|Nq]; [|left; apply O; exact Nq].
    right. left. exists (n :: rel), (File s). repeat split; auto; [apply inside_refl|discriminate].
  - auto.
Qed.

Lemma children_ok fuel : child_ok fuel.
Proof.
  induction fuel as [|fuel IH]; intros n rel e w c w' c' G Sm Sd Ft Rd H; [discriminate H|].
  destruct e.
  - eapply file_post; eassumption.
  - change (n :: rel ++ src) with ((n :: rel) ++ src) in H. change (n :: rel ++ dst) with ((n :: rel) ++ dst) in *.
    eapply dir_post; eauto.
    + left. exact Rd.
    + intros r e Gr [B _]. exact (Ft r e Gr B).
  - cbn [transfer_dir] in H. unfold see at 1 in H. assert (E := reached_at _ _ G). rewrite <- (Sm (n :: rel)) in E. cbn [app] in E.
    rewrite E in H. injection H as <- <-. apply post_nothing. intros r e Gr [r0 ->].
    destruct r0 as [|m r0]; [assert (X := reached_at _ _ Gr); rewrite app_nil_l, (reached_at _ _ G) in X; injection X as <-; exact I|].
    apply reached_dirs in Gr; [|discriminate]. assert (X := reached_at _ _ Gr). rewrite (reached_at _ _ G) in X. discriminate.
  - cbn [transfer_dir] in H. unfold see at 1 in H. assert (E := reached_at _ _ G). rewrite <- (Sm (n :: rel)) in E. cbn [app] in E.
    rewrite E in H. discriminate.
Qed.

Lemma root_post fuel w c w' c' : gets [] Dir -> same_input w -> sound (disk w) -> fit (fun _ => True) w ->
  go fuel pats src dst c w = (w', Ok c') -> post (fun _ => True) w w' c c'.
Proof.
  intros G Sm Sd Ft H. destruct fuel as [|fuel]; [discriminate H|].
  assert (Fd := Ft _ _ G I). cbn [app] in Fd.
  eapply post_ext; [|eapply (dir_post fuel []); eauto].
  - intros r e _. split; auto. intros _. exists r. rewrite app_nil_r. reflexivity.
  - apply children_ok.
  - unfold ready. cbn [app]. destruct (disk w @@ dst) as [[]|] eqn:X; try (destruct Fd); auto.
  - congruence.
  - intros r e Gr _. exact (Ft r e Gr I).
Qed.
End Mirror.


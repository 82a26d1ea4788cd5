(** Proofs about [--separate_convert]: several conversions one after the other. *)
From Coq Require Import Permutation Lia.
From Verif Require Import PyStr PyDict UtilsFile Ast BasicPass Converter Shipped Program Main.
From Verif Require FileTree FileTreeSpec FileTreeFacts FileTreeMirror FileTreeRun.
Import FileTree FileTreeSpec FileTreeFacts FileTreeMirror FileTreeRun.
Open Scope list_scope.

(** ** Only the disk counts, not what was done before *)
Definition blind {A} (a : act A) : Prop := forall w w', disk w = disk w' ->
  disk (fst (a w)) = disk (fst (a w')) /\ snd (a w) = snd (a w').
Lemma ret_blind {A} (x : A) : blind (ret x). Proof. intros w w' E. split; [exact E|reflexivity]. Qed.
Lemma fail_blind {A} e : blind (@fail A e). Proof. intros w w' E. split; [exact E|reflexivity]. Qed.
Lemma doing_blind o : blind (doing o). Proof. intros w w' E. cbn. rewrite E. auto. Qed.
Lemma bind_blind {A B} (a : act A) (k : A -> act B) : blind a -> (forall x, blind (k x)) -> blind (FileTree.bind a k).
Proof.
  intros H K w w' E. destruct (H w w' E) as [D R]. unfold FileTree.bind.
  destruct (a w) as [w1 [x|e]], (a w') as [w1' [x'|e']]; cbn [fst snd] in *; try discriminate R.
  - injection R as <-. apply K, D.
  - injection R as <-. auto.
Qed.
Lemma see_blind {A} (k : fs -> act A) : (forall f, blind (k f)) -> blind (see k).
Proof. intros H w w' E. unfold see. rewrite <- E. apply H, E. Qed.
#[local] Hint Resolve ret_blind fail_blind doing_blind bind_blind see_blind : blind.
Ltac blinds := repeat first [apply bind_blind; intros | apply see_blind; intros | apply ret_blind | apply fail_blind | apply doing_blind
  | match goal with |- blind (match ?x with _ => _ end) => destruct x end
  | match goal with |- blind (if ?x then _ else _) => destruct x end | solve [auto with blind]].
Lemma makedirs_blind p : blind (makedirs p).
Proof. induction p as [|n d IH]; cbn [makedirs]; unfold mkdir; blinds. Qed.
#[local] Hint Resolve makedirs_blind : blind.
Lemma write_blind p s : blind (write_file p s). Proof. unfold write_file. blinds. Qed.
Lemma remove_blind p : blind (remove p). Proof. unfold remove. blinds. Qed.
#[local] Hint Resolve write_blind remove_blind : blind.
Lemma for_each_blind {C} (step : string -> C -> act C) l : (forall n c, blind (step n c)) -> forall c, blind (for_each step l c).
Proof. intros S. induction l as [|n l IH]; intros c; cbn [for_each]; blinds. Qed.
Section Run.
Context {C : Type}.
Variable convert : (string -> bool) -> string -> string -> C -> res (string * C).
Lemma file_blind old new c : blind (transfer_file convert old new c).
Proof. unfold transfer_file. blinds. Qed.
Lemma dir_blind order search fuel : forall pats src dst c, blind (transfer_dir convert order search fuel pats src dst c).
Proof.
  induction fuel as [|fuel IH]; intros pats src dst c; cbn [transfer_dir]; [apply fail_blind|].
  apply see_blind. intros f. destruct (at_path f src) as [[]|]; try solve [blinds].
  apply for_each_blind. intros n c0. cbv zeta. destruct (excluded _ _ _); [blinds|]. apply bind_blind; [blinds|]. intros. apply IH.
Qed.
Lemma run_blind codes order search isort fuel cwd earlier src out exclude c :
  blind (run convert codes order search isort fuel cwd earlier src out exclude c).
Proof.
  unfold run. apply bind_blind; [blinds|]. intros _. destruct (path_eqb _ _); [blinds|]. apply see_blind. intros f. cbv zeta.
  apply bind_blind; [apply dir_blind|]. intros c1. match goal with |- blind (match ?o with _ => _ end) => destruct o as [own|] end; [|blinds].
  destruct (match earlier with Some h => h | None => own end) as [file dirm]. apply bind_blind; [|blinds].
  unfold flush, makedirs_ok. blinds.
Qed.

(** ** The registry of an earlier directory is that of a new one with the same output *)
Lemma run_earlier codes order search isort fuel cwd src out exclude c w :
  disk w @@ src = Some Dir -> ~ inside (destination cwd out) src ->
  run convert codes order search isort fuel cwd (Some ("paddle_utils.py"%string :: destination cwd out, true)) src out exclude c w
  = run convert codes order search isort fuel cwd None src out exclude c w.
Proof.
  intros D A. unfold run. change (match out with Some p => p | None => join_path cwd "paddle_project" end) with (destination cwd out).
  unfold FileTree.bind at 1. symmetry. unfold FileTree.bind at 1. symmetry.
  match goal with |- match ?a w with _ => _ end = _ => destruct (a w) as [w1 [[]|e]] eqn:S end; [|reflexivity].
  destruct (path_eqb _ _); [reflexivity|]. unfold see.
  assert (D1 : disk w1 @@ src = Some Dir).
  { destruct out as [p|]; [injection S as <-; exact D|]. unfold see in S. destruct (exists_at _ _); [injection S as <-; exact D|].
    apply makedirs_spec in S as (_ & G & _). destruct (G src) as [E|(E & _)]; congruence. }
  unfold isfile, isdir. rewrite D1. reflexivity.
Qed.
End Run.

Lemma reached_same ex f g src rel e : (forall r, f @@ (r ++ src) = g @@ (r ++ src)) -> reached ex f src rel e -> reached ex g src rel e.
Proof.
  intros S H. induction H as [e H|rel n e H IH N A E].
  - constructor. pose proof (S []) as X. cbn [app] in X. congruence.
  - constructor; auto. rewrite <- A. symmetry. apply (S (n :: rel)).
Qed.

Lemma conversions_in {C} looks convert src (c : C) l c' : conversions looks convert src c l c' -> forall rel s text, In (rel, s, text) l ->
  exists ex c1 c2, looks ex /\ convert ex (render (rel ++ src)) s c1 = Ok (text, c2).
Proof.
  induction 1 as [c|ex rel s text c1 c2 l c3 Lk H _ IH]; intros rel' s' text' I; [destruct I|].
  destruct I as [[= <- <- <-]|I]; [eauto|exact (IH _ _ _ I)].
Qed.
Lemma app_self {A} (x y : list A) : x ++ y = y -> x = [].
Proof. intros H. apply (f_equal (@List.length A)) in H. rewrite app_length in H. destruct x; [reflexivity|cbn in H; lia]. Qed.

Section Projects.
Variable L : libraries.
Variable cwd : path.
Variable o : options.
Variable base : path.
Variable f : fs.
Let dst := destination cwd (out_dir o).
Let helpers_file := "paddle_utils.py"%string :: dst.
(** What belongs to the conversion of a project. *)
Definition belongs (n : string) : path -> entry -> Prop := reached (is_excluded (found L) (exclude o)) f (n :: base).
Hypothesis listed : any_order (listing L).
Hypothesis apart1 : ~ inside dst base.
Hypothesis apart2 : ~ inside base dst.

Lemma apart_in q : inside q base -> forall r, q <> r ++ dst.
Proof. intros [x ->] r E. destruct (suffix_comparable _ _ _ _ E) as [I|I]; auto. Qed.
Lemma apart_up q : inside q base -> ~ inside dst q.
Proof. intros [x ->] [y E]. apply apart1. exists (y ++ x). rewrite <- app_assoc. exact E. Qed.
Lemma apart_src1 n : ~ inside dst (n :: base).
Proof. apply apart_up. exists [n]. reflexivity. Qed.
Lemma apart_src2 n : ~ inside (n :: base) dst.
Proof. intros [r E]. apply (apart_in (n :: base)) with (r := r); [exists [n]; reflexivity|exact E]. Qed.

(** One project. *)
Lemma project_step n p w w' c p' :
  convert_in L cwd p (n :: base) (out_dir o) (exclude o) w = (w', Ok (c, p')) ->
  own_file p = None \/ own_file p = Some (helpers_file, true) ->
  sound (disk w) -> (forall q, inside q base -> disk w @@ q = f @@ q) -> f @@ (n :: base) = Some Dir ->
  (forall rel e, belongs n rel e -> fits e (disk w @@ (rel ++ dst))) ->
  (forall e, ~ belongs n ["paddle_utils.py"%string] e) ->
  own_file p' = Some (helpers_file, true) /\ sound (disk w') /\
  (forall rel s, belongs n rel (File s) -> exists ex text c1 c2,
     looks_at f (fun p => inside p (n :: base)) ex /\ convert_text (converter_setup L) ex (render (rel ++ n :: base)) s c1 = Ok (text, c2) /\ disk w' @@ (rel ++ dst) = Some (File text)) /\
  (forall rel, belongs n rel Dir -> rel <> [] -> disk w' @@ (rel ++ dst) = Some Dir) /\
  (forall q, disk w' @@ q = disk w @@ q \/ (exists rel e, belongs n rel e /\ rel <> [] /\ q = rel ++ dst /\ match e with File _ | Dir => True | _ => False end) \/
     (disk w @@ q = None /\ disk w' @@ q = Some Dir /\ inside dst q) \/ q = helpers_file).
Proof.
  intros H Own Sd Sm Dn Ft Np. unfold convert_in in H. unfold see in H. set (c0 := new_converter _ _) in H.
  apply FileTreeMirror.bind_ok in H as (w1 & c1 & R & E). injection E as <- <- <-.
  assert (Same : forall r, disk w @@ (r ++ n :: base) = f @@ (r ++ n :: base)).
  { intros r. apply Sm. exists (r ++ [n]). rewrite <- app_assoc. reflexivity. }
  assert (Dw : disk w @@ (n :: base) = Some Dir) by (rewrite <- Dn; apply (Same [])).
  assert (To : forall rel e, reached (is_excluded (found L) (exclude o)) (disk w) (n :: base) rel e <-> belongs n rel e).
  { intros rel e. split; apply reached_same; auto. }
  assert (R0 : run (convert_text (converter_setup L)) (registry L) (listing L) (found L) (isort L) (limit L) cwd None (n :: base) (out_dir o) (exclude o) c0 w = (w1, Ok c1)).
  { destruct Own as [X|X]; rewrite X in R; [exact R|]. rewrite <- R. symmetry. apply run_earlier; [exact Dw|apply apart_src1]. }
  clear R. destruct (run_blind (convert_text (converter_setup L)) (registry L) (listing L) (found L) (isort L) (limit L) cwd None (n :: base) (out_dir o) (exclude o) c0
    w (MkWorld (disk w) []) eq_refl) as [Bd Br]. rewrite R0 in Bd, Br. cbn [fst snd] in Bd, Br.
  destruct (run (convert_text (converter_setup L)) (registry L) (listing L) (found L) (isort L) (limit L) cwd None (n :: base) (out_dir o) (exclude o) c0 (MkWorld (disk w) [])) as [w1' r1'] eqn:R1.
  cbn [fst snd] in Bd, Br. subst r1'.
  apply run_dir in R1; [|exact Sd|exact listed|exact Dw|apply apart_src1|apply apart_src2|intros rel e X; apply Ft, To, X].
  destruct R1 as (w2 & P & Fl). fold dst in P, Fl. fold helpers_file in Fl.
  destruct P as [(l & K & N & Il & Fw) Ds Ch Sk]. specialize (Sk Sd).
  assert (S1 : sound (disk w1')).
  { clear - Fl Sk. unfold flush in Fl. destruct (registry L c1); [injection Fl as <-; exact Sk|].
    apply FileTreeMirror.bind_ok in Fl as (w3 & [] & M & Fl). unfold see in Fl.
    assert (S3 : sound (disk w3)).
    { unfold makedirs_ok, see in M. destruct (isdir _ _); [injection M as <-; exact Sk|]. apply makedirs_spec in M. apply M, Sk. }
    destruct (write_code _ _ _); try discriminate Fl; [injection Fl as <-; exact S3|].
    apply write_ok in Fl as (_ & _ & _ & X & _). exact (X S3). }
  apply flush_dir in Fl. fold helpers_file in Fl.
  assert (Same2 : forall q, q <> helpers_file -> disk w1' @@ q = disk w2 @@ q \/ (disk w2 @@ q = None /\ disk w1' @@ q = Some Dir /\ inside dst q)).
  { intros q Nq. destruct Fl as [[_ ->]|(_ & _ & text & _ & _ & O)]; [left; reflexivity|exact (O q Nq)]. }
  rewrite Bd. split; [|split; [exact S1|split; [|split]]].
  - cbn [own_file]. destruct Own as [X|X]; rewrite X; [|reflexivity]. unfold registry_file, isfile, isdir. rewrite Dw. cbn. reflexivity.
  - intros rel s B. assert (G : exists t, In (rel, s, t) l) by (apply Il; split; [apply To, B|exact I]). destruct G as [t G].
    destruct (conversions_in _ _ _ _ _ _ K _ _ _ G) as (ex & a & b & Lk & X). exists ex, t, a, b.
    split; [destruct Lk as (g & Gs & Gx); exists g; split; [intros q Iq; rewrite (Gs q Iq); destruct Iq as [z ->]; apply Same|exact Gx]|]. split; [exact X|].
    specialize (Fw _ _ _ G). destruct (Same2 (rel ++ dst)) as [E|(E & _)]; [|congruence|congruence].
    intros Q. unfold helpers_file in Q. change ("paddle_utils.py"%string :: dst) with (["paddle_utils.py"%string] ++ dst) in Q.
    apply app_inv_tail in Q. subst rel. exact (Np _ B).
  - intros rel B Nr. assert (D2 := Ds rel (proj2 (To _ _) B) I Nr). destruct (Same2 (rel ++ dst)) as [E|(E & _)]; [|congruence|congruence].
    intros Q. unfold helpers_file in Q. change ("paddle_utils.py"%string :: dst) with (["paddle_utils.py"%string] ++ dst) in Q.
    apply app_inv_tail in Q. subst rel. exact (Np _ B).
  - intros q. destruct (path_eqb_spec q helpers_file) as [->|Nq]; [auto|]. cbn [disk] in Ch.
    destruct (Ch q) as [E|[(r & e & G & _ & Nr & E & M)|(E1 & E2 & E3)]].
    + cbn [disk] in E. destruct (Same2 q Nq) as [X|(X & Y & Z)]; [left; congruence|]. right. right. left. rewrite <- E. auto.
    + right. left. exists r, e. split; [apply To, G|auto].
    + cbn [disk] in E1. destruct (Same2 q Nq) as [X|(X & Y & Z)]; [|congruence]. right. right. left. rewrite X. auto.
Qed.

Hypothesis no_clash : forall n m rel s, belongs n rel (File s) -> ~ belongs m rel Dir.

(** What the first project leaves for the others. *)
Lemma project_next n ps w w1 :
  (forall q, inside q base -> disk w @@ q = f @@ q) ->
  (forall m, In m (n :: ps) -> f @@ (m :: base) = Some Dir) ->
  (forall m rel e, In m (n :: ps) -> belongs m rel e -> fits e (disk w @@ (rel ++ dst))) ->
  (forall m e, In m (n :: ps) -> ~ belongs m ["paddle_utils.py"%string] e) ->
  (forall rel s, belongs n rel (File s) -> exists ex text c1 c2,
     looks_at f (fun p => inside p (n :: base)) ex /\ convert_text (converter_setup L) ex (render (rel ++ n :: base)) s c1 = Ok (text, c2) /\ disk w1 @@ (rel ++ dst) = Some (File text)) ->
  (forall rel, belongs n rel Dir -> rel <> [] -> disk w1 @@ (rel ++ dst) = Some Dir) ->
  (forall q, disk w1 @@ q = disk w @@ q \/ (exists rel e, belongs n rel e /\ rel <> [] /\ q = rel ++ dst /\ match e with File _ | Dir => True | _ => False end) \/
     (disk w @@ q = None /\ disk w1 @@ q = Some Dir /\ inside dst q) \/ q = helpers_file) ->
  (forall q, inside q base -> disk w1 @@ q = f @@ q) /\
  (forall m rel e, In m ps -> belongs m rel e -> fits e (disk w1 @@ (rel ++ dst))).
Proof.
  intros Sm Dn Ft Np Fi Di Ch. split.
  - intros q I. rewrite <- (Sm q I). destruct (Ch q) as [E|[(rel & e & _ & _ & E & _)|[(_ & _ & E)|E]]]; [exact E| | |].
    + exfalso. exact (apart_in q I _ E).
    + exfalso. exact (apart_up q I E).
    + exfalso. exact (apart_in q I ["paddle_utils.py"%string] E).
  - intros m rel e I B. destruct (Ch (rel ++ dst)) as [E|[(rel' & e' & B' & Nr & E & M)|[(_ & E & I')|E]]].
    + rewrite E. exact (Ft m rel e (or_intror I) B).
    + apply app_inv_tail in E. subst rel'. destruct e'; try contradiction M.
      * destruct (Fi _ _ B') as (ex & t & a & b & _ & _ & E). rewrite E. destruct e; cbn; auto. exact (no_clash _ _ _ _ B' B).
      * rewrite (Di _ B' Nr). destruct e; cbn; auto. exact (no_clash _ _ _ _ B B').
    + rewrite E. destruct I' as [x I']. rewrite app_assoc in I'. symmetry in I'. apply app_self in I'. apply app_eq_nil in I' as [_ ->].
      apply (reached_at (found L) (exclude_patterns (exclude o))) in B. cbn [app] in B. rewrite (Dn m (or_intror I)) in B. injection B as <-. exact Logic.I.
    + unfold helpers_file in E. change ("paddle_utils.py"%string :: dst) with (["paddle_utils.py"%string] ++ dst) in E. apply app_inv_tail in E. subst rel.
      exfalso. exact (Np m e (or_intror I) B).
Qed.

Lemma projects_disk ps : forall p w w' r,
  each_project L cwd o base ps p w = (w', Ok r) ->
  own_file p = None \/ own_file p = Some (helpers_file, true) ->
  sound (disk w) -> (forall q, inside q base -> disk w @@ q = f @@ q) ->
  (forall n, In n ps -> f @@ (n :: base) = Some Dir) ->
  (forall n rel e, In n ps -> belongs n rel e -> fits e (disk w @@ (rel ++ dst))) ->
  (forall n e, In n ps -> ~ belongs n ["paddle_utils.py"%string] e) ->
  map fst r = ps /\
  (forall l1 n l2 rel s, ps = l1 ++ n :: l2 -> belongs n rel (File s) -> (forall m s', In m l2 -> ~ belongs m rel (File s')) -> exists ex text c1 c2,
     looks_at f (fun p => inside p (n :: base)) ex /\ convert_text (converter_setup L) ex (render (rel ++ n :: base)) s c1 = Ok (text, c2) /\ disk w' @@ (rel ++ dst) = Some (File text)) /\
  (forall n rel, In n ps -> belongs n rel Dir -> rel <> [] -> disk w' @@ (rel ++ dst) = Some Dir) /\
  (forall q, disk w' @@ q = disk w @@ q \/
     (exists n rel e, In n ps /\ belongs n rel e /\ rel <> [] /\ q = rel ++ dst /\ match e with File _ | Dir => True | _ => False end) \/
     (disk w @@ q = None /\ disk w' @@ q = Some Dir /\ inside dst q) \/ q = helpers_file).
Proof.
  induction ps as [|n ps IH]; intros p w w' r H Own Sd Sm Dn Ft Np; cbn [each_project] in H.
  - injection H as <- <-. split; [reflexivity|]. split; [intros [|] ? ? ? ? E; discriminate E|]. split; [intros ? ? []|auto].
  - apply FileTreeMirror.bind_ok in H as (w1 & [c p1] & H1 & H). apply FileTreeMirror.bind_ok in H as (w2 & rest & H2 & H).
    injection H as <- <-. cbn [snd fst] in *.
    destruct (project_step _ _ _ _ _ _ H1 Own Sd Sm (Dn _ (or_introl eq_refl)) (fun rel e => Ft n rel e (or_introl eq_refl)) (fun e => Np n e (or_introl eq_refl)))
      as (Own1 & Sd1 & Fi & Di & Ch).
    destruct (project_next n ps w w1 Sm Dn Ft Np Fi Di Ch) as [Sm1 Ft1].
    destruct (IH _ _ _ _ H2 (or_intror Own1) Sd1 Sm1 (fun m I => Dn m (or_intror I)) Ft1 (fun m e I => Np m e (or_intror I))) as (Nm & Fi2 & Di2 & Ch2).
    split; [cbn [map fst]; rewrite Nm; reflexivity|].
    assert (Np' : forall m rel e, In m (n :: ps) -> belongs m rel e -> rel ++ dst <> helpers_file).
    { intros m rel e I B E. unfold helpers_file in E. change ("paddle_utils.py"%string :: dst) with (["paddle_utils.py"%string] ++ dst) in E.
      apply app_inv_tail in E. subst rel. exact (Np m e I B). }
    split; [|split].
    + intros [|m l1] n0 l2 rel s E B Nl; cbn [app] in E; injection E as <- ->.
      * destruct (Fi _ _ B) as (ex & t & a & b & Lk & X & Y). exists ex, t, a, b. split; [exact Lk|]. split; [exact X|].
        destruct (Ch2 (rel ++ dst)) as [E|[(m & rel' & e & I & B' & Nr & E & M)|[(E & _)|E]]]; [congruence| |congruence|].
        -- apply app_inv_tail in E. subst rel'. destruct e; try contradiction M; exfalso; [exact (Nl _ _ I B')|exact (no_clash _ _ _ _ B B')].
        -- exfalso. exact (Np' _ _ _ (or_introl eq_refl) B E).
      * exact (Fi2 l1 n0 l2 rel s eq_refl B Nl).
    + intros m rel [<-|I] B Nr; [|exact (Di2 m rel I B Nr)].
      destruct (Ch2 (rel ++ dst)) as [E|[(m & rel' & e & I & B' & _ & E & M)|[(_ & E & _)|E]]].
      * rewrite E. apply Di; assumption.
      * apply app_inv_tail in E. subst rel'. destruct e; try contradiction M; [exfalso; exact (no_clash _ _ _ _ B' B)|exact (Di2 m rel I B' Nr)].
      * exact E.
      * exfalso. exact (Np' _ _ _ (or_introl eq_refl) B E).
    + intros q. destruct (Ch q) as [E|[(rel & e & B & Nr & E & M)|[(E1 & E2 & E3)|E]]]; [| | |auto].
      * destruct (Ch2 q) as [X|[(m & rel & e & I & B & Nr & Eq & M)|[(X1 & X2 & X3)|X]]]; [left; congruence| | |auto].
        -- right. left. exists m, rel, e. split; [right; exact I|auto].
        -- right. right. left. rewrite <- E. auto.
      * right. left. exists n, rel, e. split; [left; reflexivity|auto].
      * destruct (Ch2 q) as [X|[(m & rel & e & I & B & Nr & Eq & M)|[(X1 & X2 & X3)|X]]]; [|  |congruence|auto].
        -- right. right. left. rewrite X. auto.
        -- right. left. exists m, rel, e. split; [right; exact I|auto].
Qed.
End Projects.

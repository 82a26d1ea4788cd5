(** Modules of the user's project, on a disk (C67). *)
From Verif Require Import PyStr PyStrFacts PyDict TablesData Ast ImportPass ImportSpec ImportFacts3 BasicPass Converter Shipped Program PropertiesImport.
From Verif Require FileTree FileTreeSpec FileTreeFacts FileTreeMirror FileTreeRun PropertiesDepend PropertiesAlone.
Import FileTree FileTreeSpec FileTreeFacts FileTreeMirror.
Open Scope list_scope.
Opaque api_mapping attribute_mapping alias_mapping wildcard_mapping matcher_classes.

(** What can be the name of a file, and of a package or module. *)
Definition file_name (n : string) : Prop := n <> ""%string /\ no_char "/"%char n.
Definition module_name (n : string) : Prop := file_name n /\ no_char "."%char n.
(** [a.b.c] is [a/b/c] or [a/b/c.py] below the directory. *)
Inductive module_at (g : fs) (dir : path) : list string -> Prop :=
| as_package parts e : g @@ (rev parts ++ dir) = Some e -> e <> Dangling -> module_at g dir parts
| as_file before last e : g @@ (((last ++ ".py")%string :: rev before) ++ dir) = Some e -> e <> Dangling -> module_at g dir (before ++ [last]).

Lemma render_app p q : render (p ++ q) = (render q ++ render p)%string.
Proof.
  induction p as [|n p IH]; [symmetry; apply app_nil_r_s|]. cbn [app]. rewrite !FileTreeRun.render_cons, IH, !app_assoc_s. reflexivity.
Qed.
Lemma last_name a b n m : no_char "/"%char n -> no_char "/"%char m -> (a ++ "/" ++ n = b ++ "/" ++ m)%string -> a = b /\ n = m.
Proof.
  intros Hn Hm E. pose proof (rsplit1_last "/"%char a n Hn) as A. pose proof (rsplit1_last "/"%char b m Hm) as B.
  cbn [append] in E. rewrite E in A. rewrite B in A. injection A as -> ->. auto.
Qed.
Lemma render_inj : forall p q, Forall file_name p -> Forall file_name q -> render p = render q -> p = q.
Proof.
  induction p as [|n p IH]; intros [|m q] P Q E; [reflexivity| | |].
  - exfalso. pose proof (FileTreeRun.render_nonempty m q) as X. rewrite <- E in X. discriminate X.
  - exfalso. pose proof (FileTreeRun.render_nonempty n p) as X. rewrite E in X. discriminate X.
  - rewrite !FileTreeRun.render_cons in E. inversion_clear P as [|? ? [_ Pn] P']. inversion_clear Q as [|? ? [_ Qm] Q'].
    destruct (last_name _ _ _ _ Pn Qm E) as [E1 ->]. f_equal. exact (IH q P' Q' E1).
Qed.
Definition dots := map_chars (fun c => if Ascii.eqb c "."%char then "/"%char else c).
Lemma dots_app a b : dots (a ++ b) = (dots a ++ dots b)%string.
Proof. induction a as [|c a IH]; [reflexivity|]. cbn. f_equal. exact IH. Qed.
Lemma dots_name n : no_char "."%char n -> dots n = n.
Proof.
  induction n as [|c n IH]; [reflexivity|]. intros [N H]. unfold dots. cbn [map_chars]. destruct (Ascii.eqb_spec c "."%char) as [->|_]; [congruence|].
  f_equal. exact (IH H).
Qed.
Lemma render_rev parts : Forall module_name parts -> parts <> [] -> render (rev parts) = ("/" ++ dots (String.concat "." parts))%string.
Proof.
  induction parts as [|a r IH]; [congruence|]. intros F _. inversion_clear F as [|? ? Fa Fr]. cbn [rev].
  rewrite render_app. assert (A : render [a] = ("/" ++ a)%string) by reflexivity. rewrite A.
  destruct r as [|b r]; [cbn [rev]; cbn [String.concat]; rewrite (dots_name _ (proj2 Fa)), app_nil_r_s; reflexivity|].
  rewrite (IH Fr) by discriminate. change (String.concat "." (a :: b :: r)) with (a ++ "." ++ String.concat "." (b :: r))%string.
  rewrite !dots_app, (dots_name a (proj2 Fa)), !app_assoc_s. reflexivity.
Qed.
Lemma names_dir (g : fs) p e : g @@ p = Some e -> p <> [] -> In p (dkeys g).
Proof. destruct p; [congruence|]. intros H _. exact (found_key g _ _ H). Qed.
Lemma last_char s : s <> ""%string -> exists a c, s = (a ++ String c "")%string.
Proof.
  induction s as [|c s IH]; [congruence|]. intros _. destruct s as [|d s]; [exists ""%string, c; reflexivity|].
  destruct IH as (a & x & E); [discriminate|]. exists (String c a), x. cbn. rewrite <- E. reflexivity.
Qed.
Lemma no_char_last a c x : no_char x (a ++ String c "") -> c <> x.
Proof. intros H. apply no_char_app in H as [_ [H _]]. congruence. Qed.
Lemma file_name_py n : file_name n -> file_name (n ++ ".py").
Proof. intros [A B]. split; [destruct n; discriminate|]. apply no_char_app. split; [exact B|]. repeat split; discriminate. Qed.
Lemma not_dot n m : module_name n -> startswith (n ++ m) "." = false /\ startswith (n ++ m) "/" = false.
Proof.
  intros [[A B] C]. destruct n as [|c n]; [congruence|]. destruct B as [B _]. destruct C as [C _].
  split; unfold startswith; cbn [append prefix]; destruct (ascii_dec _ c) as [E|]; congruence.
Qed.

(** The two texts that are looked up. *)
Lemma local_texts mode looks name dir parts : file_name name -> Forall file_name dir -> dir <> [] -> Forall module_name parts -> parts <> [] ->
  exists before last, parts = before ++ [last] /\
  let file := ((last ++ ".py")%string :: rev before) ++ dir in
  Forall file_name (rev parts ++ dir) /\ Forall file_name file /\
  (is_local (MkEnv mode (render (name :: dir)) looks) (String.concat "." parts) = true <-> looks (render (rev parts ++ dir)) = true \/ looks (render file) = true).
Proof.
  intros Nm Fd Nd Fp Np.
  destruct (last_char (render dir)) as (d & c & Ed).
  { destruct dir as [|x dir]; [congruence|]. intros E. pose proof (FileTreeRun.render_nonempty x dir) as X. rewrite E in X. discriminate X. }
  assert (Cc : c <> "/"%char).
  { destruct dir as [|x dir]; [congruence|]. inversion_clear Fd as [|? ? [F1 F2] _]. destruct (last_char x F1) as (y & z & ->).
    rewrite FileTreeRun.render_cons in Ed. assert (E : (render dir ++ "/" ++ y ++ String z "" = (render dir ++ "/" ++ y) ++ String z "")%string) by (rewrite !app_assoc_s; reflexivity).
    rewrite E in Ed. assert (H : forall u v r t, (u ++ String r "" = v ++ String t "")%string -> r = t).
    { clear. intros u. induction u as [|a u IH]; intros [|b v] r t E; cbn in E; injection E; auto.
      - intros E1 _. destruct v; discriminate E1. - intros E1 _. destruct u; discriminate E1. - intros E1 _. exact (IH _ _ _ E1). }
    apply H in Ed. subst z. exact (no_char_last _ _ _ F2). }
  assert (Hm : startswith (String.concat "." parts) "." = false /\ startswith (String.concat "." parts) "/" = false).
  { destruct parts as [|a [|b r]]; [congruence| |]; inversion_clear Fp.
    - cbn [String.concat]. rewrite <- (app_nil_r_s a). apply not_dot; assumption.
    - cbn [String.concat]. apply not_dot; assumption. }
  assert (Pa : (render dir ++ "/" ++ dots (String.concat "." parts))%string = render (rev parts ++ dir)).
  { rewrite render_app, (render_rev parts Fp Np). reflexivity. }
  destruct (exists_last Np) as (before & last & Ep).
  assert (Fr : Forall file_name (rev parts ++ dir)).
  { apply Forall_app. split; [|exact Fd]. apply Forall_rev. eapply Forall_impl; [|exact Fp]. intros a [A _]. exact A. }
  assert (Er : rev parts ++ dir = last :: rev before ++ dir) by (rewrite Ep, rev_app_distr; reflexivity).
  assert (Py : String.append (render (rev parts ++ dir)) ".py" = render (((last ++ ".py")%string :: rev before) ++ dir)).
  { rewrite Er. cbn [app]. rewrite !FileTreeRun.render_cons, !app_assoc_s. reflexivity. }
  assert (Fl : Forall file_name (((last ++ ".py")%string :: rev before) ++ dir)).
  { cbn [app]. rewrite Er in Fr. inversion_clear Fr. constructor; [apply file_name_py; assumption|assumption]. }
  exists before, last. split; [exact Ep|]. split; [exact Fr|]. split; [exact Fl|]. rewrite <- Py.
  rewrite (is_local_spec _ d c name); [|cbn [file]; rewrite FileTreeRun.render_cons, Ed; reflexivity|exact Cc|exact (proj2 Nm)|apply Hm|apply Hm].
  cbn [exists_path]. unfold module_path. fold dots. rewrite <- Ed, Pa. reflexivity.
Qed.

(** The answers of os.path.exists being those for the disk [g], whose names are names of
    files, a module is taken as part of the project exactly if it lies beside the file. *)
Theorem C67_on_disk : forall g looks mode name dir parts,
  looks_at g (fun _ => True) looks ->
  (forall p e, g @@ p = Some e -> Forall file_name p) ->
  file_name name -> Forall file_name dir -> dir <> [] ->
  Forall module_name parts -> parts <> [] ->
  is_local (MkEnv mode (render (name :: dir)) looks) (String.concat "." parts) = true <-> module_at g dir parts.
Proof.
  intros g looks mode name dir parts (now & Same & Lk) Ok Nm Fd Nd Fp Np.
  assert (Lk' : forall p, Forall file_name p -> p <> [] -> looks (render p) = true <-> exists e, g @@ p = Some e /\ e <> Dangling).
  { intros p Fo Ne. rewrite Lk. split.
    - intros [E|(q & e & _ & E & X & Y)].
      + exfalso. destruct p as [|n p]; [congruence|]. rewrite FileTreeRun.render_cons in E. change "/"%string with ("" ++ "/" ++ "")%string in E at 2.
        inversion_clear Fo as [|? ? [F1 F2] _]. apply last_name in E as [_ ->]; [congruence|exact F2|exact I].
      + rewrite (Same q I) in X. apply (render_inj p q Fo (Ok _ _ X)) in E. subst q. exists e. auto.
    - intros (e & X & Y). right. exists p, e. rewrite (Same p I). auto. }
  destruct (local_texts mode looks name dir parts Nm Fd Nd Fp Np) as (before & last & Ep & Fr & Fl & ->).
  rewrite Lk', Lk'; [|exact Fl|discriminate|exact Fr|rewrite Ep, rev_app_distr; discriminate].
  split.
  - intros [(e & A & B)|(e & A & B)]; [exact (as_package g dir parts e A B)|]. rewrite Ep. exact (as_file g dir before last e A B).
  - intros H. inversion H as [p e A B E0|b l e A B E0]; [left; exists e; auto|right].
    rewrite Ep in E0. apply app_inj_tail in E0 as [-> ->]. exists e. auto.
Qed.
Print Assumptions C67_on_disk.
(** During a conversion of the directory [src] (C44) the disk changes, but not below [src]:
    what lies beside a file of the input is part of the project, whatever was written. *)
Theorem C67_in_a_project : forall f src looks mode name rel parts,
  looks_at f (fun p => inside p src) looks ->
  file_name name -> Forall file_name (rel ++ src) -> src <> [] -> Forall module_name parts -> parts <> [] ->
  module_at f (rel ++ src) parts ->
  is_local (MkEnv mode (render (name :: rel ++ src)) looks) (String.concat "." parts) = true.
Proof.
  intros f src looks mode name rel parts (now & Same & Lk) Nm Fd Nd Fp Np H.
  assert (Nd' : rel ++ src <> []) by (destruct rel; [exact Nd|discriminate]).
  destruct (local_texts mode looks name (rel ++ src) parts Nm Fd Nd' Fp Np) as (before & last & Ep & Fr & Fl & ->).
  inversion H as [p e A B E0|b l e A B E0].
  - left. apply Lk. right. exists (rev parts ++ rel ++ src), e. rewrite Same; [|exists (rev parts ++ rel); rewrite app_assoc; reflexivity].
    repeat split; auto. rewrite Ep, rev_app_distr. discriminate.
  - rewrite Ep in E0. apply app_inj_tail in E0 as [-> ->]. right. apply Lk. right. exists (((last ++ ".py")%string :: rev before) ++ rel ++ src), e.
    rewrite Same; [|eexists (((last ++ ".py")%string :: rev before) ++ rel); rewrite app_assoc; reflexivity]. repeat split; auto. discriminate.
Qed.
Print Assumptions C67_in_a_project.

(** A project with its own package "datasets" and a module "utils". *)
Definition own_files : fs :=
  [([], Dir); (["in"], Dir); (["datasets"; "in"], Dir); (["coco.py"; "datasets"; "in"], File "");
   (["train.py"; "in"], File "use"); (["tools"; "in"], Dir); (["train.py"; "tools"; "in"], File "use")]%string.
Lemma own_names p e : own_files @@ p = Some e -> Forall file_name p.
Proof.
  destruct p as [|n p]; [intros _; constructor|]. intros H. apply found_key in H. cbn in H.
  repeat (destruct H as [H|H]; [try discriminate H; injection H as <- <-; repeat constructor; try discriminate; cbn; repeat split; discriminate|]). destruct H.
Qed.
Example C67_disk_nonvacuous :
  looks_at own_files (fun _ => True) (exists_text own_files) /\ (forall p e, own_files @@ p = Some e -> Forall file_name p) /\
  looks_at own_files (fun p => inside p ["in"%string]) (exists_text own_files) /\
  Forall module_name ["datasets"; "coco"]%string /\
  module_at own_files ["in"%string] ["datasets"; "coco"]%string /\ module_at own_files ["in"%string] ["datasets"%string] /\
  ~ module_at own_files ["tools"; "in"]%string ["datasets"%string].
Proof.
  split; [exists own_files; split; [reflexivity|apply exists_text_spec]|]. split; [exact own_names|].
  split; [exists own_files; split; [reflexivity|apply exists_text_spec]|].
  split; [repeat constructor; try discriminate; cbn; repeat split; discriminate|].
  split; [apply (as_file own_files ["in"%string] ["datasets"%string] "coco" (File "")); [reflexivity|discriminate]|].
  split; [apply (as_package own_files ["in"%string] ["datasets"%string] Dir); [reflexivity|discriminate]|].
  intros H. inversion H as [p e A B E0|b l e A B E0]; [cbn in A; discriminate A|].
  apply (app_inj_tail b [] l "datasets"%string) in E0 as [-> ->]. cbn in A. discriminate A.
Qed.
(** Only beside the importing file: "from datasets import coco" stays in in/train.py, but in
    in/tools/train.py the project's package is taken for a package of PyTorch users; the
    import is replaced. *)
Definition own_libraries : libraries :=
  MkLibraries (MkTools PropertiesDepend.shown (fun s => Ok [PropertiesDepend.statement (Name s)]) (fun _ => ""%string) [] false)
    false true (fun l => l) 100
    (fun s => Ok (if String.eqb s "use" then Other "Module" [Many "body" [ImportFrom (Some "datasets"%string) [MkAlias "coco" None] 0]] else Other "Module" [Many "body" []]))
    PropertiesAlone.alone_print
    (fun _ => None) (fun _ => None) (fun _ => 0%Z) 5 (fun _ _ l => l) contains.
Theorem C67_package_of_the_project_refuted : exists w c,
  Program.program own_libraries [] ["in"%string] (Some ["out"%string]) None (FileTree.MkWorld own_files []) = (w, Ok c) /\
  disk w @@ ["train.py"; "out"]%string = Some (File "from datasets import coco") /\
  disk w @@ ["train.py"; "tools"; "out"]%string = Some (File "import paddle").
Proof. do 2 eexists. split; [vm_compute; reflexivity|]. split; vm_compute; reflexivity. Qed.
Print Assumptions C67_package_of_the_project_refuted.

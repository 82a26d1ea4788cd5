(** The counts of a converter, through every run of the command. *)
From Coq Require Import ZArith Lia.
From Verif Require Import PyStr PyDict Ast BasicPass BasicSpec BasicFacts CustomPass Converter ConverterFacts Shipped ShippedNames Program Main.
From Verif Require FileTree FileTreeMirror.
Import FileTree.
Notation world := Shipped.world.

Definition balanced {M} (c : conv M) : Prop :=
  (0 <= c_success c)%Z /\ c_torch c = (c_success c + Z.of_nat (list_sum (map snd (c_unsupported c))))%Z.
Definition grown {M} (c c' : conv M) : Prop := balanced c -> balanced c'.

Lemma node_grown {M} (u : setup M) ex file root c root' c' : transfer_node u ex file root c = Ok (root', c') -> grown c c'.
Proof.
  intros H [P B]. apply transfer_node_history in H as [h [H _]].
  pose proof (enter_all_balance h (ledger c)) as X. pose proof (enter_all_converted h (ledger c)) as Y. rewrite <- H in X, Y. unfold total in X.
  cbn [ledger recognised converted not_converted] in X, Y. unfold balanced. lia.
Qed.
Lemma text_grown {M} (u : setup M) ex file code c text c' : convert_text u ex file code c = Ok (text, c') -> grown c c'.
Proof.
  unfold convert_text, convert_python. intros H. destruct (endswith file ".py").
  - destruct (TextFile.read_text code) as [source|]; [|discriminate]. cbn [Ast.bind] in H. dest_bind H. dest_bind H. destruct a0 as [r c1]. apply node_grown in E0. dest_bind H.
    destruct (only_complete u); [injection H as _ <-; exact E0|]. cbv zeta in H.
    destruct (Marker.mark_unsupport _ _ _ _); [injection H as _ <-; exact E0|discriminate].
  - destruct (endswith file "requirements.txt"); [destruct (TextFile.read_text code); [|discriminate]|]; injection H as _ <-; intros B; exact B.
Qed.

(** ** Whatever every file keeps, a run keeps *)
Section Run.
Context {C : Type}.
Variable convert : (string -> bool) -> string -> string -> C -> res (string * C).
Variable P : C -> Prop.
Hypothesis step : forall ex file s c text c', convert ex file s c = Ok (text, c') -> P c -> P c'.
Lemma for_each_keeps (f : string -> C -> act C) l :
  (forall n c w w' c', f n c w = (w', Ok c') -> P c -> P c') ->
  forall c w w' c', for_each f l c w = (w', Ok c') -> P c -> P c'.
Proof.
  intros S. induction l as [|n l IH]; cbn [for_each]; intros c w w' c' H K.
  - injection H as _ <-. exact K.
  - apply FileTreeMirror.bind_ok in H as (w1 & c1 & A & B). eapply IH; [exact B|]. eapply S; eassumption.
Qed.
Lemma file_keeps old new c w w' c' : transfer_file convert old new c w = (w', Ok c') -> P c -> P c'.
Proof.
  unfold transfer_file, see. intros H K. destruct (at_path _ _) as [[]|]; try discriminate.
  destruct (convert _ _ _ _) as [[text c1]|] eqn:E; [|discriminate]. pose proof (step _ _ _ _ _ _ E K) as K'.
  destruct (_ && _); [discriminate|]. apply FileTreeMirror.bind_ok in H as (w1 & [] & A & B). injection B as _ <-. exact K'.
Qed.
Lemma dir_keeps order search fuel : forall pats src dst c w w' c',
  transfer_dir convert order search fuel pats src dst c w = (w', Ok c') -> P c -> P c'.
Proof.
  induction fuel as [|fuel IH]; intros pats src dst c w w' c' H K; [discriminate|].
  cbn [transfer_dir] in H. unfold see at 1 in H. destruct (at_path _ _) as [[]|]; try discriminate.
  - destruct (excluded _ _ _); [injection H as _ <-; exact K|]. cbv zeta in H.
    apply FileTreeMirror.bind_ok in H as (w1 & [] & _ & B). eapply file_keeps; eassumption.
  - revert H K. apply for_each_keeps. intros n c0 w0 w1 c1 H K. cbv zeta in H.
    destruct (excluded _ _ _); [injection H as _ <-; exact K|].
    apply FileTreeMirror.bind_ok in H as (w2 & [] & _ & B). eapply IH; eassumption.
  - injection H as _ <-. exact K.
Qed.
Lemma run_keeps codes order search isort fuel cwd earlier src out exclude c w w' c' :
  run convert codes order search isort fuel cwd earlier src out exclude c w = (w', Ok c') -> P c -> P c'.
Proof.
  unfold run. intros H K. apply FileTreeMirror.bind_ok in H as (w1 & [] & _ & H). destruct (path_eqb _ _); [discriminate|].
  unfold see in H at 1. cbv zeta in H. apply FileTreeMirror.bind_ok in H as (w2 & c2 & T & H). apply dir_keeps in T; [|exact K].
  match type of H with (match ?o with _ => _ end) _ = _ => destruct o as [own|] end; [|discriminate].
  destruct (match earlier with Some h => h | None => own end) as [file dirm].
  apply FileTreeMirror.bind_ok in H as (w3 & [] & _ & H). injection H as _ <-. exact T.
Qed.
End Run.

Lemma new_balanced {M} a (m : M) : balanced (new_converter a m).
Proof. split; [cbn; lia|reflexivity]. Qed.
Lemma program_balanced L cwd src out exclude w w' c : program L cwd src out exclude w = (w', Ok c) -> balanced c.
Proof.
  unfold program. intros H. refine (run_keeps _ balanced _ _ _ _ _ _ _ _ _ _ _ _ _ _ _ H (new_balanced _ _)).
  intros ex file s c0 text c1 E. exact (text_grown _ _ _ _ _ _ _ E).
Qed.
Lemma in_process_balanced L cwd p src out exclude w w' c : convert_in L cwd p src out exclude w = (w', Ok c) -> balanced (fst c).
Proof.
  unfold convert_in, see. intros H. apply FileTreeMirror.bind_ok in H as (w1 & c1 & H & R). injection R as _ <-. cbn [fst].
  refine (run_keeps _ balanced _ _ _ _ _ _ _ _ _ _ _ _ _ _ _ H (new_balanced _ _)).
  intros ex file s c0 text c2 E. exact (text_grown _ _ _ _ _ _ _ E).
Qed.
Lemma projects_balanced L cwd o base l : forall p w w' r, each_project L cwd o base l p w = (w', Ok r) -> Forall (fun nc => balanced (snd nc)) r.
Proof.
  induction l as [|n l IH]; cbn [each_project]; intros p w w' r H.
  - injection H as _ <-. constructor.
  - apply FileTreeMirror.bind_ok in H as (w1 & cp & A & H). apply FileTreeMirror.bind_ok in H as (w2 & rest & B & H). injection H as _ <-.
    constructor; [exact (in_process_balanced _ _ _ _ _ _ _ _ _ A)|exact (IH _ _ _ _ B)].
Qed.
Theorem command_balanced L cwd package o w w' r : command L cwd package o w = (w', Ok r) -> Forall (fun nc => balanced (snd nc)) r.
Proof.
  unfold command. cbv zeta. destruct (separate_convert o); [|destruct (run_check o)].
  - destruct (in_dir o); [|discriminate]. unfold see. destruct (isdir _ _); [|discriminate]. apply projects_balanced.
  - intros H. apply FileTreeMirror.bind_ok in H as (w1 & c & H & R). injection R as _ <-. constructor; [exact (program_balanced _ _ _ _ _ _ _ _ H)|constructor].
  - destruct (in_dir o); [|discriminate]. intros H. apply FileTreeMirror.bind_ok in H as (w1 & c & H & R). injection R as _ <-. constructor; [exact (program_balanced _ _ _ _ _ _ _ _ H)|constructor].
Qed.

(** Proofs about Program.v. *)
From Verif Require Import PyStr PyDict PyStrFacts UtilsFile UtilsSpec RegistryFacts Ast ImportPass BasicPass CustomPass Converter
  Shipped ShippedSpec ShippedNames Program ProgramSpec.
From Verif Require PropertiesUtils FileTree FileTreeSpec FileTreeFacts FileTreeMirror FileTreeRun.
Import FileTree FileTreeSpec FileTreeMirror UtilsSpec.
Notation world := Shipped.world.
Notation MkWorld := FileTree.MkWorld.

Section Facts.
Variable L : libraries.
Let u := converter_setup L.
Let t := matchers L.
(** ** The state of the matchers changes only when they are asked *)
Definition leads (c c' : conv world) : Prop := exists qs, asked t (c_shared c) qs (c_shared c').
Lemma leads_refl c : leads c c. Proof. exists []. constructor. Qed.
Lemma leads_trans a b c : leads a b -> leads b c -> leads a c.
Proof. intros [l A] [m B]. exists (l ++ m)%list. eapply asked_trans; eassumption. Qed.
Lemma node_leads ex file root c root' c' : transfer_node u ex file root c = Ok (root', c') -> leads c c'.
Proof.
  unfold transfer_node. intros H. dest_bind H. destruct a as [r1 i]. cbv zeta in H.
  destruct (only_complete u). { injection H as _ <-. exists []. constructor. }
  dest_bind H. destruct a as [r2 s2]. dest_bind H. destruct a as [r3 s3]. dest_bind H. destruct a as [r4 s4].
  injection H as _ <-. apply transform_reaches in E0. exact E0.
Qed.
Lemma text_leads ex file code c text c' : convert_text u ex file code c = Ok (text, c') -> leads c c'.
Proof.
  unfold convert_text, convert_python. intros H. destruct (endswith file ".py").
  - destruct (TextFile.read_text code) as [source|]; [|discriminate]. cbn [Ast.bind] in H. dest_bind H. dest_bind H. destruct a0 as [r c1]. apply node_leads in E0. dest_bind H.
    destruct (only_complete u); [injection H as _ <-; exact E0|]. cbv zeta in H.
    destruct (Marker.mark_unsupport _ _ _ _); [injection H as _ <-; exact E0|discriminate].
  - destruct (endswith file "requirements.txt"); [destruct (TextFile.read_text code); [|discriminate]|]; injection H as _ <-; apply leads_refl.
Qed.

(** ** Through the tree of files *)
Lemma for_each_leads (step : string -> conv world -> act (conv world)) l :
  (forall n c w w' c', step n c w = (w', Ok c') -> leads c c') ->
  forall c w w' c', for_each step l c w = (w', Ok c') -> leads c c'.
Proof.
  intros S. induction l as [|n l IH]; cbn [for_each]; intros c w w' c' H.
  - injection H as _ <-. apply leads_refl.
  - apply FileTreeMirror.bind_ok in H as (w1 & c1 & A & B). eapply leads_trans; [eapply S, A|eapply IH, B].
Qed.
Lemma file_leads old new c w w' c' : transfer_file (convert_text u) old new c w = (w', Ok c') -> leads c c'.
Proof.
  unfold transfer_file, see. intros H. destruct (at_path _ _) as [[]|]; try discriminate.
  destruct (convert_text u _ _ _ _) as [[text c1]|] eqn:E; [|discriminate]. apply text_leads in E.
  destruct (_ && _); [discriminate|]. apply FileTreeMirror.bind_ok in H as (w1 & [] & A & B). injection B as _ <-. exact E.
Qed.
Lemma dir_leads order search fuel : forall pats src dst c w w' c',
  transfer_dir (convert_text u) order search fuel pats src dst c w = (w', Ok c') -> leads c c'.
Proof.
  induction fuel as [|fuel IH]; intros pats src dst c w w' c' H; [discriminate|].
  cbn [transfer_dir] in H. unfold see at 1 in H. destruct (at_path _ _) as [[]|]; try discriminate.
  - destruct (excluded _ _ _); [injection H as _ <-; apply leads_refl|]. cbv zeta in H.
    apply FileTreeMirror.bind_ok in H as (w1 & [] & _ & B). eapply file_leads, B.
  - revert H. apply for_each_leads. intros n c0 w0 w1 c1 H. cbv zeta in H.
    destruct (excluded _ _ _); [injection H as _ <-; apply leads_refl|].
    apply FileTreeMirror.bind_ok in H as (w2 & [] & _ & B). eapply IH, B.
  - injection H as _ <-. apply leads_refl.
Qed.

(** ** The registry *)
Lemma registry_exact c texts : Forall2 trimmed (helpers (c_shared c)) texts -> injective_on (hash L) texts ->
  dvals (registry L c) = keep_first texts.
Proof.
  intros T I. apply PropertiesUtils.trimmed_map in T. subst texts. unfold registry.
  destruct (add_all_inj (hash L) (probes L) (helpers (c_shared c)) (MkHelper (Some "paddle_utils.py") true [])) as (h & A & _ & _ & _ & V).
  - reflexivity.
  - constructor.
  - exact I.
  - rewrite A, V. cbn [code_map dvals app]. clear. induction (keep_first _) as [|y l IH]; [reflexivity|]. cbn. f_equal. exact IH.
Qed.
Lemma keep_first_in x l : In x l -> In x (keep_first l).
Proof.
  induction l as [|y l IH]; [trivial|]. intros [->|H]; [left; reflexivity|]. cbn [keep_first].
  destruct (String.eqb_spec y x) as [->|N]; [left; reflexivity|right]. apply filter_In. split; [apply IH, H|].
  apply Bool.negb_true_iff, String.eqb_neq. exact N.
Qed.
Lemma keep_first_sub x l : In x (keep_first l) -> In x l.
Proof.
  induction l as [|y l IH]; [trivial|]. cbn [keep_first]. intros [->|H]; [left; reflexivity|]. apply filter_In in H as [H _]. right. apply IH, H.
Qed.
Lemma keep_first_nodup l : NoDup (keep_first l).
Proof.
  induction l as [|y l IH]; cbn [keep_first]; constructor.
  - intros H. apply filter_In in H as [_ H]. rewrite String.eqb_refl in H. discriminate.
  - apply NoDup_filter, IH.
Qed.
Lemma trimmed_all l : Forall2 trimmed l (map trim l).
Proof. induction l as [|x l IH]; constructor; [apply UtilsFacts.trimmed_rstrip|exact IH]. Qed.
Lemma classes_of qs c : asked t nothing qs (c_shared c) -> Forall (of_a_class t) (helpers (c_shared c)).
Proof. intros A. apply asked_onward in A as [_ (l & E & F)]. cbn [helpers nothing app] in E. rewrite E. exact F. Qed.
Lemma no_clash c : no_collision t (hash L) -> Forall (of_a_class t) (helpers (c_shared c)) -> injective_on (hash L) (map trim (helpers (c_shared c))).
Proof.
  intros N F x y X Y E. rewrite Forall_forall in F.
  apply (N (map trim (map (helper_code t) with_helper)) (trimmed_all _)); [| |exact E].
  - apply in_map_iff in X as (c0 & <- & X). destruct (F _ X) as (k & K & ->). do 2 apply in_map. exact K.
  - apply in_map_iff in Y as (c0 & <- & Y). destruct (F _ Y) as (k & K & ->). do 2 apply in_map. exact K.
Qed.
Lemma needs_registered qs c code : asked t nothing qs (c_shared c) -> needs t qs code -> In code (helpers (c_shared c)).
Proof.
  intros A N. destruct N as [q v ns l r g recv args kws k I Q G R M W H NE|q v a l m st I Q S W NE]; apply in_split in I as (b & af & ->).
  - exact (proj2 (helper_registered t _ _ _ _ _ _ _ _ _ _ _ _ _ _ A Q G R M W H NE)).
  - apply asked_app in A as (v1 & _ & A). apply asked_cons in A as (-> & v2 & A & T). apply asked_onward in T as [_ (k & K & _)].
    assert (X := proj2 (name_registers t q m a _ l _ A ltac:(destruct Q as [->|[n ->]]; eauto) W NE (or_introl S))).
    rewrite K, X. apply in_or_app. left. apply in_or_app. right. left. reflexivity.
Qed.
Lemma texts_hold qs c : asked t nothing qs (c_shared c) -> helper_texts t qs (keep_first (map trim (helpers (c_shared c)))).
Proof.
  intros A. split; [apply keep_first_nodup|]. split.
  - intros code N. exists (trim code). split; [apply UtilsFacts.trimmed_rstrip|]. apply keep_first_in, in_map. eapply needs_registered; eassumption.
  - intros x H. apply keep_first_sub, in_map_iff in H as (y & <- & H). apply classes_of in A. rewrite Forall_forall in A.
    destruct (A _ H) as (k & K & ->). exists k. split; [exact K|apply UtilsFacts.trimmed_rstrip].
Qed.
Lemma dvals_nil {K V} (d : dict K V) : dvals d = [] -> d = [].
Proof. destruct d as [|[]]; [reflexivity|discriminate]. Qed.

(** ** Runs *)
Lemma program_leads cwd src out exclude w w' c' :
  program L cwd src out exclude w = (w', Ok c') -> exists qs, asked t nothing qs (c_shared c').
Proof.
  unfold program. intros H. apply FileTreeRun.run_parts in H as (w1 & w2 & _ & _ & T & _).
  apply dir_leads in T as [qs A]. exists qs. exact A.
Qed.
Theorem program_dir cwd src out exclude f w c' :
  f @@ src = Some Dir -> program L cwd src out exclude (MkWorld f []) = (w, Ok c') -> no_collision t (hash L) ->
  exists qs texts, asked t nothing qs (c_shared c') /\ helper_texts t qs texts /\
  (texts = [] \/ disk w @@ ("paddle_utils.py" :: destination cwd out)%list =
    Some (File (format (isort L) (join nls ([(nls ++ "import paddle" ++ nls)%string; START_CONTENT; INIT_CONTENT] ++ texts ++ [END_CONTENT])%list)))).
Proof.
  intros D H N. destruct (program_leads _ _ _ _ _ _ _ H) as [qs A]. exists qs, (keep_first (map trim (helpers (c_shared c')))).
  split; [exact A|]. split; [apply texts_hold, A|].
  assert (V := registry_exact c' _ (trimmed_all _) (no_clash c' N (classes_of _ _ A))).
  unfold program in H. apply FileTreeRun.run_parts in H as (w1 & w2 & S & _ & _ & Fl).
  assert (Dw : disk w1 @@ src = Some Dir).
  { destruct S as [[-> _]|[_ M]]; [exact D|]. apply FileTreeMirror.makedirs_spec in M as (_ & G & _).
    destruct (G src) as [E|(E & _)]; [rewrite E; exact D|cbn in E; congruence]. }
  destruct Fl as [[Fi _]|[_ Fl]]; [unfold isfile in Fi; rewrite Dw in Fi; discriminate|].
  apply FileTreeRun.flush_dir in Fl as [[E _]|(_ & _ & text & B & -> & _)].
  - left. rewrite E in V. symmetry. exact V.
  - right. rewrite B. unfold insert_code. cbn [dir_mode code_map]. rewrite V. reflexivity.
Qed.
Theorem program_file cwd src dst exclude s f w c' :
  f @@ src = Some (File s) -> ~ inside dst src -> ~ inside src dst -> f @@ tl dst = Some Dir \/ f @@ tl dst = None ->
  let new := if isdir f dst then (basename src :: dst)%list else dst in
  is_excluded (found L) exclude src = false ->
  program L cwd src (Some dst) exclude (MkWorld f []) = (w, Ok c') -> no_collision t (hash L) ->
  exists qs texts exists_path text final, asked t nothing qs (c_shared c') /\ helper_texts t qs texts /\
    looks_at f (fun p => ~ inside dst p) exists_path /\ convert_text u exists_path (render src) s (new_converter [] nothing) = Ok (text, c') /\ disk w @@ new = Some (File final) /\
    (texts = [] -> final = text) /\
    (texts <> [] -> exists k body, final = format (isort L) body /\ (k <= List.length (splitlines text))%nat /\
       split_on nl body = (or_blank (firstn k (splitlines text)) ++ file_block texts ++ or_blank (skipn k (splitlines text)))%list).
Proof.
  intros Fs A B Pd new Ex H N. destruct (program_leads _ _ _ _ _ _ _ H) as [qs Q]. exists qs, (keep_first (map trim (helpers (c_shared c')))).
  assert (V := registry_exact c' _ (trimmed_all _) (no_clash c' N (classes_of _ _ Q))).
  unfold program in H. apply (FileTreeRun.run_file _ _ _ _ _ _ _ _ _ _ s) in H; auto. rewrite Ex in H.
  destruct H as (ex & text & final & Lk & Cv & Fi & E1 & E2 & _). exists ex, text, final.
  split; [exact Q|]. split; [apply texts_hold, Q|]. split; [exact Lk|]. split; [exact Cv|]. split; [exact Fi|]. split.
  - intros T. apply E1, dvals_nil. rewrite V. exact T.
  - intros T. assert (NN : registry L c' <> []). { intros R. rewrite R in V. symmetry in V. contradiction. }
    destruct (E2 NN) as (h & W).
    set (hh := MkHelper _ _ _) in W.
    destruct (file_write_lines (isort L) hh (Some text) text) as (k & body & X & _ & Y & Z); [|exact NN|reflexivity|reflexivity|].
    + destruct (has_file hh) eqn:Z; [reflexivity|]. exfalso. clear - W Z. unfold write_code in W. rewrite Z in W. discriminate W.
    + rewrite X in W. injection W as <- _. exists k, body. split; [reflexivity|]. split; [exact Y|]. rewrite Z.
      cbn [hh code_map]. rewrite V. reflexivity.
Qed.
End Facts.

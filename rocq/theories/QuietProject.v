(** Projects without torch (C125): what is asked of their files, and proofs. *)
From Coq Require Import ZArith.
From Verif Require Import PyStr PyDict TablesData Lookup Requirements Ast TextSpec TextFacts ImportPass ImportSpec ImportFacts Walk WalkBridge WalkIdle
  BasicPass CustomPass Converter QuietSpec QuietFacts Shipped Program PropertiesImport PropertiesQuiet.
From Verif Require FileTree FileTreeSpec FileTreeMirror PropertiesFiles.
Import FileTreeSpec FileTreeMirror.
Open Scope string_scope.
Opaque api_mapping attribute_mapping alias_mapping wildcard_mapping matcher_classes torch_package_mapping.

(** What the formatters make of a text; with --no_format nothing. *)
Definition layout (L : libraries) (text : string) : string :=
  if unformatted L then text
  else
    let black_text := match black L text with Some t => t | None => text end in
    match isort L black_text with Some t => t | None => black_text end.

(** [without_torch L file bytes text]: a Python file that imports no torch package, whatever
    modules the project has; [text] is what printing and formatting its tree gives. *)
Definition without_torch (L : libraries) (file bytes text : string) : Prop := exists code body printed,
  reads_text bytes code /\ parse_file L code = Ok (module body) /\ print_file L (module body) = Ok printed /\ text = layout L printed /\
  (~ exists a b, text = a ++ "Not Support auto convert" ++ b) /\
  ImportSpec.program body /\ well_formed (module body) /\ (depth (module body) <= limit L)%nat /\
  (forall exists_path, all_safe (MkEnv (min_mode (matchers L)) file exists_path) (module body)) /\
  (forall exists_path i, In i (imports_of (module body)) -> plain (MkEnv (min_mode (matchers L)) file exists_path) i) /\
  no_package_probe (module body) /\ no_extension_load (module body).

(** What becomes of a file of such a project. *)
Definition carried_over (L : libraries) (file s text : string) : Prop :=
  if endswith file ".py" then without_torch L file s text
  else if endswith file "requirements.txt" then exists code, reads_text s code /\ text = py_replace code "torch" "paddlepaddle-gpu"
  else text = s.

Lemma carried_once L file s text text' : carried_over L file s text -> carried_over L file s text' -> text = text'.
Proof.
  unfold carried_over. destruct (endswith file ".py").
  - intros (s1 & b & p & T & E & P & -> & _) (s2 & b' & p' & T' & E' & P' & -> & _). rewrite (reads_text_once _ _ _ T T'), E' in E. injection E as E. rewrite E, P in P'. congruence.
  - destruct (endswith _ _); [|intros -> ->; reflexivity]. intros (s1 & T & ->) (s2 & T' & ->). rewrite (reads_text_once _ _ _ T T'). reflexivity.
Qed.
Section Quiet.
Variable L : libraries.
Hypothesis order_ok : some_order (sets L).
Let u := converter_setup L.
(** Nothing counted, nothing registered. *)
Definition idle (c : conv world) : Prop :=
  c_torch c = 0%Z /\ c_success c = 0%Z /\ c_all c = [] /\ c_unsupported c = [] /\ c_autograd c = [] /\ c_shared c = nothing.
Lemma idle_text ex file s text c : carried_over L file s text -> idle c ->
  exists c', convert_text u ex file s c = Ok (text, c') /\ idle c'.
Proof.
  unfold carried_over, convert_text. intros W I. destruct (endswith file ".py").
  - destruct W as (code & body & printed & Tx & Ps & Pr & -> & Cl & G & Wf & D & Sf & Pl & Pp & Ld).
    destruct I as (I1 & I2 & I3 & I4 & I5 & I6).
    destruct (C42_file_unchanged _ u ex file body c G Wf order_ok (Sf ex) (fun f i => eq_refl) D (Pl ex) Pp Ld) as (c' & E & H1 & H2 & H3 & H4 & H5 & H6 & T).
    + cbn. rewrite I6. reflexivity.
    + exact I5.
    + exists c'. split.
      * apply read_text_spec in Tx. rewrite Tx. cbn [bind]. unfold convert_python. change (py_parse u code) with (parse_file L code). rewrite Ps. cbn [bind]. rewrite E. cbn [bind].
        change (py_unparse u (module body)) with (print_file L (module body)). rewrite Pr. cbn [bind].
        change (if no_format u then printed else _) with (layout L printed).
        destruct (only_complete u); [reflexivity|].
        assert (K : torch_packages (match dget String.eqb file (c_imports c') with Some i => i | None => ist0 end) = []).
        { destruct (dget _ _ _) eqn:Q; [apply T; reflexivity|reflexivity]. }
        rewrite K, (PropertiesText.C04_clean_file_identity _ _ _ Cl). reflexivity.
      * unfold idle. rewrite H1, H2, H3, H4, H5, H6. repeat split; assumption.
  - destruct (endswith file "requirements.txt"); [|subst text; exists c; auto].
    destruct W as (code & Tx & ->). apply read_text_spec in Tx. rewrite Tx. exists c. auto.
Qed.
Lemma idle_all looks src l : forall c c', conversions looks (convert_text u) src c l c' -> idle c ->
  (forall rel s text, In (rel, s, text) l -> exists t, carried_over L (FileTree.render (rel ++ src)%list) s t) ->
  idle c' /\ forall rel s text, In (rel, s, text) l -> carried_over L (FileTree.render (rel ++ src)%list) s text.
Proof.
  induction l as [|x l IH]; intros c c' H I W; inversion H as [|ex r0 s0 t0 c1 c2 l0 c3 Lk E K]; subst.
  - split; [exact I|contradiction].
  - destruct (W r0 s0 t0 (or_introl eq_refl)) as [t Wt].
    destruct (idle_text ex _ _ _ c Wt I) as (d & E' & Id). fold u in E. rewrite E in E'. injection E' as <- <-.
    destruct (IH _ _ K Id) as [J A]. { intros rel s text J. eapply W. right. exact J. }
    split; [exact J|]. intros rel s text [[= <- <- <-]|Q]; [exact Wt|exact (A _ _ _ Q)].
Qed.
Lemma program_idle cwd src out exclude f w c' :
  let dst := destination cwd out in
  let takes_part := reached (is_excluded (found L) exclude) f src in
  sound f -> any_order (listing L) -> f @@ src = Some FileTree.Dir -> ~ inside dst src -> ~ inside src dst ->
  (forall rel e, takes_part rel e -> fits e (f @@ (rel ++ dst)%list)) ->
  (forall rel s, takes_part rel (FileTree.File s) -> exists text, carried_over L (FileTree.render (rel ++ src)%list) s text) ->
  Program.program L cwd src out exclude (FileTree.MkWorld f []) = (w, Ok c') -> idle c'.
Proof.
  intros dst tp Sd An Ds A B Ft Co H. unfold Program.program in H.
  destruct (PropertiesFiles.C44_output_mirrors_input _ _ _ _ _ _ _ cwd src out exclude _ c' f w Sd An Ds A B Ft H) as ((l & K & N & I & F) & _).
  refine (proj1 (idle_all _ src l _ _ K _ _)); [unfold idle; cbn; repeat split; reflexivity|].
  intros rel s text J. apply Co. apply I. eauto.
Qed.
End Quiet.

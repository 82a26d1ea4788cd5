(** C136: the summary of several projects; C45 for several projects. *)
From Coq Require Import ZArith QArith Lia Permutation.
From Verif Require Import PyStr PyDict Ast BasicPass Converter Shipped Program Main Report ReportSpec ReportFacts ReportRun Summary SummaryFacts.
From Verif Require Import FileTree FileTreeSpec FileTreeFacts.
From Verif Require Import FileTreeMirror MainProjects PropertiesFiles.
From Verif Require PropertiesProgram PropertiesProjects.
Local Open Scope list_scope.

(** ** C45, several projects *)
(** The projects are never modified, at no point of the run and whatever its outcome is, if the
    output is neither inside the directory of the projects nor around it. *)
Theorem C45_projects_untouched : forall L cwd package o base f w outcome,
  separate_convert o = true -> in_dir o = Some base ->
  ~ inside (destination cwd (out_dir o)) base -> ~ inside base (destination cwd (out_dir o)) ->
  command L cwd package o (MkWorld f []) = (w, outcome) ->
  disk w = after (past w) f /\
  forall l1 l2, past w = l1 ++ l2 -> forall p, inside p base -> after l2 f @@ p = f @@ p.
Proof.
  intros L cwd package o base f w oc S B A1 A2 H.
  destruct (command_spans L cwd package o base (MkWorld f []) S B) as (l & E1 & E2 & F).
  rewrite H in E1, E2. cbn in E1, E2. rewrite app_nil_r in E1. rewrite E1. split; [exact E2|].
  intros l1 l2 -> p I. apply Forall_app in F. destruct F as [_ F]. apply after_other. intros op J E.
  rewrite Forall_forall in F. specialize (F op J). cbn in F. rewrite E in F. exact (near_not_inside _ _ _ A1 A2 F I).
Qed.
Print Assumptions C45_projects_untouched.

(** ** C136 *)
(** The rate of a project, compared exactly: the converted uses are at least [k] percent. *)
Definition reaches (k : Z) (nc : string * conv Shipped.world) : bool :=
  let c := snd nc in (0 <? c_torch c)%Z && (k * c_torch c <=? 100 * c_success c)%Z.

Lemma reaches_float round (c : conv Shipped.world) k : ieee round -> balanced c -> (c_torch c < 10 ^ 11)%Z -> (1 <= k <= 100)%Z ->
  Qle_bool (round (k # 100)) (float_rate round c) = (0 <? c_torch c)%Z && (k * c_torch c <=? 100 * c_success c)%Z.
Proof.
  intros I [P B] T K. unfold float_rate. destruct (Z.ltb_spec 0 (c_torch c)) as [T0|T0]; cbn [andb].
  - apply at_least_percent; [exact I|lia|lia|exact K].
  - destruct (Qle_bool _ _) eqn:E; [|reflexivity]. apply Qle_bool_iff in E. exfalso.
    destruct (round_close round I (k # 100)) as [L _]; [unfold Qle; cbn [Qnum Qden]; lia|unfold Qle; cbn [Qnum Qden]; lia|].
    assert (X : (0 < (k # 100))%Q) by (unfold Qlt; cbn [Qnum Qden]; lia).
    assert (Y : (0 < (k # 100) * (1 - (1 # 9007199254740992)))%Q) by (apply Qmult_lt_0_compat; [exact X|reflexivity]).
    apply (Qlt_irrefl 0). eapply Qlt_le_trans; [exact Y|]. eapply Qle_trans; eassumption.
Qed.
Lemma reaches_hundred round (c : conv Shipped.world) : ieee round -> balanced c -> (c_torch c < 10 ^ 11)%Z ->
  Qeq_bool (float_rate round c) 1 = (0 <? c_torch c)%Z && (100 * c_torch c <=? 100 * c_success c)%Z.
Proof.
  intros I [P B] T. unfold float_rate. destruct (Z.ltb_spec 0 (c_torch c)) as [T0|T0]; cbn [andb]; [|reflexivity].
  rewrite hundred_exactly by (try assumption; lia). destruct (Z.eqb_spec (c_success c) (c_torch c)), (Z.leb_spec (100 * c_torch c) (100 * c_success c)); lia.
Qed.
Lemma filter_same {A} (p q : A -> bool) l : (forall x, In x l -> p x = q x) -> List.length (filter p l) = List.length (filter q l).
Proof.
  intros H. induction l as [|x l IH]; [reflexivity|]. cbn [filter]. rewrite (H x (or_introl eq_refl)).
  destruct (q x); cbn [List.length]; rewrite IH; auto; intros y Y; apply H; right; exact Y.
Qed.

Lemma printed_ok round n r lines : printed_summary round n r = Ok lines -> (0 < n)%nat /\
  lines = [nls ++ "=============================================="; "Convert Summary"; "=============================================="; "Convert rate of each project is:" ++ nls]%string ++
     map (fun kv => ("  " ++ fst kv ++ ": " ++ percent round (snd kv))%string) (rate_map (counted round r)) ++
     [nls ++ "In Total, there are " ++ nat_to_str n ++ " Pytorch Projects:" ++ nls ++
      " : " ++ share round (at_100 (counted round r)) n ++ " Project's Convert-Rate is 100%" ++ nls ++
      " : " ++ share round (at_95 (counted round r)) n ++ " Project's Convert-Rate >=95%" ++ nls ++
      " : " ++ share round (at_90 (counted round r)) n ++ " Project's Convert-Rate >=90%"]%string.
Proof.
  unfold printed_summary. destruct n as [|n]; [discriminate|]. intros E. split; [lia|].
  assert (J : forall (x y : list string), Ok x = Ok y -> x = y) by congruence. apply J in E. symmetry. exact E.
Qed.

(** What is printed after a run over several projects: one line per project, in the order of
    conversion, with its rate; then how many projects have a rate of 100%, at least 95% and at
    least 90%, compared exactly, and how many entries the directory of the projects has now. *)
Theorem C136_the_summary : forall round L cwd package o base f w lines,
  separate_convert o = true -> in_dir o = Some base -> sound f -> any_order (listing L) -> ieee round ->
  separate_output round L cwd package o base (MkWorld f []) = (w, Ok lines) ->
  exists r, command L cwd package o (MkWorld f []) = (w, Ok r) /\ Permutation (map fst r) (names f base) /\
  ((forall name c, In (name, c) r -> (c_torch c < 10 ^ 11)%Z) ->
   let n := List.length (names (disk w) base) in
   let number k := List.length (filter (reaches k) r) in
   let share k := (nat_to_str (number k) ++ "(" ++ percent round (round (Z.of_nat (number k) # Z.to_pos (Z.of_nat n))) ++ ")")%string in
   (0 < n)%nat /\
   lines = [nls ++ "=============================================="; "Convert Summary"; "=============================================="; "Convert rate of each project is:" ++ nls]%string ++
     map (fun nc => ("  " ++ fst nc ++ ": " ++ percent round (float_rate round (snd nc)))%string) r ++
     [nls ++ "In Total, there are " ++ nat_to_str n ++ " Pytorch Projects:" ++ nls ++
      " : " ++ share 100%Z ++ " Project's Convert-Rate is 100%" ++ nls ++
      " : " ++ share 95%Z ++ " Project's Convert-Rate >=95%" ++ nls ++
      " : " ++ share 90%Z ++ " Project's Convert-Rate >=90%"]%string).
Proof.
  intros round L cwd package o base f w lines S B Sd An I H. unfold separate_output in H.
  apply FileTreeMirror.bind_ok in H as (w1 & r & H & P). unfold see in P.
  destruct (printed_summary round (List.length (names (disk w1) base)) r) as [l|e] eqn:E; [|discriminate P].
  unfold ret in P. injection P as <- <-. exists r. split; [exact H|].
  assert (Nm : Permutation (map fst r) (names f base)).
  { pose proof H as H0. unfold command in H0. cbv zeta in H0. rewrite S, B in H0. unfold see in H0. cbn [disk] in H0. destruct (isdir f base); [|discriminate H0].
    rewrite (each_project_names _ _ _ _ _ _ _ _ _ H0). apply An. }
  split; [exact Nm|]. intros T n number share.
  apply printed_ok in E as [N0 E]. fold n in N0, E. split; [exact N0|].
  assert (Nd : NoDup (map fst r)).
  { eapply Permutation_NoDup; [apply Permutation_sym, Nm|]. apply FileTreeMirror.names_nodup, Sd. }
  rewrite (counted_map round r Nd), map_map in E. cbn [fst snd] in E.
  assert (C : at_100 (counted round r) = number 100%Z /\ at_95 (counted round r) = number 95%Z /\ at_90 (counted round r) = number 90%Z).
  { pose proof (command_balanced _ _ _ _ _ _ _ H) as Bl. rewrite Forall_forall in Bl.
    destruct (counted_counts round r (MkSummary 0 0 0 [])) as (X & Y & Z). unfold counted. rewrite X, Y, Z. cbn [at_100 at_95 at_90 plus].
    unfold number. split; [|split]; apply filter_same; intros [x c] J; specialize (Bl _ J); specialize (T _ _ J); cbn [snd] in *; unfold reaches; cbn [snd].
    - apply reaches_hundred; assumption.
    - apply reaches_float; try assumption; lia.
    - apply reaches_float; try assumption; lia. }
  destruct C as (C1 & C2 & C3). rewrite C1, C2, C3 in E.
  rewrite E. reflexivity.
Qed.
Print Assumptions C136_the_summary.

(** The number of projects is the number of entries that were converted, if the output is
    neither inside the directory of the projects nor around it. *)
Theorem C136_the_number_of_projects : forall L cwd package o base f w r,
  separate_convert o = true -> in_dir o = Some base -> sound f -> any_order (listing L) ->
  ~ inside (destination cwd (out_dir o)) base -> ~ inside base (destination cwd (out_dir o)) ->
  command L cwd package o (MkWorld f []) = (w, Ok r) ->
  List.length (names (disk w) base) = List.length r.
Proof.
  intros L cwd package o base f w r S B Sd An A1 A2 H.
  destruct (C45_projects_untouched L cwd package o base f w (Ok r) S B A1 A2 H) as [D U].
  specialize (U [] (past w) eq_refl). rewrite <- D in U.
  assert (P : Permutation (names (disk w) base) (names f base)).
  { apply NoDup_Permutation; [apply names_nodup; rewrite D; apply sound_after, Sd|apply names_nodup, Sd|].
    intros n. rewrite !in_names_at, U; [reflexivity|]. exists [n]. reflexivity. }
  rewrite (Permutation_length P).
  assert (Nm : map fst r = listing L f base (names f base)).
  { unfold command in H. cbv zeta in H. rewrite S, B in H. unfold see in H. cbn [disk] in H. destruct (isdir f base); [|discriminate H].
    exact (each_project_names _ _ _ _ _ _ _ _ _ H). }
  rewrite <- (map_length fst r), Nm. symmetry. apply Permutation_length, An.
Qed.
Print Assumptions C136_the_number_of_projects.

(** Violated otherwise.  The command is started in the directory of the projects, without
    [--out_dir]: the only project is converted completely, but the output counts as a project
    of its own, so that half of "2 projects" are. *)
Definition ex_here : fs := [([], Dir); (["all"], Dir); (["one"; "all"], Dir); (["main.py"; "one"; "all"], File "import torch")]%string.
Definition ex_here_options : options := MkOptions (Some ["all"%string]) None None false true false false true.
Theorem C136_output_counted_refuted : exists w r c,
  command PropertiesProgram.ex_libraries ["all"%string] [] ex_here_options (MkWorld ex_here []) = (w, Ok r) /\
  r = [("one"%string, c)] /\ c_success c = c_torch c /\ (0 < c_torch c)%Z /\
  forall round, ieee round -> exists lines line before after,
    separate_output round PropertiesProgram.ex_libraries ["all"%string] [] ex_here_options ["all"%string] (MkWorld ex_here []) = (w, Ok lines) /\
    In line lines /\
    line = (before ++ "there are 2 Pytorch Projects:" ++ nls ++ " : 1(" ++ percent round (round (1 # 2)) ++ ") Project's Convert-Rate is 100%" ++ after)%string.
Proof.
  destruct (command PropertiesProgram.ex_libraries ["all"%string] [] ex_here_options (MkWorld ex_here [])) as [w res] eqn:H.
  assert (X : exists c, res = Ok [("one"%string, c)] /\ c_success c = c_torch c /\ (0 < c_torch c < 10)%Z /\ List.length (names (disk w) ["all"%string]) = 2%nat).
  { assert (Y := f_equal fst H). assert (Z := f_equal snd H). cbn [fst snd] in Y, Z. rewrite <- Y, <- Z. clear. eexists.
    split; [vm_compute; reflexivity|]. split; [vm_compute; reflexivity|]. split; [vm_compute; split; reflexivity|]. vm_compute. reflexivity. }
  destruct X as (c & -> & E & T & N). exists w, [("one"%string, c)], c. split; [reflexivity|]. split; [reflexivity|]. split; [exact E|]. split; [lia|].
  intros round I. unfold separate_output. unfold bind. rewrite H. unfold see. rewrite N.
  assert (C : at_100 (counted round [("one"%string, c)]) = 1%nat).
  { cbn [counted fold_left count_rate at_100 plus snd]. unfold float_rate. destruct (Z.ltb_spec 0 (c_torch c)); [|lia].
    rewrite hundred_exactly; [|exact I|lia|split; [lia|]]. { rewrite E, Z.eqb_refl. reflexivity. } eapply Z.lt_trans; [apply (proj2 T)|reflexivity]. }
  unfold printed_summary. rewrite C. do 4 eexists. split; [reflexivity|]. split; [apply in_or_app; right; apply in_or_app; right; left; reflexivity|].
  instantiate (2 := (nls ++ "In Total, ")%string). unfold share at 1. rewrite !PyStrFacts.app_assoc_s. reflexivity.
Qed.
Print Assumptions C136_output_counted_refuted.

(** An empty directory of projects: the command fails. *)
Theorem C136_no_projects_refuted : forall round L cwd package o base f,
  separate_convert o = true -> in_dir o = Some base -> any_order (listing L) -> isdir f base = true -> names f base = [] ->
  separate_output round L cwd package o base (MkWorld f []) = (MkWorld f [], Raise "ZeroDivisionError").
Proof.
  intros round L cwd package o base f S B An D N.
  assert (E : listing L f base (names f base) = []). { rewrite N. apply Permutation_nil, Permutation_sym. apply An. }
  unfold separate_output, command. cbv zeta. rewrite S, B. unfold bind, see. cbn [disk]. rewrite D.
  change (listing (configured L o)) with (listing L). rewrite E. cbn [each_project]. unfold ret. cbn [disk]. rewrite N. reflexivity.
Qed.
Print Assumptions C136_no_projects_refuted.

(** Two projects, apart from the output. *)
Example C136_nonvacuous : exists w r,
  let o := PropertiesProjects.ex_separate in
  command PropertiesProgram.ex_libraries [] [] o (MkWorld PropertiesProjects.ex_two []) = (w, Ok r) /\
  separate_convert o = true /\ in_dir o = Some ["all"%string] /\ sound PropertiesProjects.ex_two /\ any_order (listing PropertiesProgram.ex_libraries) /\
  ~ inside (destination [] (out_dir o)) ["all"%string] /\ ~ inside ["all"%string] (destination [] (out_dir o)) /\
  map fst r = ["one"; "two"]%string /\ Forall (fun nc => (c_torch (snd nc) < 10 ^ 11)%Z) r /\ List.length (names (disk w) ["all"%string]) = 2%nat.
Proof.
  do 2 eexists. split; [vm_compute; reflexivity|]. split; [reflexivity|]. split; [reflexivity|]. split.
  { unfold sound. cbn. repeat (constructor; [intros J; cbn in J; intuition discriminate|]). constructor. }
  split; [intros g p l; apply Permutation_refl|].
  split; [intros [[|? [|? ?]] E]; discriminate E|]. split; [intros [[|? [|? ?]] E]; discriminate E|].
  split; [reflexivity|]. split; [|vm_compute; reflexivity]. repeat constructor.
Qed.

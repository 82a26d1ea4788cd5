(** The log of a conversion (C123). *)
From Coq Require Import ZArith QArith Lia.
From Verif Require Import PyStr PyStrFacts PyDict TablesData Ast ImportPass BasicPass Converter Helpers HelpersFacts Shipped Program Main Report ReportSpec ReportFacts ReportRun.
From Verif Require FileTree PropertiesProgram PropertiesMain.
Open Scope string_scope.

(** ** C123 *)
Lemma in_a_row_middle l log before after : in_a_row l log -> in_a_row l (before ++ log ++ after)%list.
Proof. intros (b & a & ->). exists (before ++ b)%list, (a ++ after)%list. rewrite <- !app_assoc. reflexivity. Qed.
Lemma ok_inj {A} (x y : A) : Ok x = Ok y -> x = y. Proof. congruence. Qed.
Lemma shown_app v a b : shown v (a ++ b) = (shown v a ++ shown v b)%list.
Proof. unfold shown. rewrite filter_app, map_app. reflexivity. Qed.
Lemma shown_info {A} (f : A -> string) l : shown Info (map (fun x => (Info, f x)) l) = map f l.
Proof. unfold shown. induction l as [|x l IH]; [reflexivity|]. cbn [map filter]. cbn [fst] in *. cbn [map snd]. f_equal. exact IH. Qed.
Lemma shown_cons v m l : shown v (m :: l) = (shown v [m] ++ shown v l)%list.
Proof. apply (shown_app v [m] l). Qed.

(** For every converter a command has run, the numbers of the summary are those of the uses,
    they add up, and they are shown at every level of the log. *)
Theorem C123_the_numbers_of_the_summary : forall L cwd package o w w' r name c round p lines v,
  command L cwd package o w = (w', Ok r) -> In (name, c) r ->
  report round p c = Ok lines -> log_markdown p = false ->
  exists total converted failed,
    total = (converted + failed)%nat /\ failed = list_sum (map snd (c_unsupported c)) /\
    returned c = (Z.of_nat converted, Z.of_nat failed) /\
    in_a_row ["There are " ++ nat_to_str total ++ " Pytorch APIs in this Project:";
              " " ++ nat_to_str converted ++ "  Pytorch APIs have been converted to Paddle successfully!";
              " " ++ nat_to_str failed ++ "  Pytorch APIs are not supported to convert to Paddle currently!";
              " Convert Rate is: " ++ percent round (float_rate round c)] (shown v lines).
Proof.
  intros L cwd package o w w' r name c round p lines v H I R K. apply command_balanced in H. rewrite Forall_forall in H.
  apply H in I as [P B]. cbn [snd] in *. set (f := list_sum (map snd (c_unsupported c))) in *.
  exists (Z.to_nat (c_success c) + f)%nat, (Z.to_nat (c_success c)), f.
  assert (F : (c_torch c - c_success c = Z.of_nat f)%Z) by lia.
  split; [reflexivity|]. split; [reflexivity|]. split; [unfold returned; rewrite F, Z2Nat.id by exact P; reflexivity|].
  unfold report in R. rewrite K in R. destruct (if show_unalign_api p then _ else _) as [u|e]; [|discriminate]. cbn [Ast.bind] in R. apply ok_inj in R. subst lines.
  rewrite !shown_app. rewrite <- (app_nil_r (shown v (summary_lines round c))), !app_assoc. rewrite <- (app_assoc _ _ []). apply in_a_row_middle.
  unfold summary_lines. cbv zeta. rewrite F.
  assert (A1 : int_to_str (c_success c) = nat_to_str (Z.to_nat (c_success c))) by (rewrite <- int_to_str_nat, Z2Nat.id by exact P; reflexivity).
  assert (A2 : int_to_str (c_torch c) = nat_to_str (Z.to_nat (c_success c) + f)) by (rewrite <- int_to_str_nat; f_equal; lia).
  rewrite A1, A2, int_to_str_nat.
  rewrite shown_app. exists [nls ++ "==========================================="; "Convert Summary"; "==========================================="].
  destruct v; eexists; cbn [shown filter fst map snd app]; reflexivity.
Qed.
Print Assumptions C123_the_numbers_of_the_summary.

(** The same numbers in the summary of [--log_markdown]; the failed ones are named a second time,
    with the advice, exactly if there are any. *)
Theorem C123_the_numbers_in_markdown : forall L cwd package o w w' r name c round p lines v,
  command L cwd package o w = (w', Ok r) -> In (name, c) r ->
  report round p c = Ok lines -> log_markdown p = true ->
  exists total converted failed before advice,
    total = (converted + failed)%nat /\ failed = list_sum (map snd (c_unsupported c)) /\
    returned c = (Z.of_nat converted, Z.of_nat failed) /\
    shown v lines = (before ++
      (["# 转换总结";
        "总计有 " ++ nat_to_str total ++ " 行Pytorch代码需要被转换，整体转换率是 " ++ percent round (float_rate round c) ++ "，数据如下：";
        "* " ++ nat_to_str converted ++ " 行Pytorch 代码被成功转换为飞桨";
        "* " ++ nat_to_str failed ++ " 行Pytorch 代码暂时不支持自动转换为飞桨，因为飞桨不支持该功能，请手动转换"])%string ++ advice)%list /\
    (failed = 0%nat -> advice = []) /\
    (failed <> 0%nat -> exists rest, advice = [(nls ++ "对于这" ++ nat_to_str failed ++ rest)%string]).
Proof.
  intros L cwd package o w w' r name c round p lines v H I R K. apply command_balanced in H. rewrite Forall_forall in H.
  apply H in I as [P B]. cbn [snd] in *. set (f := list_sum (map snd (c_unsupported c))) in *.
  exists (Z.to_nat (c_success c) + f)%nat, (Z.to_nat (c_success c)), f.
  assert (F : (c_torch c - c_success c = Z.of_nat f)%Z) by lia.
  unfold report in R. rewrite K in R. destruct (if show_unalign_api p then _ else _) as [u|e]; [|discriminate]. cbn [Ast.bind] in R. apply ok_inj in R. subst lines.
  rewrite !app_assoc, shown_app. eexists. eexists.
  split; [reflexivity|]. split; [reflexivity|]. split; [unfold returned; rewrite F, Z2Nat.id by exact P; reflexivity|].
  unfold markdown_lines. cbv zeta. rewrite F.
  assert (A1 : int_to_str (c_success c) = nat_to_str (Z.to_nat (c_success c))) by (rewrite <- int_to_str_nat, Z2Nat.id by exact P; reflexivity).
  assert (A2 : int_to_str (c_torch c) = nat_to_str (Z.to_nat (c_success c) + f)) by (rewrite <- int_to_str_nat; f_equal; lia).
  rewrite A1, A2, int_to_str_nat. rewrite (shown_app v (_ :: _)). split; [refine (f_equal2 (@app _) eq_refl (f_equal2 (@app _) _ eq_refl)); destruct v; reflexivity|].
  split; intros Z.
  - rewrite Z. reflexivity.
  - assert (G : (0 <? Z.of_nat f)%Z = true) by (apply Z.ltb_lt; lia). rewrite G. eexists. destruct v; reflexivity.
Qed.
Print Assumptions C123_the_numbers_in_markdown.

(** The tables: every entry of the converter once, the most used first, with its name, the
    paddle name and the number of uses. *)
Theorem C123_the_table_of_all_apis : forall M round p (c : conv M) lines,
  report round p c = Ok lines -> show_all_api p = true -> c_all c <> [] ->
  exists entries rows, by_frequency (fun kv => snd (snd kv)) (c_all c) entries /\
  Forall2 (fun kv row => exists a b d, row = a ++ b ++ d /\ cell 80 (fst kv) a /\ cell 80 (fst (snd kv)) b /\ cell 8 (nat_to_str (snd (snd kv))) d) entries rows /\
  in_a_row (["ALL API List:"; "==========================================="; ("All APIs to be converted are as follows." ++ nls)%string] ++ rows)%list (shown Info lines).
Proof.
  intros M round p c lines R K N. unfold report in R. rewrite K in R.
  destruct (if show_unalign_api p then _ else _) as [u|e]; [|discriminate]. cbn [Ast.bind] in R. apply ok_inj in R. subst lines.
  exists (sorted_by (fun kv => snd (snd kv)) (c_all c)), (map api_line (sorted_by (fun kv => snd (snd kv)) (c_all c))).
  split; [apply sorted_frequency|]. split.
  - induction (sorted_by _ _) as [|kv l IH]; constructor; [|exact IH]. unfold api_line. do 3 eexists. split; [reflexivity|]. repeat split; apply aligned_cell.
  - rewrite shown_app. apply (in_a_row_middle _ _ [] _). unfold all_api_list. destruct (c_all c) as [|kv l]; [contradiction|].
    rewrite shown_app, shown_cons, shown_info. unfold heading. exists [nls ++ "==========================================="], [].
    rewrite app_nil_r. reflexivity.
Qed.
Print Assumptions C123_the_table_of_all_apis.

Theorem C123_the_table_of_unsupported_apis : forall M round p (c : conv M) lines,
  report round p c = Ok lines -> show_unsupport_api p = true -> c_unsupported c <> [] ->
  exists entries rows, by_frequency snd (c_unsupported c) entries /\
  Forall2 (fun kv row => exists a b, row = a ++ b /\ cell 80 (fst kv) a /\ cell 8 (nat_to_str (snd kv)) b) entries rows /\
  in_a_row (["Not Support API List:"; "==========================================="; ("These Pytorch APIs are not supported to convert to Paddle automatically now!" ++ nls)%string] ++ rows)%list (shown Info lines).
Proof.
  intros M round p c lines R K N. unfold report in R. rewrite K in R.
  destruct (if show_unalign_api p then _ else _) as [u|e]; [|discriminate]. cbn [Ast.bind] in R. apply ok_inj in R. subst lines.
  exists (sorted_by snd (c_unsupported c)), (map unsupported_line (sorted_by snd (c_unsupported c))).
  split; [apply sorted_frequency|]. split.
  - induction (sorted_by _ _) as [|kv l IH]; constructor; [|exact IH]. unfold unsupported_line. do 2 eexists. split; [reflexivity|]. split; apply aligned_cell.
  - rewrite !shown_app. rewrite app_assoc. apply in_a_row_middle. unfold unsupport_api_list. destruct (c_unsupported c) as [|kv l]; [contradiction|].
    rewrite shown_app, shown_cons, shown_info. unfold heading. exists [nls ++ "==========================================="], [].
    rewrite app_nil_r. reflexivity.
Qed.
Print Assumptions C123_the_table_of_unsupported_apis.

(** With [--log_level WARNING] no table is shown, requested or not. *)
Theorem C123_no_tables_at_level_warning_refuted : forall M round p p' (c : conv M) lines lines',
  log_markdown p = log_markdown p' -> report round p c = Ok lines -> report round p' c = Ok lines' ->
  shown Warning lines = shown Warning lines'.
Proof.
  intros M round p p' c lines lines' K.
  assert (I : forall {A} (f : A -> string) l, shown Warning (map (fun x => (Info, f x)) l) = []) by (induction l as [|x l IH]; [reflexivity|exact IH]).
  assert (X : forall p lines, report round p c = Ok lines -> shown Warning lines = shown Warning (if log_markdown p then markdown_lines round c else summary_lines round c)).
  { clear - I. intros p lines R. unfold report in R.
    assert (U : forall u, (if show_unalign_api p then unalign_api_list (c_all c) else Ok []) = Ok u -> shown Warning u = []).
    { intros u H. destruct (show_unalign_api p); [|injection H as <-; reflexivity]. unfold unalign_api_list in H.
      destruct (unaligned _ _) as [d|]; [|discriminate]. cbn [Ast.bind] in H. apply ok_inj in H. subst u. rewrite shown_app.
      destruct d; [reflexivity|]. rewrite shown_cons, I. reflexivity. }
    destruct (if show_unalign_api p then _ else _) as [u|e]; [|discriminate]. cbn [Ast.bind] in R. apply ok_inj in R. subst lines.
    rewrite !shown_app, (U u eq_refl).
    replace (shown Warning (if show_all_api p then all_api_list (c_all c) else [])) with (@nil string).
    2:{ destruct (show_all_api p); [|reflexivity]. unfold all_api_list. rewrite shown_app. destruct (c_all c); [reflexivity|]. rewrite shown_cons, I. reflexivity. }
    replace (shown Warning (if show_unsupport_api p then unsupport_api_list (c_unsupported c) else [])) with (@nil string).
    2:{ destruct (show_unsupport_api p); [|reflexivity]. unfold unsupport_api_list. rewrite shown_app. destruct (c_unsupported c); [reflexivity|]. rewrite shown_cons, I. reflexivity. }
    reflexivity. }
  intros R R'. rewrite (X _ _ R), (X _ _ R'), K. reflexivity.
Qed.
Print Assumptions C123_no_tables_at_level_warning_refuted.

(** ** The rate *)
(** "100.00%" is shown if and (up to equality) only if at most one use in 20000 was not
    converted, whatever the rounding errors. *)
Theorem C123_hundred_percent : forall L cwd package o w w' r name c round,
  command L cwd package o w = (w', Ok r) -> In (name, c) r -> ieee round ->
  let total := c_torch c in let failed := snd (returned c) in (total < 10 ^ 11)%Z ->
  (percent round (float_rate round c) = "100.00%" -> (0 < total /\ 20000 * failed <= total)%Z) /\
  ((20000 * failed < total)%Z -> percent round (float_rate round c) = "100.00%").
Proof.
  intros L cwd package o w w' r name c round H I E total failed T. apply command_balanced in H. rewrite Forall_forall in H.
  apply H in I as [P B]. cbn [snd] in *. unfold failed, total, returned in *. cbn [snd]. unfold float_rate, percent.
  set (f := list_sum (map snd (c_unsupported c))) in *.
  destruct (Z.ltb_spec 0 (c_torch c)) as [T0|T0].
  - split; intros X.
    + change "100.00%" with (two_decimals 10000) in X. apply two_decimals_inj in X; [|apply (n_least round E (c_success c) (c_torch c)); lia|lia].
      split; [exact T0|]. exact (hundred_only round E (c_success c) (c_torch c) ltac:(lia) ltac:(lia) X).
    + rewrite (hundred_if round E (c_success c) (c_torch c) ltac:(lia) ltac:(lia) X). reflexivity.
  - split; [|lia]. intros X. exfalso.
    assert (R : (round (0 * 100) * 100 == 0)%Q).
    { transitivity (inject_Z 0 * 100)%Q; [|reflexivity]. apply Qmult_comp; [|reflexivity].
      transitivity (round (inject_Z 0)); [|apply (keeps_integers _ E); lia]. apply (round_eq round E). reflexivity. }
    assert (Y : nearest (round (0 * 100)%Q * 100)%Q = 0%Z) by (apply nearest_unique; rewrite R; split; reflexivity).
    rewrite Y in X. discriminate.
Qed.
Print Assumptions C123_hundred_percent.

(** So a project with a use that was not converted can be reported as converted by 100.00%:
    any project with one such use and 20000 other ones, with the shipped matchers. *)
Definition ex_uses (f : string) : node :=
  Other "Module" [Many "body" [Import [MkAlias "torch" None]; PropertiesProgram.statement (Call (Attribute (Name "torch") f) [Name "x"] [])]].
Definition ex_state (t s : Z) (k : nat) (im : dict string ist) : conv world :=
  MkConv t s [("torch.frobnicate", ("", 1%nat)); ("torch.abs", ("paddle.abs", k))] [("torch.frobnicate", 1%nat)] im [] nothing.
Lemma ex_step file t s k im : exists out im',
  transfer_node (converter_setup PropertiesProgram.ex_libraries) (fun _ => false) file (ex_uses "abs") (ex_state t s k im)
  = Ok (out, ex_state (t + 1 + 0 + 0) (s + 1 + 0 + 0) (S k) im').
Proof. do 2 eexists. vm_compute. reflexivity. Qed.
Lemma ex_steps names : forall t s k im, exists out im' k',
  convert_nodes (converter_setup PropertiesProgram.ex_libraries) (fun _ => false) (map (fun n => (n, ex_uses "abs")) names) (ex_state t s k im)
  = Ok (out, ex_state (t + Z.of_nat (List.length names)) (s + Z.of_nat (List.length names)) k' im').
Proof.
  induction names as [|n names IH]; intros t s k im; cbn [map convert_nodes].
  - exists [], im, k. cbn [List.length]. rewrite !Z.add_0_r. reflexivity.
  - destruct (ex_step n t s k im) as (o & im1 & E). rewrite E. cbn [Ast.bind].
    destruct (IH (t + 1 + 0 + 0) (s + 1 + 0 + 0) (S k) im1)%Z as (out & im' & k' & E'). rewrite E'. cbn [Ast.bind].
    exists (o :: out), im', k'. f_equal. f_equal. cbn [List.length]. f_equal; lia.
Qed.
Theorem C123_hundred_percent_refuted : forall name1 name2 names, (20000 <= Z.of_nat (List.length (name2 :: names)))%Z ->
  (Z.of_nat (List.length names) < 10 ^ 10)%Z ->
  exists out c,
  convert_nodes (converter_setup PropertiesProgram.ex_libraries) (fun _ => false)
    ((name1, ex_uses "frobnicate") :: map (fun n => (n, ex_uses "abs")) (name2 :: names)) (new_converter [] nothing) = Ok (out, c) /\
  snd (returned c) = 1%Z /\ forall round, ieee round -> percent round (float_rate round c) = "100.00%".
Proof.
  intros name1 name2 names N T. cbn [map]. cbn [convert_nodes].
  assert (A : exists o im, transfer_node (converter_setup PropertiesProgram.ex_libraries) (fun _ => false) name1 (ex_uses "frobnicate") (new_converter [] nothing)
    = Ok (o, MkConv 1 0 [("torch.frobnicate", ("", 1%nat))] [("torch.frobnicate", 1%nat)] im [] nothing)) by (do 2 eexists; vm_compute; reflexivity).
  destruct A as (o1 & im1 & ->). cbn [Ast.bind].
  assert (A : exists o im, transfer_node (converter_setup PropertiesProgram.ex_libraries) (fun _ => false) name2 (ex_uses "abs")
    (MkConv 1 0 [("torch.frobnicate", ("", 1%nat))] [("torch.frobnicate", 1%nat)] im1 [] nothing) = Ok (o, ex_state 2 1 1 im)) by (do 2 eexists; vm_compute; reflexivity).
  destruct A as (o2 & im2 & ->). cbn [Ast.bind].
  destruct (ex_steps names 2 1 1 im2) as (out & im' & k' & ->). cbn [Ast.bind]. do 2 eexists. split; [reflexivity|].
  cbn [List.length] in N. unfold returned, ex_state. cbn [c_torch c_success snd]. split; [lia|]. intros round E.
  unfold float_rate, percent. cbn [c_torch c_success]. destruct (Z.ltb_spec 0 (2 + Z.of_nat (List.length names))) as [T0|T0]; [|lia].
  rewrite (hundred_if round E (1 + Z.of_nat (List.length names)) (2 + Z.of_nat (List.length names)) ltac:(lia) ltac:(lia)) by lia. reflexivity.
Qed.
Print Assumptions C123_hundred_percent_refuted.

(** Exact arithmetic is a rounding in this sense; a run of the command with its log. *)
Lemma exact_ieee : ieee (fun x => x).
Proof.
  constructor; auto with qarith. intros x P _. setoid_replace (x - x)%Q with 0%Q by ring. cbn.
  apply Qmult_le_0_compat; [|discriminate]. eapply Qle_trans; [|exact P]. vm_compute. discriminate.
Qed.
Example C123_nonvacuous : exists w c lines,
  command PropertiesProgram.ex_libraries [] [] (PropertiesMain.ex_options ["in"] ["out"] false true) (FileTree.MkWorld PropertiesProgram.ex_files [])
    = (w, Ok [("", c)]) /\
  report (fun x => x) (MkReport true true true false) c = Ok lines /\ c_all c <> [] /\
  In " Convert Rate is: 100.00%" (shown Warning lines) /\ In "ALL API List:" (shown Info lines) /\ ~ In "ALL API List:" (shown Warning lines).
Proof.
  do 3 eexists. split; [vm_compute; reflexivity|]. split; [vm_compute; reflexivity|]. split; [discriminate|].
  split; [vm_compute; tauto|]. split; [vm_compute; tauto|]. vm_compute. intuition discriminate.
Qed.
Example C123_unsupported_nonvacuous : exists out c lines,
  convert_nodes (converter_setup PropertiesProgram.ex_libraries) (fun _ => false) [("a.py", ex_uses "frobnicate"); ("b.py", ex_uses "abs")] (new_converter [] nothing) = Ok (out, c) /\
  report (fun x => x) (MkReport true true true false) c = Ok lines /\ c_unsupported c <> [] /\ In " Convert Rate is: 50.00%" (shown Warning lines).
Proof. do 3 eexists. split; [vm_compute; reflexivity|]. split; [vm_compute; reflexivity|]. split; [discriminate|vm_compute; tauto]. Qed.

(** C31-C35, C48: the numbers and lists reported for a project. *)
From Coq Require Import ZArith QArith Lia.
From Verif Require Import PyStr PyStrFacts PyDict PyDictFacts TablesData Lookup Ast Walk WalkFacts ImportPass BasicPass BasicSpec BasicFacts
  CustomPass Converter ConverterFacts.
Open Scope string_scope.

(** ** A small project for the examples: one Python file using torch.abs three times, and
    a matcher that converts every call except the third, which it takes back. *)
Definition ex_matchers (third : answer) (file : string) (i : ist) : benv nat :=
  MkBenv nat i (fun _ _ => false) (fun _ => false) (fun s => Ok (Name s))
    (fun m _ w => Ok (Some "paddle.abs", [], w))
    (fun m n _ w => Ok (ANothing, [], w))
    (fun m a k _ w => Ok (if Nat.eqb w 2 then third else ANodes [Call (Name "paddle.abs") a k], (a, k), [], S w))
    (fun m f a k _ w => Ok (ANothing, (a, k), [], w)).
Definition ex_setup (third : answer) : setup nat :=
  MkSetup nat false false true (fun l => l) 100 (ex_matchers third) (fun _ => [])
    (fun _ => Raise "SyntaxError") (fun _ => Ok "") (fun s => Some s) (fun s => Some s).
Definition ex_call (x : string) : node :=
  Other "Expr" [One "value" (Call (Attribute (Name "torch") "abs") [Name x] [])].
Definition ex_module (l : list node) : node := Other "Module" [Many "body" l].
Definition ex_files : list (string * node) :=
  [("/p/a.py", ex_module [Import [MkAlias "torch" None]; ex_call "x"; ex_call "y"; ex_call "z"])].
Definition ex_result (third : answer) :=
  match convert_nodes (ex_setup third) (fun _ => false) ex_files (new_converter [] 0%nat) with
  | Ok (_, c) => Some (c_torch c, c_success c, c_unsupported c, c_all c)
  | Raise _ => None
  end.
Lemma ex_result_run third t k un al : ex_result third = Some (t, k, un, al) ->
  exists out c, convert_nodes (ex_setup third) (fun _ => false) ex_files (new_converter [] 0%nat) = Ok (out, c) /\
  c_torch c = t /\ c_all c = al.
Proof.
  unfold ex_result. destruct (convert_nodes _ _ _ _) as [[out c]|]; [|discriminate]. intros [= <- <- <- <-]. eauto.
Qed.
Lemma ex_misidentified : ex_result AMisidentify = Some (2%Z, 2%Z, [], []).
Proof. vm_compute. reflexivity. Qed.

(** ** C31 *)
Theorem C31_recognised_is_converted_plus_unsupported :
  forall M (u : setup M) exists_path files autograd m out c,
  convert_nodes u exists_path files (new_converter autograd m) = Ok (out, c) ->
  c_torch c = (c_success c + Z.of_nat (list_sum (map snd (c_unsupported c))))%Z.
Proof.
  intros M u ex files au m out c H. apply convert_nodes_history in H as [h H].
  pose proof (enter_all_balance h (ledger (new_converter au m))) as B. rewrite <- H in B. unfold total in B.
  cbn [ledger recognised converted not_converted new_converter c_torch c_success c_unsupported map list_sum] in B.
  change (list_sum []) with 0%nat in B. lia.
Qed.
Print Assumptions C31_recognised_is_converted_plus_unsupported.
Example C31_nonvacuous :
  ex_result ANothing = Some (3%Z, 2%Z, [("torch.abs", 1%nat)], [("torch.abs", ("paddle.abs", 3%nat))]).
Proof. vm_compute. reflexivity. Qed.

(** ** C32 *)
Theorem C32_returned_pair :
  forall M (u : setup M) exists_path files autograd m out c,
  convert_nodes u exists_path files (new_converter autograd m) = Ok (out, c) ->
  (0 <= fst (returned c) /\ 0 <= snd (returned c) /\ fst (returned c) + snd (returned c) = c_torch c)%Z.
Proof.
  intros M u ex files au m out c H. pose proof (C31_recognised_is_converted_plus_unsupported _ _ _ _ _ _ _ _ H) as B.
  apply convert_nodes_history in H as [h H].
  pose proof (enter_all_converted h (ledger (new_converter au m))) as C. rewrite <- H in C. cbn in C.
  unfold returned. cbn [fst snd]. lia.
Qed.
Print Assumptions C32_returned_pair.
Theorem C32_rate :
  forall M (u : setup M) exists_path files autograd m out c,
  convert_nodes u exists_path files (new_converter autograd m) = Ok (out, c) ->
  (0 <= convert_rate c /\ convert_rate c <= 1)%Q /\
  (c_torch c = 0%Z -> convert_rate c = 0%Q) /\
  ((0 < c_torch c)%Z -> (convert_rate c * inject_Z (c_torch c) == inject_Z (fst (returned c)))%Q) /\
  ((convert_rate c == 1)%Q -> snd (returned c) = 0%Z /\ (0 < c_torch c)%Z) /\
  (snd (returned c) = 0%Z -> (0 < c_torch c)%Z -> (convert_rate c == 1)%Q).
Proof.
  intros M u ex files au m out c H. apply C32_returned_pair in H as [P1 [P2 P3]]. unfold returned in *. cbn [fst snd] in *.
  unfold convert_rate. destruct (Z.ltb_spec 0 (c_torch c)) as [T|T].
  - assert (D : Zpos (Z.to_pos (c_torch c)) = c_torch c) by (apply Z2Pos.id; lia).
    unfold Qle, Qeq, Qmult, inject_Z. cbn [Qnum Qden]. rewrite ?Pos.mul_1_r, ?D. repeat split; intros; lia.
  - unfold Qle, Qeq. cbn [Qnum Qden]. repeat split; intros; try lia.
Qed.
Print Assumptions C32_rate.
Example C32_nonvacuous :
  match convert_nodes (ex_setup ANothing) (fun _ => false) ex_files (new_converter [] 0%nat) with
  | Ok (_, c) => returned c = (2, 1)%Z /\ convert_rate c = (2 # 3)%Q
  | Raise _ => False
  end.
Proof. vm_compute. split; reflexivity. Qed.

(** ** C33 *)
Theorem C33_usage_list_refuted :
  exists M (u : setup M) exists_path files m out c,
  convert_nodes u exists_path files (new_converter [] m) = Ok (out, c) /\
  c_torch c <> Z.of_nat (list_sum (map (fun kv => snd (snd kv)) (c_all c))).
Proof.
  destruct (ex_result_run AMisidentify _ _ _ _ ex_misidentified) as [out [c [E [T A]]]].
  exists nat, (ex_setup AMisidentify), (fun _ => false), ex_files, 0%nat, out, c. split; [exact E|]. rewrite T, A. discriminate.
Qed.
Print Assumptions C33_usage_list_refuted.
Lemma usage_total (d : dict string (string * nat)) :
  total (usage_counts d) = list_sum (map (fun kv => snd (snd kv)) d).
Proof. unfold total, usage_counts. rewrite map_map. reflexivity. Qed.
(** It never shows more than was recognised. *)
Theorem C33_usage_at_most_recognised :
  forall M (u : setup M) exists_path files autograd m out c,
  convert_nodes u exists_path files (new_converter autograd m) = Ok (out, c) ->
  (Z.of_nat (list_sum (map (fun kv => snd (snd kv)) (c_all c))) <= c_torch c)%Z.
Proof.
  intros M u ex files au m out c H. apply convert_nodes_history in H as [h H].
  pose proof (enter_all_usage h (ledger (new_converter au m))) as C. rewrite <- H in C. cbn [ledger recognised usage] in C.
  rewrite !usage_total in C. change (c_all (new_converter au m)) with (@nil (string * (string * nat))) in C.
  cbn [new_converter c_torch map list_sum fold_right] in C. lia.
Qed.
Print Assumptions C33_usage_at_most_recognised.
(** It is exact for the conversion of API uses if no matcher takes a use back. *)
Theorem C33_exact_without_misidentification :
  forall M (e : benv M) limit root s root' s',
  never_misidentifies e ->
  basic_transform e limit root s = Ok (root', s') ->
  (torch_count s' - torch_count s
   = Z.of_nat (list_sum (map (fun kv => snd (snd kv)) (all_apis s'))) - Z.of_nat (list_sum (map (fun kv => snd (snd kv)) (all_apis s))))%Z.
Proof.
  intros M e limit root s root' s' N H. apply transform_history in H as [l [H [_ S]]].
  pose proof (enter_all_stays l (S N) (books_of s)) as B. rewrite <- H in B. cbn [books_of recognised usage] in B.
  rewrite !usage_total in B. lia.
Qed.
Print Assumptions C33_exact_without_misidentification.
Example C33_nonvacuous :
  never_misidentifies (ex_matchers ANothing "/p/a.py" ist0) /\
  exists r c, convert_nodes (ex_setup ANothing) (fun _ => false) ex_files (new_converter [] 0%nat) = Ok (r, c) /\ c_torch c = 3%Z.
Proof.
  split.
  - repeat split; intros; cbn; try discriminate. destruct (Nat.eqb w 2); discriminate.
  - destruct (ex_result_run ANothing _ _ _ _ C31_nonvacuous) as [out [c [E [T _]]]]. eauto.
Qed.

(** ** C34 *)
(** The one shipped API of another package that is converted by a mere change of prefix. *)
Definition culprit : string := "transformers.PreTrainedTokenizer".
Theorem C34_unaligned_report_refuted :
  exists all : dict string (string * nat), NoDup (dkeys all) /\
  (forall k, In k (dkeys all) -> in_api_mapping k = true) /\
  unaligned change_prefix_apis all = Raise "KeyError".
Proof.
  exists [(culprit, ("paddleformers.PreTrainedTokenizer", 1%nat))]. split; [repeat constructor; intros []|]. split.
  - intros k [<-|[]]. vm_compute. reflexivity.
  - vm_compute. reflexivity.
Qed.
Print Assumptions C34_unaligned_report_refuted.

Definition wanted {V} (change_prefix : list string) (kv : string * V) : bool :=
  startswith (fst kv) "torch." && negb (mem_str (fst kv) change_prefix).
Lemma unaligned_loop {V} cp (todo : dict string V) : forall done,
  NoDup (dkeys (done ++ todo)%list) ->
  (forall k, In k (dkeys todo) -> mem_str k cp = true -> startswith k "torch." = true) ->
  fold_left (fun d kv =>
    let* d := d in
    let* d := if startswith (fst kv) "torch." then Ok d else pop (fst kv) d in
    if mem_str (fst kv) cp then pop (fst kv) d else Ok d) todo (Ok (filter (wanted cp) done ++ todo)%list)
  = Ok (filter (wanted cp) (done ++ todo)%list).
Proof.
  induction todo as [|[k v] todo IH]; intros done N T; cbn [fold_left].
  - rewrite !app_nil_r. reflexivity.
  - cbn [fst]. assert (P : pop k (filter (wanted cp) done ++ (k, v) :: todo)%list = Ok (filter (wanted cp) done ++ todo)%list).
    { assert (ND : ~ In k (dkeys done)).
      { unfold dkeys in *. rewrite map_app in N. cbn in N. apply NoDup_remove_2 in N. rewrite in_app_iff in N. tauto. }
      unfold pop, dmem. clear - ND. induction done as [|[k' v'] done IH].
      - cbn. rewrite String.eqb_refl. reflexivity.
      - cbn [filter]. assert (Q : String.eqb k k' = false).
        { apply String.eqb_neq. intros ->. apply ND. left. reflexivity. }
        assert (R := IH (fun i => ND (or_intror i))). destruct (wanted cp (k', v')); [|exact R].
        cbn [app dget ddel]. rewrite Q. destruct (dget String.eqb k _); [|discriminate]. injection R as ->. reflexivity. }
    specialize (IH (done ++ [(k, v)])%list). rewrite <- app_assoc in IH. cbn [app] in IH.
    rewrite filter_app in IH. cbn [filter] in IH. unfold wanted at 2 in IH. cbn [fst] in IH.
    assert (T' : forall k, In k (dkeys todo) -> mem_str k cp = true -> startswith k "torch." = true)
      by (intros k0 I; apply T; right; exact I).
    destruct (mem_str k cp) eqn:C.
    + rewrite (T k (or_introl eq_refl) C) in *. cbn [bind]. rewrite P. cbn [negb andb] in IH. rewrite app_nil_r in IH. exact (IH N T').
    + destruct (startswith k "torch.") eqn:S; cbn [bind negb andb] in *.
      * rewrite <- app_assoc in IH. exact (IH N T').
      * rewrite P. cbn [bind]. rewrite app_nil_r in IH. exact (IH N T').
Qed.
Lemma mem_forallb (f : string -> bool) l k : forallb f l = true -> mem_str k l = true -> f k = true.
Proof.
  intros F H. unfold mem_str in H. apply existsb_exists in H as [x [I E]]. apply String.eqb_eq in E. subst x.
  rewrite forallb_forall in F. exact (F k I).
Qed.
Lemma prefix_apis_checked : forallb (fun k => startswith k "torch." || String.eqb k culprit) change_prefix_apis = true.
Proof. vm_compute. reflexivity. Qed.
Lemma only_culprit k : mem_str k change_prefix_apis = true -> startswith k "torch." = true \/ k = culprit.
Proof.
  intros H. pose proof (mem_forallb _ _ _ prefix_apis_checked H) as F. cbv beta in F.
  apply Bool.orb_prop in F as [F|F]; [left; exact F|right; apply String.eqb_eq, F].
Qed.
Theorem C34_report_without_the_culprit :
  forall all : dict string (string * nat), NoDup (dkeys all) -> ~ In culprit (dkeys all) ->
  unaligned change_prefix_apis all = Ok (filter (fun kv => startswith (fst kv) "torch." && negb (mem_str (fst kv) change_prefix_apis)) all).
Proof.
  intros all N C. apply (unaligned_loop change_prefix_apis all [] N).
  intros k I P. destruct (only_culprit k P) as [S| ->]; [exact S|contradiction].
Qed.
Print Assumptions C34_report_without_the_culprit.
Example C34_nonvacuous :
  unaligned change_prefix_apis [("torch.abs", ("", 1%nat)); ("torch.max", ("", 2%nat)); ("torchvision.ops.nms", ("", 1%nat))]
  = Ok [("torch.max", ("", 2%nat))] /\ in_api_mapping "torch.abs" = true.
Proof. vm_compute. split; reflexivity. Qed.

(** ** C35 *)
Lemma summarise_counts l : forall s,
  at_100 (fold_left count_project l s) = (at_100 s + List.length (filter (fun p => Qeq_bool (snd p) 1) l))%nat /\
  at_95 (fold_left count_project l s) = (at_95 s + List.length (filter (fun p => Qle_bool (95 # 100) (snd p)) l))%nat /\
  at_90 (fold_left count_project l s) = (at_90 s + List.length (filter (fun p => Qle_bool (90 # 100) (snd p)) l))%nat.
Proof.
  induction l as [|p l IH]; intros s; cbn [fold_left filter]; [cbn; lia|].
  specialize (IH (count_project s p)) as [-> [-> ->]]. unfold count_project. cbn [at_100 at_95 at_90].
  destruct (Qeq_bool _ _), (Qle_bool (95 # 100) _), (Qle_bool (90 # 100) _); cbn [List.length]; lia.
Qed.
Lemma filter_le {A} (f g : A -> bool) l : (forall x, f x = true -> g x = true) ->
  (List.length (filter f l) <= List.length (filter g l))%nat.
Proof.
  intros H. induction l as [|x l IH]; cbn; [lia|]. specialize (H x).
  destruct (f x); [rewrite H by reflexivity; cbn; lia|]. destruct (g x); cbn; lia.
Qed.
Theorem C35_summary_monotone :
  forall projects : list (string * Q),
  let s := summarise projects in
  (at_100 s <= at_95 s <= at_90 s)%nat /\ (at_90 s <= List.length projects)%nat /\
  at_100 s = List.length (filter (fun p => Qeq_bool (snd p) 1) projects) /\
  at_95 s = List.length (filter (fun p => Qle_bool (95 # 100) (snd p)) projects) /\
  at_90 s = List.length (filter (fun p => Qle_bool (90 # 100) (snd p)) projects).
Proof.
  intros l s. pose proof (summarise_counts l (MkSummary 0 0 0 [])) as H. fold (summarise l) in H. fold s in H.
  cbn [at_100 at_95 at_90 plus] in H. destruct H as [-> [-> ->]]. repeat split.
  - apply filter_le. intros p E. apply Qeq_bool_eq in E. apply Qle_bool_iff. rewrite E. discriminate.
  - apply filter_le. intros p E. apply Qle_bool_iff in E. apply Qle_bool_iff. eapply Qle_trans; [|exact E]. discriminate.
  - clear. induction l as [|p l IH]; cbn; [lia|]. destruct (Qle_bool _ _); cbn; lia.
Qed.
Print Assumptions C35_summary_monotone.
Example C35_nonvacuous :
  let s := summarise [("a", 1); ("b", 19 # 20); ("c", 9 # 10); ("d", 1 # 2)]%Q in
  (at_100 s, at_95 s, at_90 s) = (1, 2, 3)%nat.
Proof. reflexivity. Qed.
(** A project in which nothing needs conversion is counted with the worst. *)
Theorem C35_nothing_to_convert_refuted :
  forall M (m : M), let c := new_converter [] m in
  snd (returned c) = 0%Z /\ at_90 (summarise [("p", convert_rate c)]) = 0%nat.
Proof. intros M m. split; reflexivity. Qed.
Print Assumptions C35_nothing_to_convert_refuted.

(** ** C48 *)
(** The converted import for a class [cls] that used an extension loaded as [v]. *)
Definition loads (cls v : string) : cst := MkCst [] [("object", (cls, "load_" ++ v))] [] [] [].
Definition start (c : cst) : bst_c := MkBst 0 0 [] [] [] [] c.
Definition strips (v : string) : bool :=
  match v with EmptyString => false | String c _ => existsb (Ascii.eqb c) (list_ascii_of_string "load_") end.
Lemma strip_load_prefix v : strip_load ("load_" ++ v) = strip_load v.
Proof. reflexivity. Qed.
Lemma startswith_load v : startswith ("load_" ++ v) "load_" = true.
Proof. destruct v; reflexivity. Qed.
Lemma strip_load_len v : (String.length (strip_load v) <= String.length v)%nat.
Proof. unfold strip_load. induction v as [|c v IH]; cbn [lstrip_by String.length]; [lia|]. destruct (existsb _ _); cbn [String.length]; lia. Qed.
Lemma strip_load_id v : strip_load v = v <-> strips v = false.
Proof.
  destruct v as [|c v]; [split; reflexivity|]. unfold strip_load, strips. cbn [lstrip_by].
  destruct (existsb _ _) eqn:E; [|split; reflexivity]. split; [|discriminate]. intros H. exfalso.
  pose proof (strip_load_len v) as L. unfold strip_load in L. rewrite H in L. cbn in L. lia.
Qed.
Theorem C48_extension_name_iff :
  forall cls v m level,
  exists v' s', custom_post (ImportFrom (Some m) [MkAlias cls None] level) [] (start (loads cls v))
    = Ok (Reply (VNode (ImportFrom (Some m) [MkAlias v' None] level)), s') /\
  (v' = v <-> strips v = false).
Proof.
  intros cls v m level. unfold custom_post, start, loads. cbn [shared custom_from match_alias autograd fold_left al_asname al_name snd func_imports].
  unfold match_alias. cbn [fold_left snd]. rewrite String.eqb_refl, startswith_load. exists (strip_load v). eexists. split; [reflexivity|]. apply strip_load_id.
Qed.
Print Assumptions C48_extension_name_iff.
Theorem C48_extension_name_refuted :
  exists cls v m s', custom_post (ImportFrom (Some m) [MkAlias cls None] 0) [] (start (loads cls v))
    = Ok (Reply (VNode (ImportFrom (Some m) [MkAlias "ps" None] 0)), s') /\ v = "ops".
Proof. exists "Fn", "ops", "m". eexists. split; reflexivity. Qed.
Print Assumptions C48_extension_name_refuted.
Example C48_nonvacuous : strips "my_ext" = false /\ strips "ops" = true.
Proof. split; reflexivity. Qed.

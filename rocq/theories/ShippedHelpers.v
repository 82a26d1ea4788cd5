(** Which generated code asks for helper code. *)
From Verif Require Import PyStr PyDict PyDictFacts PyStrFacts UtilsFile Args ArgsSpec TablesData Lookup Ast ImportPass BasicPass
  Generate GenerateData GenerateSym GenerateRel GenerateSound GenerateRows GenerateSpec GenerateCheck GenerateCalls GenerateFacts Shipped ShippedSpec.
Opaque api_mapping generators.

(** What a path that asks for the helper (or does not) says about the call. *)
Definition no_axis (h : assume) : bool := known_is h "dim" false || fact_is h "dim" (Is "None") true.
Definition some_axis (h : assume) : bool := known_is h "dim" true && fact_is h "dim" (Is "None") false.
Definition number_fact (h : assume) (b : bool) : bool :=
  match find_fact [AEdit (Strip "()") [AArg "device"]] Digits (facts h) with Some c => Bool.eqb b c | None => false end.
Definition plain_device (h : assume) : bool := known_is h "device" false || (number_fact h false && fact_is h "device" (Has "cuda") false).
Definition known_device (h : assume) : bool := known_is h "device" true && (number_fact h true || fact_is h "device" (Has "cuda") true).
Definition asks_right (r : row) (h : assume) (u : bool) : bool :=
  match r_matcher r with
  | None => true
  | Some c =>
      if mem_str c with_helper then
        if mem_str (r_name r) ["torch.nn.LogSoftmax"; "torch.nn.functional.softmin"] then
          negb (mem_str "dim" (unsupport_args (r_entry r))) && if u then no_axis h else some_axis h
        else if String.eqb (r_name r) "torch.cpu.set_device" then
          negb (mem_str "device" (unsupport_args (r_entry r))) && if u then plain_device h else known_device h
        else u
      else negb u
  end.
Lemma rows_ask : all_rows (fun r g => forallb (converted (fun h _ u => asks_right r h u)) (row_paths r g)) = true.
Proof. vm_compute. reflexivity. Qed.
Lemma number_fact_ok kw recv fr h b v : sat kw recv fr h -> number_fact h b = true -> dget String.eqb "device" kw = Some v ->
  isdigit (strip_by (fun c => mem_char c "()") v) = b.
Proof.
  intros S. unfold number_fact. destruct (find_fact _ _ _) as [c|] eqn:G; [|discriminate].
  intros E V. apply Bool.eqb_prop in E. subst c. apply find_fact_in in G.
  pose proof (sat_facts _ _ _ _ S _ _ _ G [MkPiece (origins [MkPiece [Argument "device"] v]) (edit_text (Strip "()") (render [MkPiece [Argument "device"] v]))]) as H.
  cbn [render content] in H. rewrite !app_nil_r_s in H. apply H. apply mts_one, mp_edit.
  exists [MkPiece [Argument "device"] v]. split; [apply mts_one; exists v; tauto|]. cbn [render content]. rewrite app_nil_r_s. reflexivity.
Qed.
Lemma contains_inside x s : contains x s = true <-> inside x s.
Proof. exact (contains_spec x s). Qed.
Theorem helper_asked r g recv args kwargs i q u c :
  In r api_mapping -> generator r = Some g -> regular r recv args kwargs -> r_matcher r = Some c ->
  paddle_nodes r g recv args kwargs i = Ret (Converted q u) ->
  (u = true <-> In c with_helper /\ helper_needed r args kwargs).
Proof.
  intros I G (Q1 & Q2 & Q3 & Q4) M E. destruct (row_sound r g recv args kwargs i I G Q1 Q2 Q3) as [X|[X|H]]; [congruence|congruence|].
  destruct H as (kw & fr & h & res & SUP & PRES & ALL & P & S & R & _). rewrite E in R.
  destruct res as [[a u'| | |] s|e'|e']; cbn [result_ok] in R; try contradiction.
  2:{ exfalso. pose proof (all_rows_in _ _ _ rows_fail_right I G) as F. cbv beta in F. rewrite forallb_forall in F.
    specialize (F _ P). unfold fails_right in F. cbn [fst snd] in F.
    apply Bool.andb_true_iff in F. destruct F as [F F3]. apply Bool.andb_true_iff in F. destruct F as [F1 F2].
    apply (known_ok _ _ _ _ S) in F1. apply (known_ok _ _ _ _ S) in F2. apply PRES in F1. apply PRES in F2.
    destruct F1 as [v V]. destruct F2 as [w W]. apply mem_str_In in F3. exact (Q4 v w V W F3). }
  destruct R as [_ ->].
  pose proof (all_rows_in _ _ _ rows_ask I G) as F. cbv beta in F. rewrite forallb_forall in F. specialize (F _ P).
  unfold converted in F. cbn [fst snd] in F. unfold asks_right in F. rewrite M in F.
  rewrite <- mem_str_In. destruct (mem_str c with_helper); [|destruct u; [discriminate|]; split; [discriminate|intros [X _]; discriminate]].
  unfold helper_needed. destruct (mem_str (r_name r) _).
  - apply Bool.andb_true_iff in F. destruct F as [N F]. apply Bool.negb_true_iff in N.
    assert (NU : ~ In "dim" (unsupport_args (r_entry r))) by (rewrite <- mem_str_In; congruence).
    destruct u; (split; [intros U|]).
    + split; [reflexivity|]. intros v V. pose proof (SUP _ _ V NU) as K. apply Bool.orb_true_iff in F. destruct F as [F|F].
      * apply (known_ok _ _ _ _ S) in F. unfold dmem in F. rewrite K in F. discriminate.
      * pose proof (fact_ok _ _ _ _ S _ _ _ _ F K) as T. apply String.eqb_eq in T. exact T.
    + reflexivity.
    + discriminate.
    + intros [_ X]. exfalso. apply Bool.andb_true_iff in F. destruct F as [F1 F2]. apply (known_ok _ _ _ _ S) in F1. apply PRES in F1. destruct F1 as [v V].
      pose proof (fact_ok _ _ _ _ S _ _ _ _ F2 (SUP _ _ V NU)) as T. rewrite (X v V) in T. discriminate.
  - destruct (String.eqb (r_name r) "torch.cpu.set_device"); [|subst u; tauto].
    apply Bool.andb_true_iff in F. destruct F as [N F]. apply Bool.negb_true_iff in N.
    assert (NU : ~ In "device" (unsupport_args (r_entry r))) by (rewrite <- mem_str_In; congruence).
    destruct u; (split; [intros U|]).
    + split; [reflexivity|]. intros v V. pose proof (SUP _ _ V NU) as K. apply Bool.orb_true_iff in F. destruct F as [F|F].
      * apply (known_ok _ _ _ _ S) in F. unfold dmem in F. rewrite K in F. discriminate.
      * apply Bool.andb_true_iff in F. destruct F as [F1 F2]. split; [exact (number_fact_ok _ _ _ _ _ _ S F1 K)|].
        pose proof (fact_ok _ _ _ _ S _ _ _ _ F2 K) as T. cbn [run_test] in T. rewrite <- contains_inside. congruence.
    + reflexivity.
    + discriminate.
    + intros [_ X]. exfalso. apply Bool.andb_true_iff in F. destruct F as [F1 F2]. apply (known_ok _ _ _ _ S) in F1. apply PRES in F1. destruct F1 as [v V].
      pose proof (SUP _ _ V NU) as K. destruct (X v V) as [X1 X2]. apply Bool.orb_true_iff in F2. destruct F2 as [F2|F2].
      * pose proof (number_fact_ok _ _ _ _ _ _ S F2 K). congruence.
      * pose proof (fact_ok _ _ _ _ S _ _ _ _ F2 K) as T. cbn [run_test] in T. apply contains_inside in T. contradiction.
Qed.

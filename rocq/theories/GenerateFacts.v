(** Facts about the code generated for all calls of the modelled rows. *)
From Coq Require Import Lia.
From Verif Require Import PyStr PyDict PyDictFacts PyStrFacts UtilsFile Args ArgsSpec ArgsFacts TablesData
  Generate GenerateData GenerateSym GenerateRel GenerateSound GenerateRows GenerateSpec GenerateCheck GenerateCalls Names.
Opaque api_mapping generators.

Definition known_is (h : assume) (k : string) (b : bool) : bool :=
  match dget String.eqb k (known h) with Some c => Bool.eqb b c | None => false end.
Definition fact_is (h : assume) (k : string) (t : test) (b : bool) : bool :=
  match find_fact [AArg k] t (facts h) with Some c => Bool.eqb b c | None => false end.
Definition listedb (l : list (string * list string)) (r : row) (k : string) : bool :=
  existsb (fun x => String.eqb (fst x) (r_name r) && mem_str k (snd x)) l.
Definition declaredb (e : entry) (k : string) : bool :=
  match dget String.eqb k (kwargs_change e) with
  | Some TNone => true
  | Some (TName n) => String.eqb n ""
  | _ => false
  end.
Lemma listedb_iff l r k : listedb l r k = true <-> listed l r k.
Proof.
  unfold listedb, listed. rewrite existsb_exists. split.
  - intros ([n ks] & I & E). apply Bool.andb_true_iff in E. destruct E as [E1 E2]. cbn in *.
    apply String.eqb_eq in E1. apply mem_str_In in E2. subst n. exists ks. tauto.
  - intros (ks & I & J). exists (r_name r, ks). split; [exact I|]. cbn [fst snd].
    rewrite String.eqb_refl. apply mem_str_In in J. rewrite J. reflexivity.
Qed.
Lemma declaredb_ok e k : declaredb e k = true -> declared_unused e k.
Proof.
  unfold declaredb, declared_unused. destruct (dget String.eqb k (kwargs_change e)) as [[|n|]|]; try discriminate.
  - right. reflexivity.
  - intros E. apply String.eqb_eq in E. subst n. left. reflexivity.
Qed.

Section Path.
  Variables (kw : dict string string) (recv : option string) (fr : string -> string -> Prop) (h : assume).
  Hypothesis S : sat kw recv fr h.
  Lemma known_ok k b : known_is h k b = true -> dmem String.eqb k kw = b.
  Proof.
    unfold known_is. destruct (dget String.eqb k (known h)) as [c|] eqn:G; [|discriminate].
    intros E. apply Bool.eqb_prop in E. subst c. apply (dget_some_in _ String.eqb_spec) in G.
    exact (sat_known _ _ _ _ S _ _ G).
  Qed.
  Lemma fact_ok k t b v : fact_is h k t b = true -> dget String.eqb k kw = Some v -> run_test t v = b.
  Proof.
    unfold fact_is. destruct (find_fact [AArg k] t (facts h)) as [c|] eqn:G; [|discriminate].
    intros E V. apply Bool.eqb_prop in E. subst c. apply find_fact_in in G.
    pose proof (sat_facts _ _ _ _ S _ _ _ G [MkPiece [Argument k] v]) as H.
    cbn [render content] in H. rewrite app_nil_r_s in H. apply H.
    apply mts_one. exists v. tauto.
  Qed.
End Path.

(** ** Failures *)
Definition type_row := "torch.Tensor.type".
Definition onecycle_row := "torch.optim.lr_scheduler.OneCycleLR".
Definition fragile_names := ["dtype"; "div_factor"; "total_steps"; "steps_per_epoch"; "epochs"].
Definition fragile_path (r : row) (h : assume) : bool :=
  if existsb (fun k => mem_str k (unsupport_args (r_entry r))) fragile_names then false
  else
      (String.eqb (r_name r) type_row && known_is h "dtype" false && existsb (fun kb => known_is h (fst kb) true) (known h)) ||
      (String.eqb (r_name r) onecycle_row && known_is h "final_div_factor" true && known_is h "div_factor" false) ||
      (String.eqb (r_name r) onecycle_row &&
       (known_is h "total_steps" false || fact_is h "total_steps" (Has "None") true) &&
       (known_is h "steps_per_epoch" false || known_is h "epochs" false)).
Definition fails_right (r : row) (hr : assume * ares agenerated) : bool :=
  match snd hr with
  | ADone _ _ => true
  | AFail e => String.eqb e "KeyError" && fragile_path r (fst hr)
  | AStuck _ => known_is (fst hr) "indices" true && known_is (fst hr) "sections" true &&
                mem_str "sections" (overload_args_list (r_entry r))
  end.
Lemma rows_fail_right : all_rows (fun r g => forallb (fails_right r) (row_paths r g)) = true.
Proof. vm_compute. reflexivity. Qed.

Section Fragile.
  Variables (r : row) (args : list expr) (kwargs : list kwnode) (kw : dict string string) (recv : option string) (fr : string -> string -> Prop) (h : assume).
  Hypothesis S : sat kw recv fr h.
  Hypothesis SUP : forall k v, supplies (r_entry r) args kwargs k v -> ~ In k (unsupport_args (r_entry r)) ->
                               dget String.eqb k kw = Some v.
  Hypothesis PRES : forall k, dmem String.eqb k kw = true -> exists v, supplies (r_entry r) args kwargs k v.
  Lemma fragile_path_ok : fragile_path r h = true -> fragile r args kwargs.
  Proof.
    unfold fragile_path. destruct (existsb _ fragile_names) eqn:U; [discriminate|]. intros H.
    assert (SUP' : forall k v, In k fragile_names -> supplies (r_entry r) args kwargs k v -> dget String.eqb k kw = Some v).
    { intros k v K V. apply SUP; [exact V|]. intros J. apply mem_str_In in J.
      assert (existsb (fun k => mem_str k (unsupport_args (r_entry r))) fragile_names = true); [|congruence].
      apply existsb_exists. exists k. tauto. }
    assert (YES : forall k, known_is h k true = true -> gives r args kwargs k).
    { intros k K. apply PRES. exact (known_ok _ _ _ _ S _ _ K). }
    assert (NO : forall k, known_is h k false = true -> In k fragile_names -> ~ gives r args kwargs k).
    { intros k K F [v V]. apply SUP' in V; [|exact F].
      pose proof (known_ok _ _ _ _ S _ _ K) as M. unfold dmem in M. rewrite V in M. discriminate. }
    apply Bool.orb_true_iff in H. destruct H as [H|H]; [apply Bool.orb_true_iff in H; destruct H as [H|H]|];
      apply Bool.andb_true_iff in H; destruct H as [H1 H2]; apply Bool.andb_true_iff in H1; destruct H1 as [N H1];
      apply String.eqb_eq in N; unfold fragile.
    - left. split; [exact N|]. split; [apply NO; [exact H1|cbn; tauto]|]. apply existsb_exists in H2. destruct H2 as ([k b] & _ & K).
      exists k. apply YES, K.
    - right. left. split; [exact N|]. split; [apply YES, H1|apply NO; [exact H2|cbn; tauto]].
    - right. right. split; [exact N|]. split.
      + intros v V. apply Bool.orb_true_iff in H1. destruct H1 as [H1|H1].
        * destruct (NO _ H1 ltac:(cbn; tauto)). exists v. exact V.
        * apply SUP' in V; [|cbn; tauto]. exact (fact_ok _ _ _ _ S _ _ _ _ H1 V).
      + intros [A B]. apply Bool.orb_true_iff in H2. destruct H2 as [H2|H2]; exact (NO _ H2 ltac:(cbn; tauto) ltac:(assumption)).
  Qed.
End Fragile.

(** The result of a call is that of a path. *)
Lemma row_result r g recv args kwargs i :
  In r api_mapping -> generator r = Some g ->
  called_properly r recv -> documented (r_entry r) kwargs -> complete r args kwargs -> unambiguous r args kwargs ->
  match paddle_nodes r g recv args kwargs i with
  | Fail e => e = "KeyError" /\ fragile r args kwargs
  | Ret (Converted q u) =>
      exists kw fr h a s,
        (forall k v, supplies (r_entry r) args kwargs k v -> ~ In k (unsupport_args (r_entry r)) ->
                     dget String.eqb k kw = Some v) /\
        (forall k v, dget String.eqb k kw = Some v -> In (Some k, v) (bindings (position_args (r_entry r)) args kwargs)) /\
        In (h, ADone (AConverted a u) s) (row_paths r g) /\ sat kw recv fr h /\ mts kw recv fr a q /\
        (forall k n, fr k n -> drawn i (paddle_counters r g recv args kwargs i) k n)
  | _ => True
  end.
Proof.
  intros I G C D U A. destruct (row_sound r g recv args kwargs i I G C D U) as [-> | [-> | H]]; try exact Logic.I.
  destruct H as (kw & fr & h & res & SUP & PRES & ALL & P & S & R & _ & DR).
  pose proof (all_rows_in _ _ _ rows_fail_right I G) as F. cbv beta in F. rewrite forallb_forall in F.
  specialize (F _ P). unfold fails_right in F. cbn [fst snd] in F.
  destruct (paddle_nodes r g recv args kwargs i) as [[q u| | |]|e]; try exact Logic.I;
    destruct res as [[a u'| | |] s|e'|e']; cbn [result_ok] in R; try contradiction.
  - destruct R as [M ->]. exists kw, fr, h, a, s. pose proof (DR _ eq_refl). tauto.
  - exfalso. apply Bool.andb_true_iff in F. destruct F as [F F3]. apply Bool.andb_true_iff in F. destruct F as [F1 F2].
    apply (known_ok _ _ _ _ S) in F1. apply (known_ok _ _ _ _ S) in F2. apply PRES in F1. apply PRES in F2.
    destruct F1 as [v V]. destruct F2 as [w W]. apply mem_str_In in F3. exact (A v w V W F3).
  - subst e'. apply Bool.andb_true_iff in F. destruct F as [F1 F2]. apply String.eqb_eq in F1. split; [exact F1|].
    exact (fragile_path_ok r args kwargs kw recv fr h S SUP PRES F2).
  - exfalso. apply Bool.andb_true_iff in F. destruct F as [F F3]. apply Bool.andb_true_iff in F. destruct F as [F1 F2].
    apply (known_ok _ _ _ _ S) in F1. apply (known_ok _ _ _ _ S) in F2. apply PRES in F1. apply PRES in F2.
    destruct F1 as [v V]. destruct F2 as [w W]. apply mem_str_In in F3. exact (A v w V W F3).
Qed.

(** ** Arguments are kept *)
Definition keeps (r : row) (h : assume) (a : atext) (k : string) : bool :=
  surely h k a || known_is h k false || declaredb (r_entry r) k ||
  fact_is h k (Is "None") true || fact_is h k (Is "") true ||
  mem_str k (unsupport_args (r_entry r)) || listedb lost r k.
Definition converted (f : assume -> atext -> bool -> bool) (hr : assume * ares agenerated) : bool :=
  match snd hr with ADone (AConverted a u) _ => f (fst hr) a u | _ => true end.
Lemma rows_keep :
  all_rows (fun r g => forallb (converted (fun h a _ => forallb (keeps r h a) (parameters (r_entry r)))) (row_paths r g)) = true.
Proof. vm_compute. reflexivity. Qed.

Lemma position_parameters e k : In k (position_args e) -> In k (args_list e) -> In k (parameters e).
Proof.
  intros P A. unfold parameters. apply filter_In. split; [apply in_app_iff; left; exact A|].
  destruct (String.eqb_spec k "*") as [->|]; [|reflexivity]. exfalso.
  unfold position_args in P.
  assert (H : forall l cur, ~ In "*" cur -> forall x, In x (star_groups cur l) -> ~ In "*" x).
  { induction l as [|y l IH]; intros cur N x X; cbn [star_groups] in X.
    - destruct cur; [destruct X|]. destruct X as [<-|[]]. rewrite <- in_rev. exact N.
    - destruct (String.eqb_spec y "*") as [->|Y].
      + destruct cur; [exact (IH [] (fun z => z) x X)|].
        destruct X as [<-|X]; [rewrite <- in_rev; exact N|exact (IH [] (fun z => z) x X)].
      + refine (IH (y :: cur) _ x X). intros [E|E]; [exact (Y E)|exact (N E)]. }
  destruct (star_groups [] (args_list e)) as [|x l] eqn:Q; [destruct P|].
  refine (H (args_list e) [] (fun z => z) x _ P). rewrite Q. left. reflexivity.
Qed.
Lemma supplied_parameter r g args kwargs k v :
  In r api_mapping -> generator r = Some g -> documented (r_entry r) kwargs ->
  supplies (r_entry r) args kwargs k v -> In k (parameters (r_entry r)).
Proof.
  intros I G D V. pose proof (all_rows_in _ _ _ rows_ok I G) as OK. cbv beta in OK. unfold row_ok in OK.
  apply Bool.andb_true_iff in OK. destruct OK as [OK _]. rewrite forallb_forall in OK.
  assert (B : In (Some k) (map fst (bindings (position_args (r_entry r)) args kwargs)))
    by (apply last_binding_in; exists v; exact V).
  unfold bindings in B. rewrite map_app in B. apply in_app_iff in B. destruct B as [B|B].
  - apply in_map_iff in B. destruct B as ([x w] & E & B). cbn in E. subst x. apply in_combine_l in B.
    apply in_map_iff in B. destruct B as (x & E & B). injection E as ->.
    apply position_parameters; [exact B|]. apply mem_str_In, OK, B.
  - rewrite map_map in B. apply in_map_iff in B. destruct B as (n & E & B). cbn in E.
    destruct (D n B) as (x & E' & J). congruence.
Qed.

Lemma argument_kept r g recv args kwargs i q u k v :
  In r api_mapping -> generator r = Some g ->
  called_properly r recv -> documented (r_entry r) kwargs -> complete r args kwargs -> unambiguous r args kwargs ->
  paddle_nodes r g recv args kwargs i = Ret (Converted q u) ->
  supplies (r_entry r) args kwargs k v -> v <> "None" -> v <> "" ->
  ~ In k (unsupport_args (r_entry r)) -> ~ declared_unused (r_entry r) k -> ~ listed lost r k ->
  inside v (render q).
Proof.
  intros I G C D U A E V N1 N2 X1 X2 X3.
  pose proof (row_result r g recv args kwargs i I G C D U A) as R. rewrite E in R.
  destruct R as (kw & fr & h & a & s & SUP & ALL & P & S & M & DR). pose proof (SUP k v V X1) as K.
  pose proof (all_rows_in _ _ _ rows_keep I G) as F. cbv beta in F. rewrite forallb_forall in F.
  specialize (F _ P). unfold converted in F. cbn [fst snd] in F. rewrite forallb_forall in F.
  specialize (F k (supplied_parameter r g args kwargs k v I G D V)). unfold keeps in F.
  rewrite !Bool.orb_true_iff in F. destruct F as [[[[[[F|F]|F]|F]|F]|F]|F].
  - exact (surely_ok h kw recv fr S k v a q K F M).
  - apply (known_ok _ _ _ _ S) in F. unfold dmem in F. rewrite K in F. discriminate.
  - destruct (X2 (declaredb_ok _ _ F)).
  - pose proof (fact_ok _ _ _ _ S _ _ _ _ F K) as T. cbn in T. apply String.eqb_eq in T. contradiction.
  - pose proof (fact_ok _ _ _ _ S _ _ _ _ F K) as T. cbn in T. apply String.eqb_eq in T. contradiction.
  - apply mem_str_In in F. contradiction.
  - apply listedb_iff in F. contradiction.
Qed.

(** ** Arguments are written at most once *)
Lemma rows_once :
  all_rows (fun r g => forallb (converted (fun h a _ =>
    forallb (fun k => Nat.leb (most h (Argument k) a) 1 || listedb repeated r k) (parameters (r_entry r)) &&
    (Nat.leb (most h Receiver a) 1 || mem_str (r_name r) receiver_repeated))) (row_paths r g)) = true.
Proof. vm_compute. reflexivity. Qed.

Lemma written_once r g recv args kwargs i q u :
  In r api_mapping -> generator r = Some g ->
  called_properly r recv -> documented (r_entry r) kwargs -> complete r args kwargs -> unambiguous r args kwargs ->
  paddle_nodes r g recv args kwargs i = Ret (Converted q u) ->
  (forall k, In k (parameters (r_entry r)) -> ~ listed repeated r k -> (copies (Argument k) q <= 1)%nat) /\
  (~ In (r_name r) receiver_repeated -> (copies Receiver q <= 1)%nat).
Proof.
  intros I G C D U A E.
  pose proof (row_result r g recv args kwargs i I G C D U A) as R. rewrite E in R.
  destruct R as (kw & fr & h & a & s & SUP & ALL & P & S & M & DR).
  pose proof (all_rows_in _ _ _ rows_once I G) as F. cbv beta in F. rewrite forallb_forall in F.
  specialize (F _ P). unfold converted in F. cbn [fst snd] in F.
  apply Bool.andb_true_iff in F. destruct F as [F1 F2]. rewrite forallb_forall in F1.
  split.
  - intros k K N. specialize (F1 k K). apply Bool.orb_true_iff in F1. destruct F1 as [F|F].
    + apply Nat.leb_le in F. etransitivity; [apply (most_ok h kw recv fr S _ _ _ M)|exact F].
    + apply listedb_iff in F. contradiction.
  - intros N. apply Bool.orb_true_iff in F2. destruct F2 as [F|F].
    + apply Nat.leb_le in F. etransitivity; [apply (most_ok h kw recv fr S _ _ _ M)|exact F].
    + apply mem_str_In in F. contradiction.
Qed.

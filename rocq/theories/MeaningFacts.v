(** The formulas of MeaningSpec.v hold of the code generated for these rows. *)
From Coq Require Import QArith.
From Verif Require Import PyStr PyDict PyDictFacts PyStrFacts UtilsFile RegistryFacts Args ArgsSpec TablesData
  Generate GenerateData GenerateSym GenerateRel GenerateRows GenerateSpec GenerateCheck GenerateCalls GenerateFacts
  Grammar GrammarCheck GenerateExact GrammarRows
  MeaningSpec MeaningCheck MeaningSound MeaningValue MeaningRows.
Close Scope Q_scope.
Open Scope string_scope.

Definition described : list string :=
  ["torch.addbmm"; "torch.Tensor.addbmm"; "torch.Tensor.addbmm_"; "torch.addcmul"; "torch.Tensor.addcmul"; "torch.Tensor.addcmul_";
   "torch.addcdiv"; "torch.Tensor.addmv"; "torch.Tensor.addr"; "torch.special.erfc"; "torch.Tensor.erfc"; "torch.Tensor.erfc_";
   "torch.special.erfcx"; "torch.special.exp2"; "torch.logaddexp2"; "torch.Tensor.logaddexp2"; "torch.Tensor.logdet";
   "torch.special.ndtr"; "torch.special.ndtri"; "torch.Tensor.where"; "torch.select"; "torch.Tensor.select";
   "torch.nn.functional.bilinear"; "torch.special.xlogy"; "torch.Tensor.xlogy"; "torch.Tensor.xlogy_"; "torch.special.xlog1py"].
(** Name, unsupported arguments, is there a parameter "out", readings. *)
Definition summary (r : row) : string * (list string * bool * option (list (assume * sexp))) :=
  (r_name r, (unsupport_args (r_entry r), mem_str "out" (parameters (r_entry r)), row_readings r)).
Definition readings := Eval vm_compute in map summary (filter (fun r => mem_str (r_name r) described) api_mapping).
Lemma readings_ok : map summary (filter (fun r => mem_str (r_name r) described) api_mapping) = readings.
Proof. vm_compute. reflexivity. Qed.
Lemma readings_distinct : distinct (dkeys readings) = true.
Proof. vm_compute. reflexivity. Qed.
Opaque api_mapping generators.

Lemma reading_found r : In r api_mapping -> In (r_name r) described -> dget String.eqb (r_name r) readings = Some (snd (summary r)).
Proof.
  intros I N. apply (dget_in_nodup _ String.eqb_spec); [apply distinct_NoDup, readings_distinct|].
  rewrite <- readings_ok. apply in_map_iff. exists r. split; [reflexivity|].
  apply filter_In. split; [exact I|]. apply mem_str_In, N.
Qed.

(** What has to hold of a path. *)
Definition follows {T} (a : string -> option T) (h : assume) : bool :=
  forallb (fun kb => Bool.eqb (given a (fst kb)) (snd kb)) (known h).
Definition good (W : algebra) (name : string) (out : bool) (F : (string -> option (V W)) -> V W -> V W) (he : assume * sexp) : Prop :=
  forall a x, follows a (fst he) = true ->
  svalue W a x (snd he) = F a x /\
  if ends_with_underscore name then settles W AtRecv (svalue W a x (snd he)) (sstores W a x (snd he))
  else if known_is (fst he) "out" true && fact_is (fst he) "out" (Is "None") false
       then settles W (AtArg "out") (svalue W a x (snd he)) (sstores W a x (snd he))
       else sstores W a x (snd he) = [] /\
            negb out || known_is (fst he) "out" false || fact_is (fst he) "out" (Is "None") true = true.
Definition all_good (W : algebra) (name : string) (F : (string -> option (V W)) -> V W -> V W) : Prop :=
  match dget String.eqb name readings with
  | Some ([], out, Some l) => Forall (good W name out F) l
  | _ => False
  end.
Section Good.
  Variable W : algebra.
  Hypothesis L : lawful W.
  Opaque num word quoted plus sub times divide power minus negation to_float bmm matmul outer sum_along erf erfinv log log2 log1p
    exp sqrt det choose softmax pick squeeze bilinear unsqueeze member item listed other.
  Ltac laws :=
    rewrite ?(divide_is W L), ?(root_of_two W L), ?(sub_is W L), ?(erf_at_minus_infinity W L), ?(minus_minus W L);
    try reflexivity.
  Ltac path :=
    let a := fresh "a" in let x := fresh "x" in let K := fresh "K" in
    intros a x K; cbv in K;
    repeat (match type of K with context [a ?k] => destruct (a k) eqn:? end; cbv in K; try discriminate K);
    split; [cbv; repeat match goal with E : a ?k = _ |- _ => rewrite E end; laws
           |cbv; repeat match goal with E : a ?k = _ |- _ => rewrite E end; repeat split; reflexivity].
  Ltac row := unfold all_good; match goal with |- context [dget ?f ?n readings] =>
      let v := eval vm_compute in (dget f n readings) in change (dget f n readings) with v end; cbv beta iota;
    repeat (apply Forall_cons; [path|]); try apply Forall_nil.
  Lemma formulas_good : Forall (fun nF => all_good W (fst nF) (snd nF)) (formulas W).
  Proof.
    unfold formulas. repeat (apply Forall_cons; [cbn [fst snd]; row|]); try apply Forall_nil.
    1,2,3,4: rewrite (times_comm W L x); reflexivity.
    - rewrite (plus_comm W L), (times_comm W L (erf W x)), (times_minus W L), (times_one W L). reflexivity.
    - rewrite (plus_comm W L (num W 1)). reflexivity.
    - rewrite (plus_comm W L (num W 1)). reflexivity.
    - rewrite (plus_comm W L (num W 1)). reflexivity.
  Qed.
  Lemma logarithmic_good : Forall (fun nF => all_good W (fst nF) (snd nF)) (logarithmic W).
  Proof. unfold logarithmic. repeat (apply Forall_cons; [cbn [fst snd]; row|]); try apply Forall_nil. Qed.
End Good.
Lemma formulas_described W : forall n F, In (n, F) (formulas W) -> In n described.
Proof. intros n F I. apply mem_str_In. cbn [formulas In] in I. repeat (destruct I as [I|I]; [injection I as <- _; reflexivity|]). destruct I. Qed.
Lemma logarithmic_described W : forall n F, In (n, F) (logarithmic W) -> In n described.
Proof. intros n F I. apply mem_str_In. cbn [logarithmic In] in I. repeat (destruct I as [I|I]; [injection I as <- _; reflexivity|]). destruct I. Qed.

Lemma settles_located W r recv args kwargs s o v : forall l,
  match s with AtArg k => argument r args kwargs k | AtRecv => recv | Elsewhere => None end = Some o ->
  settles W s v l -> settles W (Some o) v (located W r recv args kwargs l).
Proof.
  intros l E. induction l as [|[t y] l IH]; intros S; [exact S|]. destruct l as [|z l].
  - destruct S as [-> ->]. cbn. rewrite E. split; reflexivity.
  - destruct S as [-> S]. specialize (IH S). cbn [located map fst snd]. rewrite E. split; [reflexivity|exact IH].
Qed.
Lemma underscore_method n : In n described -> ends_with_underscore n = true -> is_methodb n = true.
Proof.
  intros I E. assert (F : forallb (fun n => if ends_with_underscore n then is_methodb n else true) described = true) by (vm_compute; reflexivity).
  rewrite forallb_forall in F. specialize (F _ I). rewrite E in F. exact F.
Qed.

Theorem good_meaning W rho F operand expression r g recv args kwargs i q u :
  In r api_mapping -> generator r = Some g -> In (r_name r) described -> all_good W (r_name r) F ->
  regular r recv args kwargs -> well_written operand expression r recv args kwargs ->
  paddle_nodes r g recv args kwargs i = Ret (Converted q u) ->
  exists p,
    reads_code operand expression (render q) p /\
    value W rho p = F (argument_values W rho r args kwargs) (receiver_value W rho recv) /\
    stored W (destination (r_name r) recv (argument r args kwargs "out")) (value W rho p) (stores W rho p).
Proof.
  intros I G N A R WR E. unfold all_good in A. rewrite (reading_found r I N) in A. cbn [summary snd] in A.
  destruct (unsupport_args (r_entry r)) as [|] eqn:U; [|contradiction].
  unfold row_readings in A. rewrite G in A. destruct (readable r g) eqn:RD; [|contradiction].
  destruct (row_meaning W rho operand expression r g recv args kwargs i q u I G R WR RD E)
    as (h & at_ & s & e & p & P & IM & UN & (M1 & M2) & RC & VA & ST & _).
  rewrite U in M1, M2.
  rewrite Forall_forall in A. specialize (A (h, e)).
  destruct A with (a := argument_values W rho r args kwargs) (x := receiver_value W rho recv) as [A1 A2].
  { apply in_flat_map. exists (h, ADone (AConverted at_ u) s). split; [exact P|]. cbn [fst snd]. rewrite IM, UN. left. reflexivity. }
  { unfold follows. apply forallb_forall. intros [k b] K. cbn [fst snd]. rewrite (M1 k b K); [apply Bool.eqb_reflx|intros []]. }
  cbn [fst snd] in A1, A2. exists p. split; [exact RC|]. split; [congruence|]. rewrite ST, VA. unfold destination.
  destruct (ends_with_underscore (r_name r)) eqn:EU.
  - destruct R as (C & _). destruct recv as [o|].
    + exact (settles_located W r (Some o) args kwargs AtRecv o _ _ eq_refl A2).
    + exfalso. pose proof (underscore_method _ N EU) as MB. apply methodb_iff in MB. destruct (proj2 C MB) as [v V]. discriminate.
  - destruct (known_is h "out" true && fact_is h "out" (Is "None") false) eqn:KO.
    + apply Bool.andb_true_iff in KO. destruct KO as [K1 K2].
      assert (GO : given (argument_values W rho r args kwargs) "out" = true).
      { unfold known_is in K1. destruct (dget String.eqb "out" (known h)) as [c|] eqn:KD; [|discriminate]. apply Bool.eqb_prop in K1. subst c.
        apply (dget_some_in _ String.eqb_spec) in KD. apply (M1 _ _ KD). intros []. }
      unfold given, argument_values in GO. destruct (argument r args kwargs "out") as [o|] eqn:O; [|discriminate].
      pose proof (M2 "out" _ _ K2 (fun z => z) _ O) as T. cbn in T. rewrite T. cbn [stored].
      apply (settles_located W r recv args kwargs (AtArg "out") o); assumption.
    + destruct A2 as [A2 A3]. rewrite A2. cbn [located map].
      replace (match argument r args kwargs "out" with Some o => if String.eqb o "None" then None else Some o | None => None end) with (@None string); [reflexivity|].
      symmetry. destruct (argument r args kwargs "out") as [o|] eqn:O; [|reflexivity].
      apply Bool.orb_true_iff in A3. destruct A3 as [A3|A3]; [apply Bool.orb_true_iff in A3; destruct A3 as [A3|A3]|].
      * exfalso. destruct R as (_ & D & _). pose proof (supplied_parameter r g args kwargs "out" o I G D O) as PA.
        apply mem_str_In in PA. rewrite PA in A3. discriminate.
      * exfalso. unfold known_is in A3. destruct (dget String.eqb "out" (known h)) as [c|] eqn:KD; [|discriminate]. apply Bool.eqb_prop in A3. subst c.
        apply (dget_some_in _ String.eqb_spec) in KD. pose proof (M1 _ _ KD (fun z => z)) as GO. unfold given, argument_values in GO. rewrite O in GO. discriminate.
      * pose proof (M2 "out" _ _ A3 (fun z => z) _ O) as T. cbn in T. rewrite T. reflexivity.
Qed.


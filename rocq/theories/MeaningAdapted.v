(** The parameters of [adapted] in MeaningSpec.v receive the values given there. *)
From Coq Require Import QArith.
From Verif Require Import PyStr PyDict PyDictFacts PyStrFacts UtilsFile RegistryFacts Args ArgsSpec TablesData
  Generate GenerateData GenerateSym GenerateRel GenerateRows GenerateSpec GenerateCheck GenerateCalls GenerateFacts
  Grammar GrammarCheck GenerateExact GrammarRows
  MeaningSpec MeaningCheck MeaningSound MeaningValue MeaningRows.
Close Scope Q_scope.
Open Scope string_scope.

Definition adapted_names : list string :=
  ["torch.distributed.all_gather"; "torch.distributed.all_gather_into_tensor"; "torch.distributed.all_reduce";
   "torch.distributed.all_to_all_single"; "torch.distributed.broadcast"; "torch.distributed.gather"; "torch.distributed.reduce";
   "torch.distributed.reduce_scatter"; "torch.distributed.scatter"; "torch.nn.LSTM"; "torch.nn.RNN"; "torch.nn.RNNBase";
   "torch.nn.functional.avg_pool1d"; "torch.nn.functional.avg_pool2d"; "torch.nn.functional.avg_pool3d";
   "torch.nn.InstanceNorm1d"; "torch.nn.InstanceNorm2d"; "torch.nn.InstanceNorm3d"; "torch.nn.SyncBatchNorm";
   "torch.nn.modules.batchnorm._BatchNorm"; "torch.optim.Optimizer.zero_grad"; "torch.linalg.diagonal"; "torch.nn.Softmax2d";
   "torch.nn.functional.softmin"; "torch.signal.windows.blackman"; "torch.signal.windows.cosine"; "torch.signal.windows.hamming";
   "torch.signal.windows.hann"].
Definition adapted_summary (r : row) : string * (list string * option (list (assume * sexp))) :=
  (r_name r, (unsupport_args (r_entry r), row_readings r)).
Definition adapted_readings := Eval vm_compute in map adapted_summary (filter (fun r => mem_str (r_name r) adapted_names) api_mapping).
Lemma adapted_readings_ok : map adapted_summary (filter (fun r => mem_str (r_name r) adapted_names) api_mapping) = adapted_readings.
Proof. vm_compute. reflexivity. Qed.
Lemma adapted_readings_distinct : distinct (dkeys adapted_readings) = true.
Proof. vm_compute. reflexivity. Qed.
Opaque api_mapping generators.
Lemma adapted_found r : In r api_mapping -> In (r_name r) adapted_names -> dget String.eqb (r_name r) adapted_readings = Some (snd (adapted_summary r)).
Proof.
  intros I N. apply (dget_in_nodup _ String.eqb_spec); [apply distinct_NoDup, adapted_readings_distinct|].
  rewrite <- adapted_readings_ok. apply in_map_iff. exists r. split; [reflexivity|].
  apply filter_In. split; [exact I|]. apply mem_str_In, N.
Qed.

Definition follows {T} (us : list string) (a : string -> option T) (h : assume) : bool :=
  forallb (fun kb => mem_str (fst kb) us || Bool.eqb (given a (fst kb)) (snd kb)) (known h).
Definition receives_as (W : algebra) (us : list string) (f k : string) (d : option (V W)) (F : (string -> option (V W)) -> option (V W)) (he : assume * sexp) : Prop :=
  forall a x, follows us a (fst he) = true ->
  match skeywords_to f (snd he) with
  | Some l => match skeys W a x l k with Some v => Some v | None => d end = F a
  | None => False
  end.
Definition all_receive (W : algebra) (name f k : string) (d : option (V W)) (F : (string -> option (V W)) -> option (V W)) : Prop :=
  match dget String.eqb name adapted_readings with
  | Some (us, Some l) => Forall (receives_as W us f k d F) l
  | _ => False
  end.
Section Good.
  Variable W : algebra.
  Hypothesis L : lawful W.
  Opaque num word quoted plus sub times divide power minus negation to_float bmm matmul outer sum_along erf erfinv log log2 log1p
    exp sqrt det choose softmax pick squeeze bilinear unsqueeze member item listed other.
  Ltac path :=
    let a := fresh "a" in let x := fresh "x" in let K := fresh "K" in
    intros a x K; cbv in K;
    repeat (match type of K with context [a ?k] => destruct (a k) eqn:? end; cbv in K; try discriminate K);
    cbv; repeat match goal with E : a ?k = _ |- _ => rewrite E end; repeat match goal with |- context [a ?k] => destruct (a k) eqn:? end;
    rewrite ?(not_true W L), ?(not_false W L), ?(num_minus W L); try reflexivity.
  Ltac row := unfold all_receive; match goal with |- context [dget ?f ?n adapted_readings] =>
      let v := eval vm_compute in (dget f n adapted_readings) in change (dget f n adapted_readings) with v end; cbv beta iota;
    repeat (apply Forall_cons; [path|]); try apply Forall_nil.
  Lemma adapted_good : Forall (fun e => let '(n, (f, k, d, F)) := e in all_receive W n f k d F) (adapted W).
  Proof.
    unfold adapted, window, collective, recurrent, pooling, normalization. cbn [app]. repeat (apply Forall_cons; [row|]); try apply Forall_nil.
  Qed.
End Good.
Lemma adapted_named W : forall n f k d F, In (n, (f, k, d, F)) (adapted W) -> In n adapted_names.
Proof. intros n f k d F I. apply mem_str_In. cbn [adapted window app In] in I. repeat (destruct I as [I|I]; [injection I as <- _ _ _ _; reflexivity|]). destruct I. Qed.

Lemma follows_ok W rho r args kwargs h :
  (forall k b, In (k, b) (known h) -> ~ In k (unsupport_args (r_entry r)) -> given (argument_values W rho r args kwargs) k = b) ->
  follows (unsupport_args (r_entry r)) (argument_values W rho r args kwargs) h = true.
Proof.
  intros M1. unfold follows. apply forallb_forall. intros [j b] K. cbn [fst snd]. destruct (mem_str j (unsupport_args (r_entry r))) eqn:MS; [reflexivity|].
  cbn [orb]. rewrite (M1 j b K); [apply Bool.eqb_reflx|]. intros X. apply mem_str_In in X. congruence.
Qed.

Theorem adapted_meaning W rho operand expression r g recv args kwargs i q u f k d F :
  lawful W ->
  In r api_mapping -> generator r = Some g -> In (r_name r, (f, k, d, F)) (adapted W) ->
  regular r recv args kwargs -> well_written operand expression r recv args kwargs ->
  paddle_nodes r g recv args kwargs i = Ret (Converted q u) ->
  exists p ks,
    reads_code operand expression (render q) p /\ keywords_to f p = Some ks /\
    receives W rho k d ks = F (argument_values W rho r args kwargs).
Proof.
  intros L I G T R WR E. pose proof (adapted_named W _ _ _ _ _ T) as N.
  pose proof (adapted_good W L) as A. rewrite Forall_forall in A. specialize (A _ T). cbv beta iota in A.
  unfold all_receive in A. rewrite (adapted_found r I N) in A. cbn [adapted_summary snd] in A.
  unfold row_readings in A. rewrite G in A. destruct (readable r g) eqn:RD; [|contradiction].
  destruct (row_meaning W rho operand expression r g recv args kwargs i q u I G R WR RD E)
    as (h & at_ & s & e & p & P & IM & UN & (M1 & M2) & RC & VA & ST & KS).
  rewrite Forall_forall in A. specialize (A (h, e)).
  specialize (A (in_readings r g h e at_ u s P IM UN) (argument_values W rho r args kwargs) (receiver_value W rho recv)).
  specialize (A (follows_ok _ _ _ _ _ _ M1)). cbn [snd] in A. destruct (skeywords_to f e) as [l|] eqn:SK; [|contradiction].
  destruct (KS _ _ SK) as (ks & K1 & K2). exists p, ks. split; [exact RC|]. split; [exact K1|]. rewrite K2. exact A.
Qed.

(** The axis of softmin. *)
Definition softmin_axis (W : algebra) (a : string -> option (V W)) : V W :=
  other W "_get_softmin_dim" [minus W (member W (or_else W (a "input") (word W "None")) "ndim")] (fun _ => None).
Definition axis_as (W : algebra) (us : list string) (he : assume * sexp) : Prop :=
  forall a x, follows us a (fst he) = true ->
  match skeywords_to "paddle.nn.functional.softmax" (snd he) with
  | Some l =>
      if known_is (fst he) "dim" true && fact_is (fst he) "dim" (Is "None") false then skeys W a x l "axis" = a "dim"
      else (known_is (fst he) "dim" false || fact_is (fst he) "dim" (Is "None") true = true) /\
           skeys W a x l "axis" = Some (softmin_axis W a)
  | None => False
  end.
Lemma softmin_good W :
  match dget String.eqb "torch.nn.functional.softmin" adapted_readings with
  | Some ([], Some l) => Forall (axis_as W []) l
  | _ => False
  end.
Proof.
  match goal with |- context [dget ?f ?n adapted_readings] =>
      let v := eval vm_compute in (dget f n adapted_readings) in change (dget f n adapted_readings) with v end. cbv beta iota.
  Opaque num word quoted minus member other.
  repeat (apply Forall_cons; [|]); try apply Forall_nil.
  all: intros a x K; cbv in K;
    repeat (match type of K with context [a ?k] => destruct (a k) eqn:? end; cbv in K; try discriminate K);
    cbv; repeat match goal with E : a ?k = _ |- _ => rewrite E end; repeat split; reflexivity.
Qed.
Theorem softmin_meaning W rho operand expression r g recv args kwargs i q u :
  In r api_mapping -> generator r = Some g -> r_name r = "torch.nn.functional.softmin" ->
  regular r recv args kwargs -> well_written operand expression r recv args kwargs ->
  paddle_nodes r g recv args kwargs i = Ret (Converted q u) ->
  exists p ks,
    reads_code operand expression (render q) p /\ keywords_to "paddle.nn.functional.softmax" p = Some ks /\
    receives W rho "axis" None ks =
      match argument r args kwargs "dim" with
      | Some v => if String.eqb v "None" then Some (softmin_axis W (argument_values W rho r args kwargs)) else Some (rho v)
      | None => Some (softmin_axis W (argument_values W rho r args kwargs))
      end.
Proof.
  intros I G N R WR E. assert (NN : In (r_name r) adapted_names) by (rewrite N; apply mem_str_In; reflexivity).
  pose proof (softmin_good W) as A. rewrite <- N, (adapted_found r I NN) in A. cbn [adapted_summary snd] in A.
  destruct (unsupport_args (r_entry r)) as [|] eqn:U; [|contradiction].
  unfold row_readings in A. rewrite G in A. destruct (readable r g) eqn:RD; [|contradiction].
  destruct (row_meaning W rho operand expression r g recv args kwargs i q u I G R WR RD E)
    as (h & at_ & s & e & p & P & IM & UN & (M1 & M2) & RC & VA & ST & KS).
  rewrite Forall_forall in A. specialize (A (h, e) (in_readings r g h e at_ u s P IM UN) (argument_values W rho r args kwargs) (receiver_value W rho recv)).
  rewrite <- U in A. specialize (A (follows_ok _ _ _ _ _ _ M1)). cbn [fst snd] in A.
  destruct (skeywords_to _ e) as [l|] eqn:SK; [|contradiction].
  destruct (KS _ _ SK) as (ks & K1 & K2). exists p, ks. split; [exact RC|]. split; [exact K1|]. rewrite K2. rewrite U in M1, M2.
  destruct (known_is h "dim" true && fact_is h "dim" (Is "None") false) eqn:KO.
  - rewrite A. unfold argument_values. apply Bool.andb_true_iff in KO. destruct KO as [KO1 KO2].
    unfold known_is in KO1. destruct (dget String.eqb "dim" (known h)) as [c|] eqn:KD; [|discriminate]. apply Bool.eqb_prop in KO1. subst c.
    apply (dget_some_in _ String.eqb_spec) in KD. pose proof (M1 _ _ KD (fun z => z)) as GO. unfold given, argument_values in GO.
    destruct (argument r args kwargs "dim") as [o|] eqn:O; [|discriminate]. pose proof (M2 "dim" _ _ KO2 (fun z => z) _ O) as T. cbn in T. rewrite T. reflexivity.
  - destruct A as [A1 ->]. apply Bool.orb_true_iff in A1. destruct (argument r args kwargs "dim") as [o|] eqn:O; [|reflexivity]. destruct A1 as [A1|A1].
    + exfalso. unfold known_is in A1. destruct (dget String.eqb "dim" (known h)) as [c|] eqn:KD; [|discriminate]. apply Bool.eqb_prop in A1. subst c.
      apply (dget_some_in _ String.eqb_spec) in KD. pose proof (M1 _ _ KD (fun z => z)) as GO. unfold given, argument_values in GO. rewrite O in GO. discriminate.
    + pose proof (M2 "dim" _ _ A1 (fun z => z) _ O) as T. cbn in T. rewrite T. reflexivity.
Qed.

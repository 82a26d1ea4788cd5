(** C145: models of the VGG family. *)
From Verif Require Import PyStr PyStrFacts PyDict PyDictFacts Ast Args ArgsFacts UtilsFile TablesData Generate GenerateData GenerateRel GenerateRows FlagSpec FlagFacts DatasetSpec DatasetFacts DatasetCalls OutSpec OutFacts LrSpec LrFacts PropertiesLr AdamFacts VggSpec VggFacts.
Opaque api_mapping generators.

Lemma vgg_rows n p bn : In (n, p, bn) vgg_family -> (exists s r, find (fun r => String.eqb (r_name r) n) api_mapping = Some r /\ generator r = Some (s, g_VGGMatcher) /\
  paddle_api (r_entry r) = Some p /\ kwargs_change (r_entry r) = [("progress", TNone)] /\ paddle_default_kwargs (r_entry r) = [] /\ unsupport_args (r_entry r) = [] /\
  (position_args (r_entry r) ++ args_list (r_entry r) ++ overload_args_list (r_entry r))%list = ["weights"; "progress"; "pretrained"; "weights"; "progress"; "pretrained"]) /\
  bn = render (show (Bool (contains "bn" n))).
Proof.
  unfold vgg_family. intros I. cbn [In] in I. repeat (destruct I as [E|I]; [injection E as <- <- <-; split; [row_found; repeat (split; [reflexivity|]); vm_compute; reflexivity|vm_compute; reflexivity]|]). destruct I.
Qed.
Theorem C145_models :
  forall n p bn args kwargs t new i,
    In (n, p, bn) vgg_family -> reads_as n args kwargs t -> pretrained_as t new ->
    exists q u l, answer n None args kwargs i = Some (Ret (Converted q u)) /\ render q = call_of p l /\
      made_of l t ["progress"; "weights"] (new ++ [("batch_norm", bn)])%list.
Proof.
  intros n p bn args kwargs t new i I R P. destruct (vgg_rows n p bn I) as ((s & r & Fr & G & A & C & D & U & L) & Bn).
  pose proof (known_star _ r args kwargs t Fr U R) as S. pose proof (keys_once _ args kwargs t R S) as N.
  destruct (answer_plain _ r s _ args kwargs t i Fr G R) as (c & E & T & Q & H).
  assert (W : forall k v, mem_str k ["weights"; "progress"; "pretrained"; "weights"; "progress"; "pretrained"] = false -> ~ passes t k v).
  { intros k v K. rewrite <- L in K. exact (unknown _ r args kwargs t Fr U R k v K). }
  set (d := vgg_args (contains "bn" (torch_api c)) (start t)).
  assert (As : asked (start t) = true <-> weights_asked t).
  { unfold asked, weights_asked. split.
    - destruct (dget String.eqb "weights" (start t)) as [w|] eqn:X; [|discriminate]. intros Y. apply andb_prop in Y as [Y1 Y2]. exists (render w). split.
      + apply (member_start _ _ _ S). apply in_texts; [exact N|]. exists w. split; [exact X|reflexivity].
      + split; apply String.eqb_neq; apply Bool.negb_true_iff; assumption.
    - intros (v & V & V1 & V2). apply (member_start _ _ _ S) in V. apply in_texts in V as (w & -> & <-); [|exact N].
      apply String.eqb_neq in V1, V2. rewrite V1, V2. reflexivity. }
  assert (M : made_of (texts d) t ["weights"] (new ++ [("batch_norm", bn)])%list).
  { unfold d, vgg_args. rewrite T, Bn. destruct P as [[X ->]|[X ->]].
    - rewrite (proj2 As X). made_it.
    - destruct (asked (start t)); [exfalso; apply X; apply As; reflexivity|]. made_it. }
  assert (Kn : ~ In "progress" (map fst (new ++ [("batch_norm", bn)])%list)).
  { rewrite map_app. destruct P as [[_ ->]|[_ ->]]; notin. }
  assert (V : forall k, mem_str k ["batch_norm"; "weights"; "progress"; "pretrained"; "weights"; "progress"; "pretrained"] = false -> ~ In k (dkeys d)).
  { intros k K J. rewrite <- texts_keys in J. apply in_map_iff in J as ([a v] & <- & J). cbn [fst] in K. cbn [mem_str existsb] in K. apply Bool.orb_false_iff in K as [K1 K2].
    apply M in J as [J|(_ & _ & J)]; [|exact (W a v K2 J)]. apply in_app_iff in J as [J|[J|[]]]; [|injection J as <- _; discriminate K1].
    destruct P as [[_ ->]|[_ ->]]; [|destruct J]. destruct J as [J|[]]. injection J as <- _. discriminate K2. }
  assert (Nd : NoDup (dkeys d)) by (rewrite <- texts_keys; exact (proj1 M)).
  assert (Z : settled c d = ddel String.eqb "progress" d).
  { unfold settled, default_ropes. rewrite (unused_free (row_of c) generic_unused d).
    - rewrite (gone_change (row_of c) "progress" d); [|rewrite E; exact C|exact Nd]. rewrite E, D. reflexivity.
    - intros k J. apply V. unfold generic_unused in J. cbn [In] in J. repeat (destruct J as [<-|J]; [reflexivity|]). destruct J. }
  assert (O : forall k, mem_str k ["batch_norm"; "weights"; "progress"; "pretrained"; "weights"; "progress"; "pretrained"] = false -> dget String.eqb k (settled c d) = None).
  { intros k K. rewrite Z. apply (dget_none_iff _ String.eqb_spec). rewrite <- texts_keys. intros J. apply in_map_iff in J as ([a v] & <- & J). apply member_out in J as [_ J]; [|exact Nd].
    apply (V a K). rewrite <- texts_keys. apply in_map_iff. exists (a, v). split; [reflexivity|exact J]. }
  destruct (generic_call c d i false _ (Q _ A)) as (q & s1 & B & X); [apply O; reflexivity|apply O; reflexivity|apply O; reflexivity|apply O; reflexivity|].
  destruct (vgg_runs c (start t) i q s1 B) as (s2 & B2).
  exists q, (utils s2), (texts (ddel String.eqb "progress" d)). split; [apply H; [exact B2|rewrite X; apply call_bracket]|]. split; [rewrite X, Z; reflexivity|].
  apply made_out; assumption.
Qed.
Print Assumptions C145_models.
(** A literal False in the place of the weights, which torchvision reads as no weights, always
    becomes pretrained=True. *)
Theorem C145_false_refuted :
  forall n p bn args kwargs t i,
    In (n, p, bn) vgg_family -> reads_as n args kwargs t -> passes t "weights" "(False)" ->
    exists q u l, answer n None args kwargs i = Some (Ret (Converted q u)) /\ render q = call_of p l /\ In ("pretrained", "True") l.
Proof.
  intros n p bn args kwargs t i I R P.
  destruct (C145_models n p bn args kwargs t [("pretrained", "True")] i I R) as (q & u & l & A & B & _ & M).
  { left. split; [|reflexivity]. exists "(False)". split; [exact P|split; discriminate]. }
  exists q, u, l. split; [exact A|]. split; [exact B|]. apply M. left. left. reflexivity.
Qed.
Print Assumptions C145_false_refuted.
Transparent api_mapping generators.
Example C145_nonvacuous :
  (exists t, reads_as "torchvision.models.vgg16_bn" [] [MkKw (Some "weights") (MkExpr false false "VGG16_BN_Weights.DEFAULT"); MkKw (Some "progress") (MkExpr false false "p")] t /\
    pretrained_as t [("pretrained", "True")] /\ In ("torchvision.models.vgg16_bn", "paddle.vision.models.vgg16", "True") vgg_family) /\
  (exists t, reads_as "torchvision.models.vgg11" [] [MkKw (Some "pretrained") (MkExpr false false "flag")] t /\ pretrained_as t []) /\
  (exists t, reads_as "torchvision.models.vgg11" [MkExpr false false "(False)"] [] t /\ passes t "weights" "(False)").
Proof.
  split; [|split].
  - eexists. split; [eexists; split; vm_compute; reflexivity|]. split; [|cbn; tauto]. left. split; [|reflexivity]. exists "VGG16_BN_Weights.DEFAULT". split; [there|split; discriminate].
  - eexists. split; [eexists; split; vm_compute; reflexivity|]. right. split; [|reflexivity]. intros (v & I & _). revert I. nowhere.
  - eexists. split; [eexists; split; vm_compute; reflexivity|]. there.
Qed.

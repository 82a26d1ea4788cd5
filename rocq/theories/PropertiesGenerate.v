(** C75-C77: the code generated for calls of the APIs whose matcher is in [generators]. *)
From Verif Require Import PyStr PyDict PyStrFacts UtilsFile Args ArgsSpec TablesData
  Generate GenerateData GenerateRows GenerateSpec GenerateCheck GenerateCalls GenerateFacts GenerateExact GenerateMarks.
Opaque api_mapping generators.

Definition named (l : list (string * string)) : list kwnode :=
  map (fun kv => MkKw (Some (fst kv)) (MkExpr false false (snd kv))) l.
Definition positional (l : list string) : list expr := map (MkExpr false false) l.
Definition row_named (n : string) : option row := find (fun r => String.eqb (r_name r) n) api_mapping.
(** What a call is rewritten to. *)
Definition rewrite (n : string) (recv : option string) (args : list string) (kwargs : list (string * string)) : option (outcome (string * bool)) :=
  match row_named n with
  | Some r =>
      match generator r with
      | Some g =>
          match paddle_nodes r g recv (positional args) (named kwargs) [] with
          | Ret (Converted q u) => Some (Ret (render q, u))
          | Fail e => Some (Fail e)
          | _ => None
          end
      | None => None
      end
  | None => None
  end.
Lemma row_named_in n r : row_named n = Some r -> In r api_mapping /\ r_name r = n.
Proof. intros H. apply find_some in H. destruct H as [I E]. apply String.eqb_eq in E. tauto. Qed.

(** ** C75 *)
Theorem C75_generation_never_raises :
  forall r g recv args kwargs i e,
    In r api_mapping -> generator r = Some g -> regular r recv args kwargs ->
    paddle_nodes r g recv args kwargs i = Fail e -> e = "KeyError" /\ fragile r args kwargs.
Proof.
  intros r g recv args kwargs i e I G (C & D & U & A) E.
  pose proof (row_result r g recv args kwargs i I G C D U A) as R. rewrite E in R. exact R.
Qed.
Print Assumptions C75_generation_never_raises.

(** The exceptions occur. *)
Theorem C75_type_refuted : rewrite "torch.Tensor.type" (Some "x") [] [("non_blocking", "(True)")] = Some (Fail "KeyError").
Proof. vm_compute. reflexivity. Qed.
Theorem C75_onecycle_refuted :
  rewrite "torch.optim.lr_scheduler.OneCycleLR" None ["opt"; "0.1"; "100"] [("final_div_factor", "(1000)")] = Some (Fail "KeyError").
Proof. vm_compute. reflexivity. Qed.
(** A method called through its class, [torch.Tensor.narrow_copy(x, ...)]: the matcher
    asks for a receiver that is not there. *)
Theorem C75_unbound_method_refuted :
  rewrite "torch.Tensor.narrow_copy" None [] [("dim", "0"); ("start", "1"); ("length", "2")] = Some (Fail "AttributeError").
Proof. vm_compute. reflexivity. Qed.

(** ** C76 *)
Theorem C76_arguments_are_kept :
  forall r g recv args kwargs i q u k v,
    In r api_mapping -> generator r = Some g -> regular r recv args kwargs ->
    paddle_nodes r g recv args kwargs i = Ret (Converted q u) ->
    supplies (r_entry r) args kwargs k v -> v <> "None" -> v <> "" ->
    ~ In k (unsupport_args (r_entry r)) -> ~ declared_unused (r_entry r) k -> ~ listed lost r k ->
    inside v (render q).
Proof.
  intros r g recv args kwargs i q u k v I G (C & D & U & A). apply argument_kept; assumption.
Qed.
Print Assumptions C76_arguments_are_kept.

Theorem C76_exceptions_are_real :
  forall n ks k, In (n, ks) lost -> In k ks ->
    exists r g recv kwargs v q u,
      In r api_mapping /\ r_name r = n /\ generator r = Some g /\ regular r recv [] kwargs /\
      supplies (r_entry r) [] kwargs k v /\ v <> "None" /\ v <> "" /\
      paddle_nodes r g recv [] kwargs [] = Ret (Converted q u) /\ ~ inside v (render q).
Proof.
  intros n ks k I J.
  destruct (witnessed_ok missing lost n ks k lost_witnessed I J) as (r & g & recv & kwargs & v & q & u & H1 & H2 & H3 & H4 & H5 & H6 & H7 & H8 & H9).
  apply missing_ok in H9. exists r, g, recv, kwargs, v, q, u. tauto.
Qed.
Print Assumptions C76_exceptions_are_real.

(** ** C77 *)
Theorem C77_arguments_written_once :
  forall r g recv args kwargs i q u,
    In r api_mapping -> generator r = Some g -> regular r recv args kwargs ->
    paddle_nodes r g recv args kwargs i = Ret (Converted q u) ->
    (forall k, In k (parameters (r_entry r)) -> ~ listed repeated r k -> (copies (Argument k) q <= 1)%nat) /\
    (~ In (r_name r) receiver_repeated -> (copies Receiver q <= 1)%nat).
Proof.
  intros r g recv args kwargs i q u I G (C & D & U & A). apply written_once; assumption.
Qed.
Print Assumptions C77_arguments_written_once.

(** The same without the record of origins: a mark put into one argument (or into the
    receiver) is found at most once in the generated text. *)
Theorem C77_mark_written_once :
  forall r g recv args kwargs i q u s,
    In r api_mapping -> generator r = Some g -> regular r recv args kwargs ->
    paddle_nodes r g recv args kwargs i = Ret (Converted q u) ->
    marked s (r_entry r) recv args kwargs ->
    match s with
    | Argument k => In k (parameters (r_entry r)) /\ ~ listed repeated r k
    | Receiver => ~ In (r_name r) receiver_repeated
    end ->
    (marks (render q) <= 1)%nat.
Proof. exact marked_once. Qed.
Print Assumptions C77_mark_written_once.

Theorem C77_exceptions_are_real :
  (forall n ks k, In (n, ks) repeated -> In k ks ->
    exists r g recv kwargs v q u,
      In r api_mapping /\ r_name r = n /\ generator r = Some g /\ regular r recv [] kwargs /\
      supplies (r_entry r) [] kwargs k v /\
      paddle_nodes r g recv [] kwargs [] = Ret (Converted q u) /\ (1 < copies (Argument k) q)%nat) /\
  (forall n, In n receiver_repeated ->
    exists r g recv kwargs q u,
      In r api_mapping /\ r_name r = n /\ generator r = Some g /\ regular r recv [] kwargs /\
      paddle_nodes r g recv [] kwargs [] = Ret (Converted q u) /\ (1 < copies Receiver q)%nat).
Proof.
  split; [|exact receiver_ok]. intros n ks k I J.
  destruct (witnessed_ok more_than_once repeated n ks k repeated_witnessed I J) as (r & g & recv & kwargs & v & q & u & H1 & H2 & H3 & H4 & H5 & H6 & H7 & H8 & H9).
  apply Nat.ltb_lt in H9. exists r, g, recv, kwargs, v, q, u. tauto.
Qed.
Print Assumptions C77_exceptions_are_real.

(** ** Concrete cases *)
Example C75_nonvacuous :
  rewrite "torch.nn.functional.softmin" None ["f(x)"] [("dim", "d")] =
  Some (Ret ("paddle.nn.functional.softmax(x=-f(x), axis=d)", false)).
Proof. vm_compute. reflexivity. Qed.
(** A regular call of a row without exceptions: two arguments, both kept, each once. *)
Definition example_call := named [("mat", "f(x)"); ("vec", "g[0]")].
Lemma example_facts :
  match row_named "torch.Tensor.addmv" with
  | Some r =>
      match generator r with
      | Some g =>
          match paddle_nodes r g (Some "obj") [] example_call [] with
          | Ret (Converted q u) =>
              an_object r = Some "obj" /\ regularb r [("mat", "f(x)"); ("vec", "g[0]")] = true /\
              suppliesb r [("mat", "f(x)"); ("vec", "g[0]")] "vec" = Some "g[0]" /\
              listedb lost r "vec" = false /\ listedb repeated r "vec" = false /\
              render q = "
paddle.add(1*obj, 1*paddle.mm(f(x), g[0]))
"
          | _ => False
          end
      | None => False
      end
  | None => False
  end.
Proof. vm_compute. repeat split. Qed.
Example C76_nonvacuous :
  exists r g q u,
    In r api_mapping /\ generator r = Some g /\ regular r (Some "obj") [] example_call /\
    supplies (r_entry r) [] example_call "vec" "g[0]" /\
    ~ listed lost r "vec" /\ ~ listed repeated r "vec" /\
    paddle_nodes r g (Some "obj") [] example_call [] = Ret (Converted q u) /\
    render q = "
paddle.add(1*obj, 1*paddle.mm(f(x), g[0]))
".
Proof.
  pose proof example_facts as H. destruct (row_named "torch.Tensor.addmv") as [r|] eqn:R; [|contradiction].
  destruct (generator r) as [g|] eqn:G; [|contradiction].
  destruct (paddle_nodes r g (Some "obj") [] example_call []) as [[q u| | |]|] eqn:P; try contradiction.
  destruct H as (H1 & H2 & H3 & H4 & H5 & H6). apply row_named_in in R. destruct R as [I _].
  apply regularb_ok in H2. rewrite H1 in H2.
  exists r, g, q, u. split; [exact I|]. split; [exact G|]. split; [exact H2|]. split; [exact H3|].
  rewrite <- !listedb_iff, H4, H5. split; [discriminate|]. split; [discriminate|]. split; [exact P|exact H6].
Qed.
Definition a_mark : string := String mark "".
Definition marked_call := named [("mat", "f(" ++ a_mark ++ ")"); ("vec", "g[0]")].
Example C77_mark_nonvacuous :
  match row_named "torch.Tensor.addmv" with
  | Some r => marked (Argument "mat") (r_entry r) (Some "obj") [] marked_call
  | None => False
  end.
Proof.
  destruct (row_named "torch.Tensor.addmv") as [r|] eqn:R; [|vm_compute in R; discriminate]. split.
  - unfold bindings. cbn [map]. rewrite combine_nil. intros k v [H|[H|[]]]; injection H as <- <-; apply Nat.leb_le; vm_compute; reflexivity.
  - intros v H. injection H as <-. apply Nat.leb_le. vm_compute. reflexivity.
Qed.

(** C107, C108: calls of the 242 rows that share one way of rewriting, and the receiver
    of method calls. *)
From Verif Require Import PyStr PyDict UtilsFile Args ArgsSpec TablesData Generate GenerateData GenerateRows
  GenericSpec GenericBridge GenericFacts.

(** ** C107 *)
Lemma generic_generator : dget String.eqb "GenericMatcher" generators = Some (true, g_GenericMatcher).
Proof. vm_compute. reflexivity. Qed.
Opaque api_mapping generators.
(** [i] says which generated names are taken; the next one is used at most once. *)
Theorem C107_generic_calls_exact : forall r recv args kwargs i,
  In r api_mapping -> r_matcher r = Some "GenericMatcher" -> r_disable r = false -> r_abstract r = false ->
  fits (r_entry r) args kwargs -> (In (r_name r) two_for_one -> one_of_two (r_entry r) args kwargs) ->
  (forall v, recv = Some v -> plain_text v) ->
  exists g api callee q,
    generator r = Some g /\ paddle_api (r_entry r) = Some api /\ called_on api recv callee /\
    paddle_nodes r g recv args kwargs i = Ret (Converted q false) /\
    render q = generic_text (r_entry r) callee (snd (unique_name i "out")) (final_arguments (r_entry r) args kwargs).
Proof.
  intros r recv args kwargs i I M D A F X P. destruct (generic_rows_exact r recv args kwargs i I M A F X) as (api & f & q & E & C & N & R).
  exists (true, g_GenericMatcher), api, f, q. split; [unfold generator; rewrite D, A, M; exact generic_generator|]. split; [exact E|]. split; [|split; [exact N|exact R]].
  destruct recv as [v|]; [|exact C]. cbn [option_map] in C. rewrite garbled_plain in C by (apply P; reflexivity). exact C.
Qed.
Print Assumptions C107_generic_calls_exact.

(** [torch.scalar_tensor(5, dtype=d, device=c, requires_grad=flag)] *)
Definition scalar_args : list expr := [MkExpr false false "(5)"].
Definition scalar_kwargs : list kwnode :=
  [MkKw (Some "dtype") (MkExpr false false "d"); MkKw (Some "device") (MkExpr false false "c"); MkKw (Some "requires_grad") (MkExpr false false "flag")].
Transparent api_mapping generators.
Lemma scalar_row : exists r, find (fun r => String.eqb (r_name r) "torch.scalar_tensor") api_mapping = Some r /\
  r_matcher r = Some "GenericMatcher" /\ r_disable r = false /\ r_abstract r = false /\ mem_str (r_name r) two_for_one = false /\
  r_entry r = MkEntry ["s"; "*"; "dtype"; "layout"; "device"; "requires_grad"; "pin_memory"] [] 1 []
    [("s", TName "data"); ("dtype", TName "dtype"); ("device", TName "place")] [("dtype", "paddle.float32")] (Some "paddle.to_tensor").
Proof. eexists. split; [vm_compute; reflexivity|]. repeat split; vm_compute; reflexivity. Qed.
Example C107_nonvacuous : exists r, In r api_mapping /\ r_matcher r = Some "GenericMatcher" /\ r_disable r = false /\ r_abstract r = false /\
  fits (r_entry r) scalar_args scalar_kwargs /\
  called_on "paddle.to_tensor" None "paddle.to_tensor" /\
  generic_text (r_entry r) "paddle.to_tensor" (snd (unique_name [] "out")) (final_arguments (r_entry r) scalar_args scalar_kwargs) =
    nls ++ "out_0 = paddle.to_tensor(data=(5), dtype=d, place=c)" ++ nls ++ "out_0.stop_gradient = not flag" ++ nls ++ "out_0" ++ nls.
Proof.
  destruct scalar_row as (r & F & M & D & A & _ & E). exists r. apply find_some in F. split; [apply F|]. split; [exact M|]. split; [exact D|]. split; [exact A|].
  rewrite E. split; [|split; [apply on_function|reflexivity]]. constructor.
  - intros a [<-|[]]. reflexivity.
  - intros n [<-|[<-|[<-|[]]]]; eexists; (split; [reflexivity|]); cbn; tauto.
  - cbn. split; repeat constructor.
  - cbn. intros k _ [].
  - cbn. repeat constructor; cbn; intros H; repeat (destruct H as [H|H]; [discriminate|]); exact H.
Qed.

(** ** C108 *)
(** The name a row's [generate_code] writes in front of the arguments of a method call
    [v.method(..)]. *)
Definition written_name (r : row) (asserted : bool) (v : string) (kw : kwdict) (i : ids) : outcome value :=
  let c := context_of r asserted (Some v) in get_paddle_api c (MkState [] [("kwargs", kw)] (initial_api c) i false).
(** For every row of the tables: it is the paddle method of [v]. *)
Theorem C108_receiver_kept : forall r asserted v kw i api w,
  In r (api_mapping ++ attribute_mapping)%list -> paddle_api (r_entry r) = Some api -> plain_text v ->
  written_name r asserted v kw i = Ret w -> called_on api (Some v) (render (show w)).
Proof.
  intros r s v kw i api w I P T W. pose proof (api_value (context_of r s (Some v)) [] [("kwargs", kw)] i false) as A.
  unfold written_name in W. cbv zeta in W. rewrite W in A. destruct A as [_ ->]. rewrite <- (garbled_plain v T) at 1. apply row_callee; assumption.
Qed.
Print Assumptions C108_receiver_kept.
(** What becomes of any receiver. *)
Theorem C108_receiver_exact : forall r asserted v kw i api w,
  In r (api_mapping ++ attribute_mapping)%list -> paddle_api (r_entry r) = Some api ->
  written_name r asserted v kw i = Ret w -> called_on api (Some (garbled v)) (render (show w)).
Proof.
  intros r s v kw i api w I P W. pose proof (api_value (context_of r s (Some v)) [] [("kwargs", kw)] i false) as A.
  unfold written_name in W. cbv zeta in W. rewrite W in A. destruct A as [_ ->]. apply row_callee; assumption.
Qed.
Print Assumptions C108_receiver_exact.
(** [table['\n'].fliplr()] becomes [table['n'].flip(axis=1)]: another entry. *)
Theorem C108_receiver_changed_refuted : exists r g q,
  In r api_mapping /\ r_name r = "torch.Tensor.fliplr" /\ generator r = Some g /\
  paddle_nodes r g (Some "table['\n']") [] [] [] = Ret (Converted q false) /\ render q = "table['n'].flip(axis=1)".
Proof.
  destruct (find (fun r => String.eqb (r_name r) "torch.Tensor.fliplr") api_mapping) as [r|] eqn:F; [|vm_compute in F; discriminate].
  pose proof F as F'. apply find_some in F'. destruct F' as [I N]. apply String.eqb_eq in N.
  destruct (generator r) as [g|] eqn:G; [|vm_compute in F; injection F as <-; vm_compute in G; discriminate].
  destruct (paddle_nodes r g (Some "table['\n']") [] [] []) as [[q u| | |]|] eqn:Q;
    vm_compute in F; injection F as <-; vm_compute in G; injection G as <-; vm_compute in Q; try discriminate.
  injection Q as <- <-. eexists _, _, _. split; [exact I|]. split; [reflexivity|]. split; [vm_compute; reflexivity|]. split; vm_compute; reflexivity.
Qed.
Print Assumptions C108_receiver_changed_refuted.
Example C108_nonvacuous : plain_text "self.items[i]" /\ called_on "paddle.Tensor.flip" (Some "self.items[i]") "self.items[i].flip" /\
  garbled "table['\n']" = "table['n']" /\ garbled "f('\.')" = "f('\.')".
Proof.
  split; [split; reflexivity|]. split; [|split; reflexivity].
  apply (on_receiver "paddle.Tensor.flip" "paddle.Tensor" ".flip" "self.items[i]"); [left; reflexivity|reflexivity].
Qed.

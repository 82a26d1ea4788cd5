(** Facts for C146. *)
From Verif Require Import PyStr PyStrFacts PyDict PyDictFacts Ast Args ArgsFacts UtilsFile TablesData Generate GenerateData GenerateSym GenerateRel GenerateRows FlagSpec FlagFacts DatasetSpec DatasetFacts DatasetCalls OutSpec OutFacts LrSpec LrFacts AdamFacts PairFacts HistSpec.
Opaque api_mapping generators g_GenericMatcher.

Lemma r_class c vs ds r i u s : receiver c = Some s -> eval c EClass (MkState vs ds r i u) = Ret (Text (receiver_piece s), MkState vs ds r i u).
Proof. intros R. change (eval c EClass (MkState vs ds r i u)) with (match receiver c with Some r' => Ret (Text (receiver_piece r'), MkState vs ds r i u) | None => Fail "AttributeError" end). rewrite R. reflexivity. Qed.
Lemma r_torch c vs ds r i u x b : run_test x (torch_api c) = b -> eval c (ETest x ETorch) (MkState vs ds r i u) = Ret (Bool b, MkState vs ds r i u).
Proof. intros T. eapply r_test; [reflexivity|]. unfold lit. rewrite render_one. exact T. Qed.
(** Removing a key where it is. *)
Lemma r_out_if c d k (w : kwdict) vs ds ds' r i u : dget String.eqb d ds = Some w -> dset String.eqb d (ddel String.eqb k w) ds = ds' -> dset String.eqb d w ds = ds ->
  step c (SIf (EIn k d) (Seq (SDo (EPop d k)) Done) Done) (MkState vs ds r i u) = Ret (None, MkState vs ds' r i u).
Proof.
  intros A B S. destruct (dget String.eqb k w) as [x|] eqn:E.
  - eapply r_choose_yes; [eapply r_in; [exact A|eapply mem_yes; exact E]|]. eapply r_seq; [eapply r_do; eapply r_pop; [exact A|exact E|exact B]|apply r_done].
  - eapply r_choose_no; [eapply r_in; [exact A|eapply mem_no; exact E]|]. rewrite (out_absent k w E) in B. assert (X : ds' = ds) by (transitivity (dset String.eqb d w ds); [symmetry; exact B|exact S]). rewrite X. apply r_done.
Qed.
(** The arguments with the limits in place of the range. *)
Definition limited (d : kwdict) : kwdict :=
  match dget String.eqb "range" d with
  | Some r => ddel String.eqb "range" (dset String.eqb "max" (MkPiece [] "" :: r ++ [MkPiece [] "[1]"])%list (dset String.eqb "min" (MkPiece [] "" :: r ++ [MkPiece [] "[0]"])%list d))
  | None => d
  end.
Definition edges (d : kwdict) : kwdict := ddel String.eqb "density" (ddel String.eqb "weight" d).
Ltac hist_go := opened g_HistogramMatcher; unfold st;
  eapply r_seq; [first [eapply r_choose_yes; [go|]; eapply r_seq; [go|]; eapply r_seq; [go|]; eapply r_seq; [eapply r_do; go|]; go | go]|];
  eapply r_seq; [pair_go|]; eapply r_seq; [eapply r_out_if; [finds|puts|puts]|]; eapply r_seq; [eapply r_out_if; [finds|puts|puts]|].
Ltac split_range d := unfold limited, edges; let R := fresh "R" in destruct (dget String.eqb "range" d) as [r|] eqn:R.
Lemma hist_runs c d i x : contains "Tensor" (torch_api c) = false -> dget String.eqb "out" d = None -> dget String.eqb "input" d = Some x ->
  exists q s, exec c g_HistogramMatcher (st [] d None i false) = Ret (Some (Text q), s) /\
    render q = both (typed "paddle" "histogram" (render x) (texts (limited d))) (typed "paddle" "histogram_bin_edges" (render x) (texts (edges (limited d)))).
Proof.
  intros T O X. unfold both, typed. split_range d; (eexists; eexists; split; [hist_go; eapply r_seq; [eapply r_choose_no; [go|]; eapply r_seq; [eapply r_choose_no; [apply r_torch; exact T|]; go|go]|go]|txo]).
Qed.
Lemma hist_out c d i o : contains "Tensor" (torch_api c) = false -> dget String.eqb "out" d = Some o ->
  exists q s, exec c g_HistogramMatcher (st [] d None i false) = Ret (Some (Text q), s) /\
    render q = lines ["out1, out2 = " ++ both (typed "paddle" "histogram" (render o ++ "[0]") (texts (ddel String.eqb "out" (limited d))))
                                             (typed "paddle" "histogram_bin_edges" (render o ++ "[1]") (texts (ddel String.eqb "out" (edges (limited d))))); handed "" (render o) 0 ["out1"; "out2"]].
Proof.
  intros T O. unfold both, typed. split_range d; (eexists; eexists; split; [hist_go; eapply r_seq; [eapply r_choose_yes; [go|]; eapply r_seq; [go|]; eapply r_seq; [eapply r_do; go|]; eapply r_seq; [eapply r_choose_no; [apply r_torch; exact T|]; go|go]|go]|txo]).
Qed.
Lemma hist_method c d r0 i w : contains "Tensor" (torch_api c) = true -> receiver c = Some w -> dget String.eqb "out" d = None ->
  exists q s, exec c g_HistogramMatcher (st [] d r0 i false) = Ret (Some (Text q), s) /\
    render q = both (typed w "histogram" w (texts (limited d))) (typed w "histogram_bin_edges" w (texts (edges (limited d)))).
Proof.
  intros T R O. unfold both, typed. split_range d; (eexists; eexists; split; [hist_go; eapply r_seq; [eapply r_choose_no; [go|]; eapply r_seq; [eapply r_choose_yes; [apply r_torch; exact T|];
    eapply r_seq; [eapply r_let; [eapply r_format; [go|repeat (eapply r_cons; [first [apply r_class; exact R|go]|]); apply r_nil|eapply format_lit; [vm_compute; reflexivity|fills]]|puts]|apply r_done]|apply r_done]|go]|unfold receiver_piece; txo]).
Qed.
(** Sorting. *)
Lemma sort_method c d r0 i w : receiver c = Some w -> dget String.eqb "input" d = None ->
  dget String.eqb "out" (change_rope (row_of c) [] (dset String.eqb "x" (receiver_piece w) d)) = None ->
  exists q s, exec c g_SortMatcher (st [] d r0 i false) = Ret (Some (Text q), s) /\
    render q = both (call_of "paddle.sort" (texts (change_rope (row_of c) [] (dset String.eqb "x" (receiver_piece w) d)))) (call_of "paddle.argsort" (texts (change_rope (row_of c) [] (dset String.eqb "x" (receiver_piece w) d)))).
Proof.
  intros R I O. unfold both. eexists; eexists; split; [|].
  - opened g_SortMatcher. unfold st. eapply r_seq; [eapply r_choose_yes; [apply r_not_yes; go|]; eapply r_seq; [eapply r_set; [apply r_class; exact R|finds|reflexivity|puts]|apply r_done]|]. cbn [show]. go.
  - txo.
Qed.

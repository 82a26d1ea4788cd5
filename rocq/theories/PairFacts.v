(** Facts for C144. *)
From Verif Require Import PyStr PyStrFacts PyDict PyDictFacts Ast Args ArgsFacts UtilsFile TablesData Generate GenerateData GenerateSym GenerateRel GenerateRows FlagSpec FlagFacts DatasetSpec DatasetFacts DatasetCalls OutSpec OutFacts LrSpec LrFacts AdamFacts PairSpec.
Opaque api_mapping generators g_GenericMatcher.

Lemma r_copy c d e v ds ds' vs r i u : dget String.eqb e ds = Some v -> dset String.eqb d v ds = ds' ->
  step c (SCopy d e) (MkState vs ds r i u) = Ret (None, MkState vs ds' r i u).
Proof. intros A <-. change (step c (SCopy d e) (MkState vs ds r i u)) with (run* v := get_dict e (MkState vs ds r i u) in Ret (@None value, upd_dict d v (MkState vs ds r i u))).
  unfold get_dict. cbn [dicts]. rewrite A. reflexivity. Qed.
Lemma out_absent k (d : kwdict) : dget String.eqb k d = None -> ddel String.eqb k d = d.
Proof. induction d as [|[j v] d IH]; [reflexivity|]. cbn. destruct (String.eqb k j); [discriminate|]. intros H. f_equal. exact (IH H). Qed.
(** Popping with the default None removes the key. *)
Lemma r_drop c d k (w : kwdict) vs ds ds' r i u : dget String.eqb d ds = Some w -> dset String.eqb d (ddel String.eqb k w) ds = ds' -> (dset String.eqb d w ds = ds) ->
  step c (SDo (EPopOr d k ENone)) (MkState vs ds r i u) = Ret (None, MkState vs ds' r i u).
Proof.
  intros A B S. rewrite st_do, ev_popor, ev_none, then_ret. unfold get_dict. cbn [dicts]. rewrite A, then_ret.
  destruct (dget String.eqb k w) as [x|] eqn:E.
  - subst ds'. reflexivity.
  - rewrite then_ret. rewrite (out_absent k w E) in B. assert (X : ds' = ds) by (transitivity (dset String.eqb d w ds); [symmetry; exact B|exact S]). rewrite X. reflexivity.
Qed.
Ltac pair_go := first [eapply r_copy; [finds|puts] | eapply r_drop; [finds|puts|puts]].
Lemma std_runs c d i : exists q s, exec c g_StdMeanMatcher (st [] d None i false) = Ret (Some (Text q), s) /\
  render q = pair_of (call_of "paddle.std" (texts d)) (call_of "paddle.mean" (texts (ddel String.eqb "correction" (ddel String.eqb "unbiased" d)))).
Proof. eexists; eexists; split; [opened g_StdMeanMatcher; unfold st; do 4 (eapply r_seq; [pair_go|]); go|]. unfold pair_of. txo. Qed.
Lemma var_runs c d i : exists q s, exec c g_VarMeanMatcher (st [] d None i false) = Ret (Some (Text q), s) /\
  render q = pair_of (call_of "paddle.var" (texts d)) (call_of "paddle.mean" (texts (ddel String.eqb "correction" (ddel String.eqb "unbiased" d)))).
Proof. eexists; eexists; split; [opened g_VarMeanMatcher; unfold st; do 4 (eapply r_seq; [pair_go|]); go|]. unfold pair_of. txo. Qed.
Definition off (k : string) (d : kwdict) : bool := match dget String.eqb k d with Some r => String.eqb (render r) "(False)" | None => false end.
Lemma unpack_runs c d i x o : api_known c None x -> dget String.eqb "out" (changed c d) = Some o -> String.eqb (render o) "None" = false ->
  let d' := ddel String.eqb "out" (changed c d) in let empty := "paddle.paddle.to_tensor([])" in
  exists q s, exec c g_Lu_unpackMatcher (st [] d None i false) = Ret (Some (Text q), s) /\
    render q = lines ["out1, out2, out3 = " ++ call_of x (texts d');
      handed "" (render o) 0 [if off "unpack_pivots" (changed c d) then empty else "out1"; if off "unpack_ludata" (changed c d) then empty else "out2"; if off "unpack_ludata" (changed c d) then empty else "out3"]].
Proof.
  intros A O N. unfold api_known in A. cbv zeta. unfold off.
  destruct (dget String.eqb "unpack_pivots" (changed c d)) as [p|] eqn:P; [destruct (String.eqb (render p) "(False)") eqn:P'|];
  (destruct (dget String.eqb "unpack_ludata" (changed c d)) as [l|] eqn:L; [destruct (String.eqb (render l) "(False)") eqn:L'|]);
  unfold changed in *; (eexists; eexists; split; [opened g_Lu_unpackMatcher; unfold st; go|txo]).
Qed.
Lemma unpack_plain c d i x : api_known c None x -> (forall o, dget String.eqb "out" (changed c d) = Some o -> String.eqb (render o) "None" = true) ->
  exists q s, exec c g_Lu_unpackMatcher (st [] d None i false) = Ret (Some (Text q), s) /\ render q = call_of x (texts (ddel String.eqb "out" (changed c d))).
Proof.
  intros A O. unfold api_known in A. destruct (dget String.eqb "out" (changed c d)) as [o|] eqn:E.
  - specialize (O o eq_refl). unfold changed in *. eexists; eexists; split; [opened g_Lu_unpackMatcher; unfold st; go|txo].
  - rewrite (out_absent _ _ E). unfold changed in *. eexists; eexists; split; [opened g_Lu_unpackMatcher; unfold st; go|txo].
Qed.

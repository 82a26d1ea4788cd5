(** Facts for C147. *)
From Verif Require Import PyStr PyStrFacts PyDict PyDictFacts Ast Args ArgsFacts UtilsFile TablesData Generate GenerateData GenerateSym GenerateRel GenerateRows FlagSpec FlagFacts DatasetSpec DatasetFacts DatasetCalls OutSpec OutFacts LrSpec LrFacts AdamFacts PairFacts FlashSpec.
Opaque api_mapping generators g_GenericMatcher.

Lemma flash_runs c d i q s : exec c g_GenericMatcher (st [] d None i false) = Ret (Some (Text q), s) ->
  exists s1, exec c g_FAFlashAttnFuncMatcher (st [] d None i false) = Ret (Some (Text (q ++ lit "[0]")%list), s1).
Proof.
  intros Q. eexists. opened g_FAFlashAttnFuncMatcher. unfold st. eapply r_return. eapply r_cat; [eapply r_generate; [finds|exact Q]|apply r_lit].
Qed.
Definition renamed (c : ctx) (d : kwdict) : kwdict := change_rope (row_of c) [] d.
Lemma unpadded_given c d i x v : api_known c None x -> dget String.eqb "scale" (renamed c d) = Some v ->
  exists q s, exec c g_FAFlashAttnUnpaddedFuncMatcher (st [] d None i false) = Ret (Some (Text q), s) /\
    render q = lines [capable; call_of x (texts (renamed c d)) ++ "[0]"].
Proof.
  intros A V. unfold api_known in A. unfold renamed, capable in *. eexists; eexists; split; [opened g_FAFlashAttnUnpaddedFuncMatcher; unfold st; go|txo].
Qed.
Lemma unpadded_default c d i x y : api_known c None x -> dget String.eqb "scale" (renamed c d) = None -> dget String.eqb "query" (renamed c d) = Some y ->
  exists q s, exec c g_FAFlashAttnUnpaddedFuncMatcher (st [] d None i false) = Ret (Some (Text q), s) /\
    render q = lines ["import math"; capable; call_of x (texts (renamed c d) ++ [("scale", ("math.sqrt(" ++ render y ++ ".shape[-1])")%string)])%list ++ "[0]"].
Proof.
  intros A V Y. unfold api_known in A.
  assert (W : (texts (renamed c d) ++ [("scale", ("math.sqrt(" ++ render y ++ ".shape[-1])")%string)])%list =
     texts (dset String.eqb "scale" (MkPiece [] "math.sqrt(" :: y ++ [MkPiece [] ".shape[-1])"])%list (renamed c d))).
  { rewrite (dset_fresh _ String.eqb_spec) by exact V. unfold texts. rewrite map_app. cbn [map fst snd]. do 3 f_equal. txo. }
  rewrite W. unfold renamed, capable in *. eexists; eexists; split; [opened g_FAFlashAttnUnpaddedFuncMatcher; unfold st; go|txo].
Qed.

(** Facts for C148. *)
From Verif Require Import PyStr PyStrFacts PyDict PyDictFacts Ast Args ArgsFacts UtilsFile TablesData Generate GenerateData GenerateSym GenerateRel GenerateRows GenericBridge FlagSpec FlagFacts DatasetSpec DatasetFacts DatasetCalls OutSpec OutFacts LrSpec LrFacts AdamFacts PairFacts PoolSpec.
Opaque api_mapping generators g_GenericMatcher.

(** Renaming into a new dictionary is renaming as a row does. *)
Lemma rename_change e ren d : kwargs_change e = renaming_of ren -> (forall p, In p ren -> snd p <> "") -> rename_into ren [] d = change_rope e [] d.
Proof.
  intros C E. unfold rename_into, change_rope.
  match goal with |- fold_left ?f d ?z = fold_left ?g d _ => enough (H : forall d acc, fold_left f d acc = fold_left g d acc) by apply H end. clear d.
  induction d as [|[k v] d IH]; intros acc; [reflexivity|]. cbn [fold_left fst snd]. rewrite <- IH. f_equal.
  assert (Q : change_names e k = match dget String.eqb k ren with Some n => Some [n] | None => None end).
  { unfold change_names. rewrite C. unfold renaming_of. clear -E. induction ren as [|[a b] ren IH]; [reflexivity|].
    cbn [map dget fst snd]. destruct (String.eqb_spec k a) as [->|A].
    - destruct (String.eqb_spec b "") as [B|B]; [exfalso; exact (E (a, b) (or_introl eq_refl) B)|reflexivity].
    - apply IH. intros p I. apply E. right. exact I. }
  rewrite Q. unfold rename_key. destruct (dget String.eqb k ren); reflexivity.
Qed.
Lemma rename_texts ren d : (forall p, In p ren -> snd p <> "") -> NoDup (map snd ren) -> NoDup (dkeys d) ->
  (forall p, In p ren -> ~ In (snd p) (dkeys d)) -> renamed_as ren (texts d) (texts (rename_into ren [] d)).
Proof.
  intros E N K F. rewrite (rename_change (MkEntry [] [] 0 [] (renaming_of ren) [] None) ren d eq_refl E). apply renamed_texts; [reflexivity|exact E|exact N|exact K|exact F].
Qed.
(** Nothing to rename. *)
Lemma renamed_same ren m l l' : renamed_as ren m l -> renamed_as [] l l' -> renamed_as ren m l'.
Proof.
  intros [_ A] [N B]. split; [exact N|]. intros k v. rewrite B. split.
  - intros (j & I & ->). apply A. exact I.
  - intros I. exists k. split; [apply A; exact I|reflexivity].
Qed.
Lemma r_rename c d e ren v w vs ds ds1 ds' r i u : dget String.eqb d ds = Some v -> dget String.eqb e ds = Some w -> dset String.eqb d (rename_into ren v w) ds = ds1 -> dset String.eqb e [] ds1 = ds' ->
  step c (SRename d e ren) (MkState vs ds r i u) = Ret (None, MkState vs ds' r i u).
Proof.
  intros A B <- <-. change (step c (SRename d e ren) (MkState vs ds r i u)) with
    (run* v := get_dict d (MkState vs ds r i u) in run* w := get_dict e (MkState vs ds r i u) in Ret (@None value, upd_dict e [] (upd_dict d (rename_into ren v w) (MkState vs ds r i u)))).
  unfold get_dict. cbn [dicts]. rewrite A, then_ret, B, then_ret. reflexivity.
Qed.
(** The arguments with the sizes in place of the ratio. *)
Definition sized (f : rope -> rope -> rope) (d : kwdict) : kwdict :=
  match dget String.eqb "output_ratio" d, dget String.eqb "input" d with
  | Some r, Some x => ddel String.eqb "output_ratio" (dset String.eqb "output_size" (f x r) d)
  | _, _ => d
  end.
Definition rope_2d (x r : rope) : rope :=
  (MkPiece [] "[int(paddle.shape(" :: x ++ MkPiece [] ")[-2] * " :: r ++ MkPiece [] "[0]),int(paddle.shape(" :: x ++ MkPiece [] ")[-1] * " :: r ++ [MkPiece [] "[1])]"])%list.
Definition rope_3d (x r : rope) : rope :=
  (MkPiece [] "[int(paddle.shape(" :: x ++ MkPiece [] ")[-3] * " :: r ++ MkPiece [] "[0]), int(paddle.shape(" :: x ++ MkPiece [] ")[-2] * " :: r ++ MkPiece [] "[1]),int(paddle.shape(" :: x ++ MkPiece [] ")[-1] * " :: r ++ [MkPiece [] "[2])]"])%list.
Lemma rope_2d_text x r : render (rope_2d x r) = sizes_2d (render x) (render r).
Proof. unfold rope_2d, sizes_2d. txo. Qed.
Lemma rope_3d_text x r : render (rope_3d x r) = sizes_3d (render x) (render r).
Proof. unfold rope_3d, sizes_3d. txo. Qed.
Ltac pool_go g Q := opened g; unfold st; eapply r_seq; [go|];
  eapply r_seq; [first [eapply r_choose_yes; [go|]; eapply r_seq; [go|]; eapply r_seq; [eapply r_do; go|]; go | go]|];
  eapply r_seq; [eapply r_rename; [finds|finds|puts|puts]|]; last_call Q.
Lemma pool2_runs c d i q s : dget String.eqb "input" d <> None ->
  exec c g_GenericMatcher (st [] (rename_into pool_names [] (sized rope_2d d)) None i false) = Ret (Some (Text q), s) ->
  exists s1, exec c g_Fractional_Max_pool2dMatcher (st [] d None i false) = Ret (Some (Text q), s1).
Proof.
  unfold sized. destruct (dget String.eqb "input" d) as [x|] eqn:X; [intros _|intros N; destruct (N eq_refl)].
  destruct (dget String.eqb "output_ratio" d) as [r|] eqn:R; intros Q; eexists; unfold rope_2d in Q; pool_go g_Fractional_Max_pool2dMatcher Q.
Qed.
Lemma pool3_runs c d i q s : dget String.eqb "input" d <> None ->
  exec c g_GenericMatcher (st [] (rename_into pool_names [] (sized rope_3d d)) None i false) = Ret (Some (Text q), s) ->
  exists s1, exec c g_Fractional_Max_pool3dMatcher (st [] d None i false) = Ret (Some (Text q), s1).
Proof.
  unfold sized. destruct (dget String.eqb "input" d) as [x|] eqn:X; [intros _|intros N; destruct (N eq_refl)].
  destruct (dget String.eqb "output_ratio" d) as [r|] eqn:R; intros Q; eexists; unfold rope_3d in Q; pool_go g_Fractional_Max_pool3dMatcher Q.
Qed.

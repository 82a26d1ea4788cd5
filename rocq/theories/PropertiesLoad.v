(** C154: loading a file. *)
From Coq Require Import Lia.
From Verif Require Import PyStr PyStrFacts PyDict PyDictFacts Ast Args ArgsFacts UtilsFile TablesData Generate GenerateData GenerateRel GenerateRows GenericBridge FlagSpec FlagFacts DatasetSpec DatasetFacts DatasetCalls OutSpec OutFacts LrSpec LrFacts PropertiesLr AdamFacts LoadSpec.
Opaque api_mapping generators.

Definition load_change : list (string * target) := [("f", TName "path"); ("map_location", TNone); ("pickle_module", TNone); ("weights_only", TNone); ("pickle_load_args", TNone)].
Lemma load_left e p d : kwargs_change e = load_change -> (forall k, In k (dkeys d) -> In k load_ignored) ->
  change_rope e generic_unused (dset String.eqb "path" p d) = [("path", p)].
Proof.
  intros C K. unfold change_rope. match goal with |- fold_left ?f _ [] = _ => set (F := f) end.
  assert (P : forall acc, F acc ("path", p) = dset String.eqb "path" p acc) by (intros acc; unfold F, change_names; rewrite C; reflexivity).
  enough (H : forall d, (forall k, In k (dkeys d) -> In k load_ignored) -> forall acc, fold_left F (dset String.eqb "path" p d) acc = dset String.eqb "path" p acc) by (rewrite (H d K); reflexivity).
  clear d K. induction d as [|[k v] d IH]; intros K acc; [apply P|].
  assert (I : In k load_ignored) by (apply K; left; reflexivity).
  assert (Q : F acc (k, v) = acc) by (unfold load_ignored in I; cbn [In] in I; decompose [or] I; subst; try contradiction; unfold F, change_names; rewrite C; reflexivity).
  assert (N : String.eqb "path" k = false) by (unfold load_ignored in I; cbn [In] in I; decompose [or] I; subst; try contradiction; reflexivity).
  cbn [dset]. rewrite N. cbn [fold_left]. rewrite Q. apply IH. intros j J. apply K. right. exact J.
Qed.
Lemma load_runs c d i f q s : dget String.eqb "f" d = Some f ->
  exec c g_GenericMatcher (st [] (dset String.eqb "path" (MkPiece [] "str(" :: f ++ [MkPiece [] ")"])%list (ddel String.eqb "f" d)) None i false) = Ret (Some (Text q), s) ->
  exists s1, exec c g_LoadMatcher (st [] d None i false) = Ret (Some (Text q), s1).
Proof. intros G Q. eexists. opened g_LoadMatcher. unfold st. eapply r_seq; [go|]. last_call Q. Qed.
Theorem C154_load :
  forall args kwargs t x i,
    reads_as "torch.load" args kwargs t -> passes t "f" x -> (forall k v, In (k, v) t -> exists n, k = Some n /\ In n ("f" :: load_ignored)) ->
    exists q u, answer "torch.load" None args kwargs i = Some (Ret (Converted q u)) /\ render q = load_code x.
Proof.
  intros args kwargs t x i R X K. assert (S : forall v, ~ In (None, v) t) by (intros v J; apply K in J as (n & J & _); discriminate).
  assert (J : exists s r, find (fun r => String.eqb (r_name r) "torch.load") api_mapping = Some r /\ generator r = Some (s, g_LoadMatcher) /\
    paddle_api (r_entry r) = Some "paddle.load" /\ kwargs_change (r_entry r) = load_change /\ paddle_default_kwargs (r_entry r) = []) by (row_found; repeat split; reflexivity).
  destruct J as (s & r & Fr & G & A & C & D). pose proof (keys_once _ args kwargs t R S) as N. pose proof (made_start t N S) as M.
  destruct (answer_call _ r s _ args kwargs t i Fr G R) as (c & E & Q & H).
  pose proof (got _ args kwargs t R "f" x ltac:(discriminate) X) as F.
  set (p := (MkPiece [] "str(" :: [MkPiece [Argument "f"] x] ++ [MkPiece [] ")"])%list).
  assert (L : settled c (dset String.eqb "path" p (ddel String.eqb "f" (start t))) = [("path", p)]).
  { unfold settled, default_ropes. rewrite E, D. cbn [map add_missing fold_left]. unfold add_missing. cbn [fold_left]. apply load_left; [exact C|].
    intros k I. assert (Y : k <> "f") by (intros ->; apply (get_out "f" (start t)), (dget_none_iff _ String.eqb_spec) in N; exact (N I)).
    apply (ddel_keys_sub _ String.eqb_spec) in I. rewrite <- texts_keys in I. apply in_map_iff in I as ([a w] & B & I). cbn in B. subst a. destruct M as [_ M]. apply M in I as [[]|(_ & _ & I)].
    apply K in I as (n & B & I). injection B as <-. destruct I as [I|I]; [congruence|exact I]. }
  destruct (generic_call c (dset String.eqb "path" p (ddel String.eqb "f" (start t))) i false _ (Q _ A)) as (q & s1 & V & T); try (rewrite L; reflexivity).
  destruct (load_runs c (start t) i _ q s1 F V) as (s2 & W). rewrite L in T.
  assert (T2 : render q = load_code x) by (rewrite T; unfold load_code; f_equal; unfold p; txo).
  exists q, (utils s2). split; [apply H; [exact W|rewrite T; apply call_bracket]|exact T2].
Qed.
Print Assumptions C154_load.
(** So an object that is not a path is replaced by its description: the new code never reads from it. *)
Theorem C154_object_refuted :
  forall args kwargs t x i,
    reads_as "torch.load" args kwargs t -> passes t "f" x -> (forall k v, In (k, v) t -> exists n, k = Some n /\ In n ("f" :: load_ignored)) ->
    exists q u, answer "torch.load" None args kwargs i = Some (Ret (Converted q u)) /\ render q <> call_of "paddle.load" [("path", x)].
Proof.
  intros args kwargs t x i R X K. destruct (C154_load args kwargs t x i R X K) as (q & u & A & B). exists q, u. split; [exact A|]. rewrite B. unfold load_code, call_of.
  intros H. apply (f_equal String.length) in H. rewrite !length_app_s in H. cbn in H. rewrite ?length_app_s in H. cbn in H. lia.
Qed.
Print Assumptions C154_object_refuted.
Transparent api_mapping generators.
Example C154_nonvacuous :
  exists t, reads_as "torch.load" [MkExpr false false "f"; MkExpr false false "m"] [MkKw (Some "weights_only") (MkExpr false false "True")] t /\ passes t "f" "f" /\
    (forall k v, In (k, v) t -> exists n, k = Some n /\ In n ("f" :: load_ignored)).
Proof.
  eexists. split; [eexists; split; vm_compute; reflexivity|]. split; [there|]. unfold load_ignored. intros k v J. cbn [In] in J. decompose [or] J; try contradiction; match goal with H : (_, _) = (_, _) |- _ => injection H as <- <- end; eexists; split; try reflexivity; cbn [In]; tauto.
Qed.

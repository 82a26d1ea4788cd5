(** Facts for C145. *)
From Verif Require Import PyStr PyStrFacts PyDict PyDictFacts Ast Args ArgsFacts UtilsFile TablesData Generate GenerateData GenerateSym GenerateRel GenerateRows FlagSpec FlagFacts DatasetSpec DatasetFacts DatasetCalls OutSpec OutFacts LrSpec LrFacts AdamFacts PairFacts VggSpec.
Opaque api_mapping generators g_GenericMatcher.

Definition asked (d : kwdict) : bool := match dget String.eqb "weights" d with Some w => negb (String.eqb (render w) "") && negb (String.eqb (render w) "None") | None => false end.
(** The arguments that the general rule gets. *)
Definition vgg_args (bn : bool) (d : kwdict) : kwdict :=
  let d' := ddel String.eqb "weights" d in
  dset String.eqb "batch_norm" (show (Bool bn)) (if asked d then dset String.eqb "pretrained" (show (Bool true)) d' else d').
Lemma r_popor_val c d k (w : kwdict) vs ds ds' r i u : dget String.eqb d ds = Some w -> dset String.eqb d (ddel String.eqb k w) ds = ds' -> (dset String.eqb d w ds = ds) ->
  eval c (EPopOr d k ENone) (MkState vs ds r i u) = Ret (match dget String.eqb k w with Some x => Text x | None => NoneV end, MkState vs ds' r i u).
Proof.
  intros A B S. rewrite ev_popor, ev_none, then_ret. unfold get_dict. cbn [dicts]. rewrite A, then_ret.
  destruct (dget String.eqb k w) as [x|] eqn:E; [subst ds'; reflexivity|]. rewrite (out_absent k w E) in B. assert (X : ds' = ds) by (transitivity (dset String.eqb d w ds); [symmetry; exact B|exact S]). rewrite X. reflexivity.
Qed.
Lemma vgg_runs c d i q s : 
  exec c g_GenericMatcher (st [] (vgg_args (contains "bn" (torch_api c)) d) None i false) = Ret (Some (Text q), s) ->
  exists s1, exec c g_VGGMatcher (st [] d None i false) = Ret (Some (Text q), s1).
Proof.
  intros Q. eexists. opened g_VGGMatcher. unfold st.
  eapply r_seq; [eapply r_let; [eapply r_popor_val; [finds|puts|puts]|puts]|].
  eapply r_seq.
  { assert (X : forall vs ds (o : outcome (option value * state)) s, s = MkState vs ds None i false -> o = Ret (None, MkState vs ds None i false) -> o = Ret (None, s)) by (intros vs ds o s0 -> H; exact H).
    eapply X with (vs := [("weights", match dget String.eqb "weights" d with Some x => Text x | None => NoneV end)]) (ds := [("kwargs", if asked d then dset String.eqb "pretrained" (show (Bool true)) (ddel String.eqb "weights" d) else ddel String.eqb "weights" d)]); [reflexivity|]. clear X.
    unfold asked. destruct (dget String.eqb "weights" d) as [w|].
    - destruct (String.eqb (render w) "") eqn:E; [|destruct (String.eqb (render w) "None") eqn:N]; cbn [negb andb].
      + rewrite st_if, ev_and. rewrite (r_var _ _ _ _ _ _ "weights" (Text w)) by finds. rewrite then_ret. cbn [truth]. rewrite E. cbn [negb]. rewrite then_ret. cbn [truth]. rewrite E. reflexivity.
      + eapply r_choose_no; [|apply r_done]. rewrite ev_and. rewrite (r_var _ _ _ _ _ _ "weights" (Text w)) by finds. rewrite then_ret. cbn [truth]. rewrite E. cbn [negb]. apply r_not_no. eapply r_test; [go|exact N].
      + eapply r_choose_yes; [rewrite ev_and; rewrite (r_var _ _ _ _ _ _ "weights" (Text w)) by finds; rewrite then_ret; cbn [truth]; rewrite E; cbn [negb]; apply r_not_yes; eapply r_test; [go|exact N]|]. go.
    - rewrite st_if, ev_and. rewrite (r_var _ _ _ _ _ _ "weights" NoneV) by finds. reflexivity. }
  eapply r_seq; [eapply r_set; [eapply r_test; [reflexivity|reflexivity]|finds|reflexivity|puts]|]. unfold lit. rewrite render_one.
  last_call Q.
Qed.
(** An argument without a name in Paddle is dropped. *)
Lemma gone_change e k d : kwargs_change e = [(k, TNone)] -> NoDup (dkeys d) -> change_rope e [] d = ddel String.eqb k d.
Proof.
  intros C. unfold change_rope.
  assert (W : forall j, change_names e j = if String.eqb j k then Some [] else None) by (intros j; unfold change_names; rewrite C; cbn [dget]; destruct (String.eqb j k); reflexivity).
  match goal with |- _ -> fold_left ?f d [] = _ => enough (H : forall d acc, NoDup (dkeys d) -> (forall j, In j (dkeys d) -> dget String.eqb j acc = None) -> fold_left f d acc = (acc ++ ddel String.eqb k d)%list) by (intros N; apply (H d []); [exact N|intros; reflexivity]) end.
  clear d. induction d as [|[j v] d IH]; intros acc N F; [cbn; rewrite app_nil_r; reflexivity|].
  cbn [dkeys map fst] in N. inversion_clear N as [|? ? N1 N2]. cbn [fold_left fst snd]. rewrite (W j).
  assert (F' : forall a, In a (dkeys d) -> dget String.eqb a acc = None) by (intros a I; apply F; right; exact I).
  destruct (String.eqb_spec j k) as [->|D].
  - cbn [fold_left]. cbn [ddel]. rewrite String.eqb_refl. rewrite IH by assumption. f_equal. apply out_absent. apply (dget_none_iff _ String.eqb_spec). exact N1.
  - cbn [mem_str existsb]. rewrite (dset_fresh _ String.eqb_spec) by (apply F; left; reflexivity). rewrite IH; [|exact N2|].
    + rewrite <- app_assoc. f_equal. cbn [ddel]. destruct (String.eqb_spec k j) as [->|_]; [contradiction|]. reflexivity.
    + intros a I. assert (A : a <> j) by (intros ->; exact (N1 I)). rewrite <- (dset_fresh _ String.eqb_spec) by (apply F; left; reflexivity). rewrite (dget_set_other _ String.eqb_spec) by congruence. exact (F' a I).
Qed.
(** The context of a plain call. *)
Lemma answer_plain n r strictly b args kwargs t i :
  find (fun r => String.eqb (r_name r) n) api_mapping = Some r -> generator r = Some (strictly, b) ->
  reads_as n args kwargs t ->
  exists c, row_of c = r_entry r /\ torch_api c = n /\ (forall x, paddle_api (r_entry r) = Some x -> api_known c None x) /\
  forall q s, exec c b (st [] (start t) None i false) = Ret (Some (Text q), s) -> mem_char "(" (render q) = true ->
    answer n None args kwargs i = Some (Ret (Converted q (utils s))).
Proof.
  intros F G R. exists (context_of r strictly None). split; [reflexivity|]. split; [pose proof (find_some _ _ F) as [_ E]; apply String.eqb_eq in E; exact E|]. split.
  { intros x P vs ds i' u. unfold get_paddle_api, context_of. cbn [strict row_of self_api]. rewrite P, Bool.andb_false_r. reflexivity. }
  intros q s E T.
  destruct R as (r' & F' & R). rewrite F in F'. injection F' as <-. unfold answer. rewrite F, G. unfold paddle_nodes. rewrite R. cbn [fst snd].
  rewrite generate_ends. unfold initial_api. cbn [receiver context_of].
  rewrite E. unfold ends, finish. rewrite then_ret.
  destruct (String.eqb_spec (render q) "misidentify") as [X|_]; [rewrite X in T; discriminate|].
  destruct (String.eqb_spec (render q) "unchange") as [X|_]; [rewrite X in T; discriminate|].
  destruct (String.eqb_spec (render q) "") as [X|_]; [rewrite X in T; discriminate|]. reflexivity.
Qed.

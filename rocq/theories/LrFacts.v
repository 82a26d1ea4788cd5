(** Facts for C141. *)
From Verif Require Import PyStr PyStrFacts PyDict PyDictFacts Ast Args ArgsFacts UtilsFile TablesData Generate GenerateData GenerateSym GenerateRel GenerateRows FlagSpec FlagFacts DatasetSpec DatasetFacts DatasetCalls OutSpec OutFacts LrSpec.
Opaque api_mapping generators g_GenericMatcher.

Lemma r_generate c b d w vs ds r i u v s : dget String.eqb d ds = Some w ->
  exec c b (MkState [] [("kwargs", w)] r i u) = Ret (Some v, s) ->
  eval c (EGenerate b d) (MkState vs ds r i u) = Ret (v, MkState vs ds (self_api s) (counters s) (utils s)).
Proof. intros A B. rewrite ev_generate. unfold get_dict. cbn [dicts]. rewrite A, then_ret. cbn [self_api counters utils]. rewrite B. reflexivity. Qed.
Lemma r_seq_fail c t r s e : step c t s = Fail e -> exec c (Seq t r) s = Fail e.
Proof. intros A. rewrite ex_seq, A. reflexivity. Qed.
Lemma r_let_fail c x e s k : eval c e s = Fail k -> step c (SLet x e) s = Fail k.
Proof. intros A. rewrite st_let, A. reflexivity. Qed.
Lemma r_get_fail c d k (w : kwdict) vs (ds : dict string kwdict) r i u : dget String.eqb d ds = Some w -> dget String.eqb k w = None -> eval c (EGet d k) (MkState vs ds r i u) = Fail "KeyError".
Proof. intros A B. rewrite ev_get. unfold get_dict. cbn [dicts]. rewrite A, then_ret, B. reflexivity. Qed.

(** Renaming. *)
Definition renaming_of (ren : list (string * string)) : dict string target := map (fun p => (fst p, TName (snd p))) ren.
Lemma renamed_texts e ren d : kwargs_change e = renaming_of ren -> (forall p, In p ren -> snd p <> "") -> NoDup (map snd ren) -> NoDup (dkeys d) ->
  (forall p, In p ren -> ~ In (snd p) (dkeys d)) -> renamed_as ren (texts d) (texts (change_rope e [] d)).
Proof.
  intros C E N K F.
  assert (O : forall k, outputs e [] k = [called ren k]).
  { intros k. unfold outputs, change_names, called. rewrite C. unfold renaming_of. clear -E. induction ren as [|[a b] ren IH]; [reflexivity|].
    cbn [map dget fst snd]. destruct (String.eqb_spec k a) as [->|A].
    - destruct (String.eqb_spec b "") as [B|B]; [exfalso; exact (E (a, b) (or_introl eq_refl) B)|reflexivity].
    - apply IH. intros p I. apply E. right. exact I. }
  assert (L : forall k, claims e [] k = [called ren k]). { intros k. rewrite <- O. unfold claims, outputs. destruct (change_names e k); reflexivity. }
  assert (J : forall x y, In x (dkeys d) -> In y (dkeys d) -> called ren x = called ren y -> x = y).
  { intros x y I1 I2 Q. unfold called in Q.
    destruct (dget String.eqb x ren) as [a|] eqn:A, (dget String.eqb y ren) as [b|] eqn:B.
    - subst b. apply (dget_some_in _ String.eqb_spec) in A, B. clear -N A B. induction ren as [|[p q] ren IH]; [destruct A|].
      cbn [map snd] in N. inversion_clear N as [|? ? N1 N2]. destruct A as [A|A], B as [B|B].
      + congruence.
      + exfalso. apply N1. injection A as -> ->. apply in_map_iff. exists (y, a). split; [reflexivity|exact B].
      + exfalso. apply N1. injection B as -> ->. apply in_map_iff. exists (x, a). split; [reflexivity|exact A].
      + exact (IH N2 A B).
    - subst a. exfalso. apply (dget_some_in _ String.eqb_spec) in A. exact (F _ A I2).
    - subst b. exfalso. apply (dget_some_in _ String.eqb_spec) in B. exact (F _ B I1).
    - exact Q. }
  split; [rewrite texts_keys; apply change_nodup|]. intros k v. rewrite in_texts by apply change_nodup.
  assert (G : forall r, dget String.eqb k (change_rope e [] d) = Some r <-> exists j, dget String.eqb j d = Some r /\ In k (outputs e [] j)).
  { intros r. apply (change_get (fun _ _ => True)); [exact K|]. intros x y I1 I2 A B. rewrite L in A, B. destruct A as [A|[]], B as [B|[]]. apply J; [exact I1|exact I2|congruence]. }
  split.
  - intros (r & D & <-). apply G in D as (j & D & Q). rewrite O in Q. destruct Q as [<-|[]]. exists j. split; [|reflexivity]. apply in_texts; [exact K|]. exists r. split; [exact D|reflexivity].
  - intros (j & I & ->). apply in_texts in I as (r & I & <-); [|exact K]. exists r. split; [|reflexivity]. apply G. exists j. split; [exact I|]. rewrite O. left. reflexivity.
Qed.
Lemma renamed_out ren d l k : (forall j, In j (dkeys d) -> called ren j = k <-> j = k) -> NoDup (dkeys d) -> NoDup (dkeys l) ->
  renamed_as ren (texts d) (texts l) -> renamed_as ren (texts (ddel String.eqb k d)) (texts (ddel String.eqb k l)).
Proof.
  intros C Nd Nl [N M]. split; [rewrite texts_keys; apply out_nodup; exact Nl|]. intros a v. rewrite member_out by exact Nl. rewrite M. split.
  - intros [A (j & I & ->)]. exists j. split; [|reflexivity]. apply member_out; [exact Nd|]. split; [|exact I]. intros ->. apply A. apply C; [|reflexivity].
    rewrite <- texts_keys. apply in_map_iff. exists (k, v). split; [reflexivity|exact I].
  - intros (j & I & ->). apply member_out in I as [A I]; [|exact Nd]. split; [|exists j; split; [exact I|reflexivity]]. intros Q. apply A. apply C; [|exact Q].
    rewrite <- texts_keys. apply in_map_iff. exists (j, v). split; [reflexivity|exact I].
Qed.
Lemma filled_texts k a d : filled k a (texts d) (texts (add_missing d [(k, lit a)])).
Proof.
  unfold filled. cbn [add_missing fold_left fst snd]. rewrite texts_keys. unfold dmem. destruct (dget String.eqb k d) as [r|] eqn:E.
  - left. split; [|reflexivity]. apply in_map_iff. exists (k, r). split; [reflexivity|apply (dget_some_in _ String.eqb_spec); exact E].
  - right. split; [apply (dget_none_iff _ String.eqb_spec); exact E|]. rewrite (dset_fresh _ String.eqb_spec) by exact E. unfold texts. rewrite map_app. cbn [map fst snd]. unfold lit. rewrite render_one. reflexivity.
Qed.
Lemma out_missing k j a (d : kwdict) : k <> j -> ddel String.eqb k (add_missing d [(j, lit a)]) = add_missing (ddel String.eqb k d) [(j, lit a)].
Proof.
  intros K. cbn [add_missing fold_left fst snd]. unfold dmem. rewrite (ddel_get_other _ String.eqb_spec) by congruence.
  destruct (dget String.eqb j d) as [r|] eqn:E; [reflexivity|].
  rewrite (dset_fresh _ String.eqb_spec) by exact E. rewrite (dset_fresh _ String.eqb_spec) by (rewrite (ddel_get_other _ String.eqb_spec) by congruence; exact E).
  clear E. induction d as [|[x y] d IH]; cbn.
  - destruct (String.eqb_spec k j) as [Q|_]; [exfalso; exact (K Q)|reflexivity].
  - destruct (String.eqb k x); [reflexivity|]. cbn. f_equal. exact IH.
Qed.

(** The programs. *)
Definition changed (c : ctx) (d : kwdict) : kwdict := add_missing (change_rope (row_of c) [] d) (default_ropes (row_of c)).
Definition attaches (c : ctx) (g : block) (x : string) (d d' : kwdict) (i : ids) (o : rope) : Prop :=
  exists q s, exec c g (st [] d None i false) = Ret (Some (Text q), s) /\
    render q = attached (render o) (call_of x (texts (ddel String.eqb "optimizer" (changed c d')))).
Lemma plain_runs c d i x o : api_known c None x -> dget String.eqb "optimizer" (changed c d) = Some o -> attaches c g_LRSchedulerMatcher x d d i o.
Proof.
  unfold changed, attaches, attached. intros A O. unfold api_known in A. eexists; eexists; split; [opened g_LRSchedulerMatcher; unfold st; go|]. txo.
Qed.
Ltac last_call H := eapply r_return; eapply r_generate; [finds|exact H].
Lemma rate_runs c d i x o o' p : api_known c None x -> dget String.eqb "optimizer" d = Some o ->
  p = (MkPiece [] "" :: o ++ [MkPiece [] ".get_lr()"])%list ->
  dget String.eqb "optimizer" (changed c (dset String.eqb "learning_rate" p d)) = Some o' ->
  attaches c g_Optim2LrSchedulerMatcher x d (dset String.eqb "learning_rate" p d) i o'.
Proof.
  intros A G -> O. destruct (plain_runs c _ i x o' A O) as (q & s & E & T). exists q. eexists. split; [|exact T].
  opened g_Optim2LrSchedulerMatcher. unfold st. do 2 (eapply r_seq; [go|]). last_call E.
Qed.
Lemma constant_runs c d i x o o' vals n : api_known c None x -> dget String.eqb "optimizer" d = Some o ->
  forall d1 d2,
  match dget String.eqb "factor" d with
  | Some f => vals = (MkPiece [] "[" :: f ++ MkPiece [] "*" :: o ++ MkPiece [] ".get_lr(), " :: o ++ [MkPiece [] ".get_lr()]"])%list /\ d1 = ddel String.eqb "factor" d
  | None => vals = (MkPiece [] "[" :: o ++ MkPiece [] ".get_lr()/3, " :: o ++ [MkPiece [] ".get_lr()]"])%list /\ d1 = d
  end ->
  match dget String.eqb "total_iters" d with
  | Some k => n = (MkPiece [] "[" :: k ++ [MkPiece [] "]"])%list /\ d2 = ddel String.eqb "total_iters" (dset String.eqb "values" vals d1)
  | None => n = (MkPiece [] "[" :: lit "5" ++ [MkPiece [] "]"])%list /\ d2 = dset String.eqb "values" vals d1
  end ->
  dget String.eqb "optimizer" (changed c (dset String.eqb "boundaries" n d2)) = Some o' ->
  attaches c g_ConstantLRMatcher x d (dset String.eqb "boundaries" n d2) i o'.
Proof.
  intros A G d1 d2.
  destruct (dget String.eqb "factor" d) as [f|] eqn:F; intros [-> ->]; (destruct (dget String.eqb "total_iters" d) as [k|] eqn:T; intros [-> ->] O);
  (destruct (plain_runs c _ i x o' A O) as (q & s & E & Y); exists q; eexists; split; [|exact Y];
   opened g_ConstantLRMatcher; unfold st; do 5 (eapply r_seq; [go|]); last_call E).
Qed.
Lemma one_cycle_runs c d i x o : api_known c None x -> 
  forall d1 d2,
  (exists n, dget String.eqb "total_steps" d = Some n /\ contains "None" (render n) = false /\ d1 = d) \/
  ((forall n, dget String.eqb "total_steps" d = Some n -> contains "None" (render n) = true) /\
   exists s e, dget String.eqb "steps_per_epoch" d = Some s /\ dget String.eqb "epochs" d = Some e /\
     d1 = dset String.eqb "total_steps" (MkPiece [] "(" :: s ++ MkPiece [] ")*(" :: e ++ [MkPiece [] ")"])%list (ddel String.eqb "epochs" (ddel String.eqb "steps_per_epoch" d))) ->
  (dget String.eqb "final_div_factor" d = None /\ d2 = d1) \/
  (exists f m v, dget String.eqb "final_div_factor" d = Some f /\ dget String.eqb "max_lr" d = Some m /\ dget String.eqb "div_factor" d = Some v /\
     d2 = dset String.eqb "end_learning_rate" (MkPiece [] "(" :: m ++ MkPiece [] ") * 1. /((" :: v ++ MkPiece [] ") * " :: f ++ [MkPiece [] ")"])%list (ddel String.eqb "final_div_factor" d1)) ->
  dget String.eqb "optimizer" (changed c d2) = Some o ->
  attaches c g_OneCycleLRMatcher x d d2 i o.
Proof.
  intros A d1 d2 [(n & N & B & ->)|(N & s0 & e & S & E & ->)];
   [|destruct (dget String.eqb "total_steps" d) as [n|] eqn:T; [specialize (N n eq_refl)|]];
   (intros [[F ->]|(f & m & v & F & M & V & ->)] O;
    (destruct (plain_runs c _ i x o A O) as (q & s & Q & Y); exists q; eexists; split; [|exact Y];
     opened g_OneCycleLRMatcher; unfold st; do 2 (eapply r_seq; [go|]); last_call Q)).
Qed.
Lemma one_cycle_fails c d i f n : dget String.eqb "total_steps" d = Some n -> contains "None" (render n) = false ->
  dget String.eqb "final_div_factor" d = Some f -> dget String.eqb "div_factor" d = None -> exec c g_OneCycleLRMatcher (st [] d None i false) = Fail "KeyError".
Proof.
  intros N B F V. opened g_OneCycleLRMatcher. unfold st. eapply r_seq; [go|]. eapply r_seq_fail. eapply r_choose_yes; [go|].
  eapply r_seq; [go|]. destruct (dget String.eqb "max_lr" d) as [m|] eqn:M.
  - eapply r_seq; [go|]. eapply r_seq_fail, r_let_fail, r_get_fail; finds.
  - eapply r_seq_fail, r_let_fail, r_get_fail; finds.
Qed.

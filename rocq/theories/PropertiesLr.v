(** C141: schedulers of learning rates. *)
From Verif Require Import PyStr PyStrFacts PyDict PyDictFacts Ast Args ArgsFacts UtilsFile TablesData Generate GenerateData GenerateRel GenerateRows PropertiesGenerate FlagSpec FlagFacts DatasetSpec DatasetFacts DatasetCalls OutSpec OutFacts LrSpec LrFacts.
Opaque api_mapping generators.

Ltac row_found := eexists; eexists; split; [vm_compute; reflexivity|split; [vm_compute; reflexivity|]].
Ltac made_it := match goal with |- made_of ?l ?t _ _ => eassert (M : made_of l t _ _) by made; exact M end.
Lemma made_absent l t dropped new k : made_of l t dropped new -> (forall v, ~ In (Some k, v) t) -> made_of l t (k :: dropped) new.
Proof.
  intros [N M] A. split; [exact N|]. intros j v. rewrite M. split; (intros [H|(D & W & I)]; [left; exact H|right; split; [|split; [exact W|exact I]]]).
  - intros [<-|H]; [exact (A _ I)|exact (D H)].
  - intros H. apply D. right. exact H.
Qed.
Lemma made_fresh d t dropped new names : made_of (texts d) t dropped new -> free_of t names -> (forall k, In k names -> ~ In k (map fst new)) -> forall k, In k names -> ~ In k (dkeys d).
Proof.
  intros [N M] F W k I J. rewrite <- texts_keys in J. apply in_map_iff in J as ([a v] & E & J). cbn in E. subst a. apply M in J as [J|(_ & _ & J)].
  - apply (W k I). apply in_map_iff. exists (k, v). split; [reflexivity|exact J].
  - exact (F k v I J).
Qed.
(** What the scheduler is called with, for a dictionary that consists of known parts. *)
Lemma closing c e ren d t dropped new o :
  row_of c = e -> kwargs_change e = renaming_of ren -> (forall p, In p ren -> snd p <> "") -> NoDup (map snd ren) ->
  made_of (texts d) t dropped new -> ~ In "optimizer" dropped -> ~ In "optimizer" (map fst new) -> passes t "optimizer" o ->
  free_of t (map snd ren) -> (forall k, In k (map snd ren) -> ~ In k (map fst new)) -> ~ In "optimizer" (map fst ren) -> ~ In "optimizer" (map snd ren) ->
  NoDup (dkeys (change_rope (row_of c) [] d)) /\
  (exists r, dget String.eqb "optimizer" (change_rope (row_of c) [] d) = Some r /\ render r = o) /\
  exists m, made_of m t ("optimizer" :: dropped) new /\ renamed_as ren m (texts (ddel String.eqb "optimizer" (change_rope (row_of c) [] d))).
Proof.
  intros -> C E N M D W P F Fn O1 O2. pose proof M as [Nd Md]. rewrite texts_keys in Nd.
  assert (K : forall p, In p ren -> ~ In (snd p) (dkeys d)).
  { intros p I. apply (made_fresh d t dropped new (map snd ren) M F Fn). apply in_map_iff. exists p. split; [reflexivity|exact I]. }
  assert (Nc : NoDup (dkeys (change_rope e [] d))) by apply change_nodup.
  pose proof (renamed_texts e ren d C E N Nd K) as R.
  assert (Co : called ren "optimizer" = "optimizer").
  { unfold called. destruct (dget String.eqb "optimizer" ren) as [x|] eqn:X; [|reflexivity]. exfalso. apply O1. apply in_map_iff. exists ("optimizer", x). split; [reflexivity|apply (dget_some_in _ String.eqb_spec); exact X]. }
  split; [exact Nc|]. split.
  - apply in_texts; [exact Nc|]. apply R. exists "optimizer". split; [|symmetry; exact Co]. apply Md. right. split; [exact D|split; [exact W|exact P]].
  - exists (texts (ddel String.eqb "optimizer" d)). split; [apply made_out; [exact M|exact W]|]. apply renamed_out; [|exact Nd|exact Nc|exact R].
    intros j _. split; [|intros ->; exact Co]. unfold called. destruct (dget String.eqb j ren) as [x|] eqn:X; [|intros H; exact H].
    intros ->. exfalso. apply O2. apply in_map_iff. exists (j, "optimizer"). split; [reflexivity|apply (dget_some_in _ String.eqb_spec); exact X].
Qed.
Lemma get_missing k j a (d : kwdict) r : dget String.eqb k d = Some r -> dget String.eqb k (add_missing d [(j, lit a)]) = Some r.
Proof. intros H. rewrite missing_get; [rewrite H; reflexivity|]. constructor; [intros []|constructor]. Qed.
Ltac easy_lists := cbn [map fst snd In]; first [ intros ? [<-|[<-|[<-|[]]]]; first [discriminate | notin] | intros ? [<-|[<-|[]]]; first [discriminate | notin] | intros ? [<-|[]]; first [discriminate | notin] | intros ? [] | notin ].
Ltac distinct := cbn [map fst snd]; repeat (constructor; [notin|]); constructor.

(** CyclicLR: the arguments are renamed, and step_size_up is added where it is not given. *)
Theorem C141_cyclic :
  forall args kwargs t o i,
    reads_as "torch.optim.lr_scheduler.CyclicLR" args kwargs t -> (forall w, ~ In (None, w) t) ->
    free_of t ["base_learning_rate"; "max_learning_rate"; "exp_gamma"] -> passes t "optimizer" o ->
    exists q u m l l',
      answer "torch.optim.lr_scheduler.CyclicLR" None args kwargs i = Some (Ret (Converted q u)) /\
      render q = attached o (call_of "paddle.optimizer.lr.CyclicLR" l') /\
      made_of m t ["optimizer"] [] /\
      renamed_as [("base_lr", "base_learning_rate"); ("max_lr", "max_learning_rate"); ("gamma", "exp_gamma")] m l /\
      filled "step_size_up" "2000" l l'.
Proof.
  intros args kwargs t o i R S F P.
  assert (J : exists s r, find (fun r => String.eqb (r_name r) "torch.optim.lr_scheduler.CyclicLR") api_mapping = Some r /\ generator r = Some (s, g_LRSchedulerMatcher) /\
    paddle_api (r_entry r) = Some "paddle.optimizer.lr.CyclicLR" /\ kwargs_change (r_entry r) = renaming_of [("base_lr", "base_learning_rate"); ("max_lr", "max_learning_rate"); ("gamma", "exp_gamma")] /\
    paddle_default_kwargs (r_entry r) = [("step_size_up", "2000")])
    by (row_found; split; [reflexivity|split; reflexivity]).
  destruct J as (s & r & Fr & G & A & C & D). pose proof (keys_once _ args kwargs t R S) as N.
  destruct (answer_line _ r s _ args kwargs t i Fr G R) as (c & E & Q & H).
  destruct (closing c (r_entry r) _ (start t) t [] [] o E C ltac:(easy_lists) ltac:(distinct) (made_start t N S) ltac:(easy_lists) ltac:(easy_lists) P F ltac:(easy_lists) ltac:(easy_lists) ltac:(easy_lists)) as (Nc & (x & X & <-) & m & M & Z).
  assert (X' : dget String.eqb "optimizer" (changed c (start t)) = Some x) by (unfold changed, default_ropes; rewrite E, D; rewrite E in X; apply get_missing; exact X).
  destruct (plain_runs c (start t) i _ x (Q _ A) X') as (q & s1 & B & V).
  eexists; eexists; exists m; eexists; eexists. split; [eapply H; [exact B|rewrite V; reflexivity]|]. split; [exact V|]. split; [exact M|]. split; [exact Z|].
  unfold changed, default_ropes. rewrite E, D. cbn [map fst snd]. rewrite out_missing by discriminate. apply filled_texts.
Qed.
Print Assumptions C141_cyclic.
(** LinearLR and MultiplicativeLR start from the rate of the optimizer. *)
Theorem C141_linear :
  forall args kwargs t o i,
    reads_as "torch.optim.lr_scheduler.LinearLR" args kwargs t -> passes t "optimizer" o ->
    exists q u m l l',
      answer "torch.optim.lr_scheduler.LinearLR" None args kwargs i = Some (Ret (Converted q u)) /\
      render q = attached o (call_of "paddle.optimizer.lr.LinearLR" l') /\
      made_of m t ["optimizer"] [("learning_rate", o ++ ".get_lr()")] /\
      renamed_as [("total_iters", "total_steps")] m l /\
      filled "total_steps" "5" l l'.
Proof.
  intros args kwargs t o i R P.
  assert (J : exists s r, find (fun r => String.eqb (r_name r) "torch.optim.lr_scheduler.LinearLR") api_mapping = Some r /\ generator r = Some (s, g_Optim2LrSchedulerMatcher) /\
    paddle_api (r_entry r) = Some "paddle.optimizer.lr.LinearLR" /\ kwargs_change (r_entry r) = renaming_of [("total_iters", "total_steps")] /\
    paddle_default_kwargs (r_entry r) = [("total_steps", "5")] /\ unsupport_args (r_entry r) = [] /\
    mem_str "total_steps" (position_args (r_entry r) ++ args_list (r_entry r) ++ overload_args_list (r_entry r))%list = false)
    by (row_found; split; [reflexivity|split; [reflexivity|split; [reflexivity|split; [reflexivity|vm_compute; reflexivity]]]]).
  destruct J as (s & r & Fr & G & A & C & D & U & X0). pose proof (known_star _ r args kwargs t Fr U R) as S. pose proof (keys_once _ args kwargs t R S) as N.
  assert (F : free_of t (map snd [("total_iters", "total_steps")])) by (intros k v [<-|[]]; exact (unknown _ r args kwargs t Fr U R _ v X0)).
  destruct (answer_line _ r s _ args kwargs t i Fr G R) as (c & E & Q & H).
  pose proof (got _ args kwargs t R "optimizer" o ltac:(discriminate) P) as Go.
  set (p := (MkPiece [] "" :: [MkPiece [Argument "optimizer"] o] ++ [MkPiece [] ".get_lr()"])%list).
  assert (Tp : render p = o ++ ".get_lr()") by (unfold p; txo).
  pose proof (made_put t (start t) [] [] "learning_rate" p (made_start t N S) ltac:(notin)) as M0. cbn [List.app] in M0.
  destruct (closing c (r_entry r) _ _ t [] _ o E C ltac:(easy_lists) ltac:(distinct) M0 ltac:(easy_lists) ltac:(easy_lists) P F ltac:(easy_lists) ltac:(easy_lists) ltac:(easy_lists)) as (Nc & (x & X & Tx) & m & M & Z).
  assert (X' : dget String.eqb "optimizer" (changed c (dset String.eqb "learning_rate" p (start t))) = Some x) by (unfold changed, default_ropes; rewrite E, D; rewrite E in X; apply get_missing; exact X).
  destruct (rate_runs c (start t) i _ _ x p (Q _ A) Go eq_refl X') as (q & s1 & B & V). rewrite Tx in V. rewrite Tp in M.
  eexists; eexists; exists m; eexists; eexists. split; [eapply H; [exact B|rewrite V; reflexivity]|]. split; [exact V|]. split; [exact M|]. split; [exact Z|].
  unfold changed, default_ropes. rewrite E, D. cbn [map fst snd]. rewrite out_missing by discriminate. apply filled_texts.
Qed.
Print Assumptions C141_linear.
Lemma unrenamed m l : renamed_as [] m l -> forall k v, In (k, v) l <-> In (k, v) m.
Proof. intros [_ M] k v. rewrite M. split; [intros (j & I & ->); exact I|intros I; exists k; split; [exact I|reflexivity]]. Qed.
Lemma made_same m l t dropped new : made_of m t dropped new -> renamed_as [] m l -> made_of l t dropped new.
Proof. intros [_ M] R. pose proof R as [N _]. split; [exact N|]. intros k v. rewrite (unrenamed _ _ R). apply M. Qed.
Theorem C141_multiplicative :
  forall args kwargs t o i,
    reads_as "torch.optim.lr_scheduler.MultiplicativeLR" args kwargs t -> passes t "optimizer" o ->
    exists q u l,
      answer "torch.optim.lr_scheduler.MultiplicativeLR" None args kwargs i = Some (Ret (Converted q u)) /\
      render q = attached o (call_of "paddle.optimizer.lr.MultiplicativeDecay" l) /\
      made_of l t ["optimizer"] [("learning_rate", o ++ ".get_lr()")].
Proof.
  intros args kwargs t o i R P.
  assert (J : exists s r, find (fun r => String.eqb (r_name r) "torch.optim.lr_scheduler.MultiplicativeLR") api_mapping = Some r /\ generator r = Some (s, g_Optim2LrSchedulerMatcher) /\
    paddle_api (r_entry r) = Some "paddle.optimizer.lr.MultiplicativeDecay" /\ kwargs_change (r_entry r) = renaming_of [] /\
    paddle_default_kwargs (r_entry r) = [] /\ unsupport_args (r_entry r) = [])
    by (row_found; split; [reflexivity|split; [reflexivity|split; reflexivity]]).
  destruct J as (s & r & Fr & G & A & C & D & U). pose proof (known_star _ r args kwargs t Fr U R) as S. pose proof (keys_once _ args kwargs t R S) as N.
  destruct (answer_line _ r s _ args kwargs t i Fr G R) as (c & E & Q & H).
  pose proof (got _ args kwargs t R "optimizer" o ltac:(discriminate) P) as Go.
  set (p := (MkPiece [] "" :: [MkPiece [Argument "optimizer"] o] ++ [MkPiece [] ".get_lr()"])%list).
  assert (Tp : render p = o ++ ".get_lr()") by (unfold p; txo).
  pose proof (made_put t (start t) [] [] "learning_rate" p (made_start t N S) ltac:(notin)) as M0. cbn [List.app] in M0.
  destruct (closing c (r_entry r) [] _ t [] _ o E C ltac:(intros ? []) ltac:(constructor) M0 ltac:(notin) ltac:(notin) P ltac:(intros ? ? []) ltac:(intros ? []) ltac:(notin) ltac:(notin)) as (Nc & (x & X & Tx) & m & M & Z).
  assert (X' : dget String.eqb "optimizer" (changed c (dset String.eqb "learning_rate" p (start t))) = Some x) by (unfold changed, default_ropes; rewrite E, D; rewrite E in X; exact X).
  destruct (rate_runs c (start t) i _ _ x p (Q _ A) Go eq_refl X') as (q & s1 & B & V). rewrite Tx in V. rewrite Tp in M.
  eexists; eexists; eexists. split; [eapply H; [exact B|rewrite V; reflexivity]|]. split; [exact V|].
  apply (made_same m); [exact M|]. unfold changed, default_ropes. rewrite E, D. rewrite E in Z. exact Z.
Qed.
Print Assumptions C141_multiplicative.

(** ConstantLR: the rate of the optimizer times the factor (a third where none is given) up to
    the number of steps (5 where none is given), the rate of the optimizer afterwards. *)
Theorem C141_constant :
  forall args kwargs t o values n i,
    reads_as "torch.optim.lr_scheduler.ConstantLR" args kwargs t -> passes t "optimizer" o ->
    (exists f, passes t "factor" f /\ values = "[" ++ f ++ "*" ++ o ++ ".get_lr(), " ++ o ++ ".get_lr()]") \/
    ((forall f, ~ passes t "factor" f) /\ values = "[" ++ o ++ ".get_lr()/3, " ++ o ++ ".get_lr()]") ->
    given_or t "total_iters" "5" n ->
    exists q u l,
      answer "torch.optim.lr_scheduler.ConstantLR" None args kwargs i = Some (Ret (Converted q u)) /\
      render q = attached o (call_of "paddle.optimizer.lr.PiecewiseDecay" l) /\
      made_of l t ["optimizer"; "total_iters"; "factor"] [("values", values); ("boundaries", "[" ++ n ++ "]")].
Proof.
  intros args kwargs t o values n i R P Fa Ti.
  assert (J : exists s r, find (fun r => String.eqb (r_name r) "torch.optim.lr_scheduler.ConstantLR") api_mapping = Some r /\ generator r = Some (s, g_ConstantLRMatcher) /\
    paddle_api (r_entry r) = Some "paddle.optimizer.lr.PiecewiseDecay" /\ kwargs_change (r_entry r) = renaming_of [] /\
    paddle_default_kwargs (r_entry r) = [] /\ unsupport_args (r_entry r) = [])
    by (row_found; split; [reflexivity|split; [reflexivity|split; reflexivity]]).
  destruct J as (s & r & Fr & G & A & C & D & U). pose proof (known_star _ r args kwargs t Fr U R) as S. pose proof (keys_once _ args kwargs t R S) as N.
  destruct (answer_line _ r s _ args kwargs t i Fr G R) as (c & E & Q & H).
  pose proof (got _ args kwargs t R "optimizer" o ltac:(discriminate) P) as Go.
  set (ro := [MkPiece [Argument "optimizer"] o]) in *.
  assert (K1 : exists vals d1, render vals = values /\ made_of (texts d1) t ["factor"] [] /\
    match dget String.eqb "factor" (start t) with
    | Some f => vals = (MkPiece [] "[" :: f ++ MkPiece [] "*" :: ro ++ MkPiece [] ".get_lr(), " :: ro ++ [MkPiece [] ".get_lr()]"])%list /\ d1 = ddel String.eqb "factor" (start t)
    | None => vals = (MkPiece [] "[" :: ro ++ MkPiece [] ".get_lr()/3, " :: ro ++ [MkPiece [] ".get_lr()]"])%list /\ d1 = start t
    end).
  { destruct Fa as [(f & Fa & ->)|[Fa ->]].
    - rewrite (got _ args kwargs t R "factor" f ltac:(discriminate) Fa). eexists; eexists. split; [|split; [|split; reflexivity]]; [unfold ro; txo|made_it].
    - rewrite (not_got _ args kwargs t R S "factor" Fa). eexists; eexists. split; [|split; [|split; reflexivity]]; [unfold ro; txo|].
      apply made_absent; [apply made_start; assumption|exact Fa]. }
  destruct K1 as (vals & d1 & Tv & M1 & K1).
  assert (K2 : exists b d2, render b = "[" ++ n ++ "]" /\ made_of (texts d2) t ["total_iters"; "factor"] [("values", values)] /\
    match dget String.eqb "total_iters" (start t) with
    | Some k => b = (MkPiece [] "[" :: k ++ [MkPiece [] "]"])%list /\ d2 = ddel String.eqb "total_iters" (dset String.eqb "values" vals d1)
    | None => b = (MkPiece [] "[" :: lit "5" ++ [MkPiece [] "]"])%list /\ d2 = dset String.eqb "values" vals d1
    end).
  { pose proof (made_put t d1 ["factor"] [] "values" vals M1 ltac:(notin)) as M2. cbn [List.app] in M2. rewrite Tv in M2.
    destruct Ti as [Ti|[-> Ti]].
    - rewrite (got _ args kwargs t R "total_iters" n ltac:(discriminate) Ti). eexists; eexists. split; [|split; [|split; reflexivity]]; [txo|].
      apply made_out; [exact M2|notin].
    - rewrite (not_got _ args kwargs t R S "total_iters" Ti). eexists; eexists. split; [|split; [|split; reflexivity]]; [txo|].
      apply made_absent; [exact M2|exact Ti]. }
  destruct K2 as (b & d2 & Tb & M2 & K2).
  pose proof (made_put t d2 _ _ "boundaries" b M2 ltac:(notin)) as M3. cbn [List.app] in M3. rewrite Tb in M3.
  destruct (closing c (r_entry r) [] _ t _ _ o E C ltac:(intros ? []) ltac:(constructor) M3 ltac:(notin) ltac:(notin) P ltac:(intros ? ? []) ltac:(intros ? []) ltac:(notin) ltac:(notin)) as (Nc & (x & X & Tx) & m & M & Z).
  assert (X' : dget String.eqb "optimizer" (changed c (dset String.eqb "boundaries" b d2)) = Some x) by (unfold changed, default_ropes; rewrite E, D; rewrite E in X; exact X).
  destruct (constant_runs c (start t) i _ ro x vals b (Q _ A) Go d1 d2 K1 K2 X') as (q & s1 & B & V). rewrite Tx in V.
  eexists; eexists; eexists. split; [eapply H; [exact B|rewrite V; reflexivity]|]. split; [exact V|].
  apply (made_same m); [exact M|]. unfold changed, default_ropes. rewrite E, D. rewrite E in Z. exact Z.
Qed.
Print Assumptions C141_constant.

(** OneCycleLR: the number of steps is the product of epochs and steps per epoch where it is
    not given (or its text has None in it), and the last rate follows final_div_factor. *)
Theorem C141_one_cycle :
  forall args kwargs t o gone1 new1 gone2 new2 i,
    reads_as "torch.optim.lr_scheduler.OneCycleLR" args kwargs t -> (forall w, ~ In (None, w) t) ->
    free_of t ["max_learning_rate"; "phase_pct"; "divide_factor"] -> passes t "optimizer" o ->
    (exists n, passes t "total_steps" n /\ contains "None" n = false /\ gone1 = [] /\ new1 = []) \/
    ((forall n, passes t "total_steps" n -> contains "None" n = true) /\
     exists s e, passes t "steps_per_epoch" s /\ passes t "epochs" e /\ gone1 = ["epochs"; "steps_per_epoch"] /\ new1 = [("total_steps", "(" ++ s ++ ")*(" ++ e ++ ")")]) ->
    ((forall f, ~ passes t "final_div_factor" f) /\ gone2 = [] /\ new2 = []) \/
    (exists f m v, passes t "final_div_factor" f /\ passes t "max_lr" m /\ passes t "div_factor" v /\ gone2 = ["final_div_factor"] /\
       new2 = [("end_learning_rate", "(" ++ m ++ ") * 1. /((" ++ v ++ ") * " ++ f ++ ")")]) ->
    exists q u m l,
      answer "torch.optim.lr_scheduler.OneCycleLR" None args kwargs i = Some (Ret (Converted q u)) /\
      render q = attached o (call_of "paddle.optimizer.lr.OneCycleLR" l) /\
      made_of m t ("optimizer" :: gone2 ++ gone1)%list (new1 ++ new2)%list /\
      renamed_as [("max_lr", "max_learning_rate"); ("pct_start", "phase_pct"); ("div_factor", "divide_factor")] m l.
Proof.
  intros args kwargs t o gone1 new1 gone2 new2 i R S F P H1 H2.
  assert (J : exists s r, find (fun r => String.eqb (r_name r) "torch.optim.lr_scheduler.OneCycleLR") api_mapping = Some r /\ generator r = Some (s, g_OneCycleLRMatcher) /\
    paddle_api (r_entry r) = Some "paddle.optimizer.lr.OneCycleLR" /\ kwargs_change (r_entry r) = renaming_of [("max_lr", "max_learning_rate"); ("pct_start", "phase_pct"); ("div_factor", "divide_factor")] /\
    paddle_default_kwargs (r_entry r) = [])
    by (row_found; split; [reflexivity|split; reflexivity]).
  destruct J as (s & r & Fr & G & A & C & D). pose proof (keys_once _ args kwargs t R S) as N.
  destruct (answer_line _ r s _ args kwargs t i Fr G R) as (c & E & Q & H).
  assert (K1 : exists d1, made_of (texts d1) t gone1 new1 /\ (forall k, k <> "total_steps" -> k <> "epochs" -> k <> "steps_per_epoch" -> dget String.eqb k d1 = dget String.eqb k (start t)) /\
    ((exists n, dget String.eqb "total_steps" (start t) = Some n /\ contains "None" (render n) = false /\ d1 = start t) \/
     ((forall n, dget String.eqb "total_steps" (start t) = Some n -> contains "None" (render n) = true) /\
      exists s e, dget String.eqb "steps_per_epoch" (start t) = Some s /\ dget String.eqb "epochs" (start t) = Some e /\
       d1 = dset String.eqb "total_steps" (MkPiece [] "(" :: s ++ MkPiece [] ")*(" :: e ++ [MkPiece [] ")"])%list (ddel String.eqb "epochs" (ddel String.eqb "steps_per_epoch" (start t)))))).
  { destruct H1 as [(n & Pn & Cn & -> & ->)|(Pn & s0 & e & Ps & Pe & -> & ->)].
    - exists (start t). split; [apply made_start; assumption|]. split; [intros; reflexivity|]. left. eexists. split; [exact (got _ args kwargs t R "total_steps" n ltac:(discriminate) Pn)|].
      rewrite render_one. split; [exact Cn|reflexivity].
    - eexists. split; [|split; [|right; split; [|eexists; eexists; split; [exact (got _ args kwargs t R "steps_per_epoch" s0 ltac:(discriminate) Ps)|split; [exact (got _ args kwargs t R "epochs" e ltac:(discriminate) Pe)|reflexivity]]]]].
      + match goal with |- made_of ?l ?t _ _ => eassert (M : made_of l t _ _) by made end.
        replace ("(" ++ s0 ++ ")*(" ++ e ++ ")") with (render (MkPiece [] "(" :: [MkPiece [Argument "steps_per_epoch"] s0] ++ MkPiece [] ")*(" :: [MkPiece [Argument "epochs"] e] ++ [MkPiece [] ")"])%list) by txo.
        exact M.
      + intros k K1 K2 K3. rewrite (dget_set_other _ String.eqb_spec) by exact K1. rewrite (ddel_get_other _ String.eqb_spec) by exact K2. apply (ddel_get_other _ String.eqb_spec). exact K3.
      + intros n Dn. apply Pn. apply (member_start _ _ _ S). apply in_texts; [exact N|]. exists n. split; [exact Dn|reflexivity]. }
  destruct K1 as (d1 & M1 & Same & K1).
  assert (W1 : ~ In "end_learning_rate" (map fst new1) /\ ~ In "final_div_factor" (map fst new1) /\ ~ In "optimizer" gone1 /\ ~ In "optimizer" (map fst new1) /\
     forall k, In k ["max_learning_rate"; "phase_pct"; "divide_factor"] -> ~ In k (map fst new1)).
  { clear -H1. destruct H1 as [(n & _ & _ & -> & ->)|(_ & s0 & e & _ & _ & -> & ->)]; (split; [notin|split; [notin|split; [notin|split; [notin|]]]]); intros k [<-|[<-|[<-|[]]]]; notin. }
  destruct W1 as (W1 & W2 & W3 & W4 & W5).
  assert (K2 : exists d2, made_of (texts d2) t (gone2 ++ gone1)%list (new1 ++ new2)%list /\ ~ In "optimizer" (gone2 ++ gone1)%list /\ ~ In "optimizer" (map fst (new1 ++ new2)%list) /\
    (forall k, In k ["max_learning_rate"; "phase_pct"; "divide_factor"] -> ~ In k (map fst (new1 ++ new2)%list)) /\
    ((dget String.eqb "final_div_factor" (start t) = None /\ d2 = d1) \/
     (exists f m v, dget String.eqb "final_div_factor" (start t) = Some f /\ dget String.eqb "max_lr" (start t) = Some m /\ dget String.eqb "div_factor" (start t) = Some v /\
       d2 = dset String.eqb "end_learning_rate" (MkPiece [] "(" :: m ++ MkPiece [] ") * 1. /((" :: v ++ MkPiece [] ") * " :: f ++ [MkPiece [] ")"])%list (ddel String.eqb "final_div_factor" d1)))).
  { destruct H2 as [(Pf & -> & ->)|(f & m & v & Pf & Pm & Pv & -> & ->)].
    - exists d1. rewrite app_nil_r. split; [exact M1|]. split; [exact W3|]. split; [exact W4|]. split; [exact W5|]. left. split; [|reflexivity]. exact (not_got _ args kwargs t R S "final_div_factor" Pf).
    - eexists. split; [|split; [|split; [|split; [|right; eexists; eexists; eexists; split; [exact (got _ args kwargs t R "final_div_factor" f ltac:(discriminate) Pf)|split; [exact (got _ args kwargs t R "max_lr" m ltac:(discriminate) Pm)|split; [exact (got _ args kwargs t R "div_factor" v ltac:(discriminate) Pv)|reflexivity]]]]]]].
      + replace ("(" ++ m ++ ") * 1. /((" ++ v ++ ") * " ++ f ++ ")") with (render (MkPiece [] "(" :: [MkPiece [Argument "max_lr"] m] ++ MkPiece [] ") * 1. /((" :: [MkPiece [Argument "div_factor"] v] ++ MkPiece [] ") * " :: [MkPiece [Argument "final_div_factor"] f] ++ [MkPiece [] ")"])%list) by txo.
        apply made_put; [apply made_out; [exact M1|exact W2]|exact W1].
      + intros [J|J]; [discriminate J|exact (W3 J)].
      + rewrite map_app, in_app_iff. intros [J|[J|[]]]; [exact (W4 J)|discriminate J].
      + intros k I. rewrite map_app, in_app_iff. intros [J|[J|[]]]; [exact (W5 k I J)|]. subst k. destruct I as [I|[I|[I|[]]]]; discriminate I. }
  destruct K2 as (d2 & M2 & O1 & O2 & O3 & K2).
  destruct (closing c (r_entry r) _ d2 t _ _ o E C ltac:(easy_lists) ltac:(distinct) M2 O1 O2 P F O3 ltac:(notin) ltac:(notin)) as (Nc & (x & X & Tx) & m & M & Z).
  assert (X' : dget String.eqb "optimizer" (changed c d2) = Some x) by (unfold changed, default_ropes; rewrite E, D; rewrite E in X; exact X).
  destruct (one_cycle_runs c (start t) i _ x (Q _ A) d1 d2 K1 K2 X') as (q & s1 & B & V). rewrite Tx in V.
  eexists; eexists; exists m; eexists. split; [eapply H; [exact B|rewrite V; reflexivity]|]. split; [exact V|]. split; [exact M|].
  unfold changed, default_ropes. rewrite E, D. rewrite E in Z. exact Z.
Qed.
Print Assumptions C141_one_cycle.

(** An answer that raises is raised by the call. *)
Lemma answer_fail n r strictly b args kwargs t i :
  find (fun r => String.eqb (r_name r) n) api_mapping = Some r -> generator r = Some (strictly, b) -> reads_as n args kwargs t ->
  forall e, (forall c, exec c b (st [] (start t) None i false) = Fail e) -> answer n None args kwargs i = Some (Fail e).
Proof.
  intros F G R e X. destruct R as (r' & F' & R). rewrite F in F'. injection F' as <-. unfold answer. rewrite F, G. unfold paddle_nodes. rewrite R. cbn [fst snd].
  rewrite generate_ends. unfold initial_api. cbn [receiver context_of]. rewrite X. reflexivity.
Qed.
(** Not every call is answered: final_div_factor without div_factor, which torch fills in with
    25, raises. *)
Theorem C141_div_factor_refuted :
  forall args kwargs t n f i,
    reads_as "torch.optim.lr_scheduler.OneCycleLR" args kwargs t -> (forall w, ~ In (None, w) t) ->
    passes t "total_steps" n -> contains "None" n = false -> passes t "final_div_factor" f -> (forall v, ~ passes t "div_factor" v) ->
    answer "torch.optim.lr_scheduler.OneCycleLR" None args kwargs i = Some (Fail "KeyError").
Proof.
  intros args kwargs t n f i R S Pn Cn Pf Pv.
  assert (J : exists s r, find (fun r => String.eqb (r_name r) "torch.optim.lr_scheduler.OneCycleLR") api_mapping = Some r /\ generator r = Some (s, g_OneCycleLRMatcher) /\
    paddle_api (r_entry r) = Some "paddle.optimizer.lr.OneCycleLR" /\ kwargs_change (r_entry r) = renaming_of [("max_lr", "max_learning_rate"); ("pct_start", "phase_pct"); ("div_factor", "divide_factor")] /\ paddle_default_kwargs (r_entry r) = [])
    by (row_found; split; [reflexivity|split; reflexivity]).
  destruct J as (s & r & Fr & G & _). apply (answer_fail _ r s _ args kwargs t i Fr G R). intros c.
  eapply one_cycle_fails.
  - exact (got _ args kwargs t R "total_steps" n ltac:(discriminate) Pn).
  - rewrite render_one. exact Cn.
  - exact (got _ args kwargs t R "final_div_factor" f ltac:(discriminate) Pf).
  - exact (not_got _ args kwargs t R S "div_factor" Pv).
Qed.
Print Assumptions C141_div_factor_refuted.
(** And with total_steps given, epochs and steps_per_epoch go on to a scheduler that has no such
    parameters. *)
Theorem C141_epochs_refuted :
  forall args kwargs t o n k e i,
    reads_as "torch.optim.lr_scheduler.OneCycleLR" args kwargs t -> (forall w, ~ In (None, w) t) ->
    free_of t ["max_learning_rate"; "phase_pct"; "divide_factor"; "final_div_factor"] -> passes t "optimizer" o ->
    passes t "total_steps" n -> contains "None" n = false -> In k ["epochs"; "steps_per_epoch"] -> passes t k e ->
    exists q u l,
      answer "torch.optim.lr_scheduler.OneCycleLR" None args kwargs i = Some (Ret (Converted q u)) /\
      render q = attached o (call_of "paddle.optimizer.lr.OneCycleLR" l) /\ In (k, e) l.
Proof.
  intros args kwargs t o n k e i R S F P Pn Cn K Pe.
  destruct (C141_one_cycle args kwargs t o [] [] [] [] i R S) as (q & u & m & l & X & T & M & [_ Z]).
  - intros k' v I. apply F. cbn in *. tauto.
  - exact P.
  - left. exists n. split; [exact Pn|]. split; [exact Cn|]. split; reflexivity.
  - left. split; [|split; reflexivity]. intros f I. apply (F "final_div_factor" f); [cbn; tauto|exact I].
  - exists q, u, l. split; [exact X|]. split; [exact T|]. apply Z. exists k. destruct M as [_ M]. split; [|destruct K as [<-|[<-|[]]]; reflexivity].
    apply M. right. split; [destruct K as [<-|[<-|[]]]; notin|]. split; [intros []|exact Pe].
Qed.
Print Assumptions C141_epochs_refuted.

Transparent api_mapping generators.
Example C141_nonvacuous :
  (exists t, reads_as "torch.optim.lr_scheduler.CyclicLR" [MkExpr false false "opt"] [MkKw (Some "base_lr") (MkExpr false false "a"); MkKw (Some "max_lr") (MkExpr false false "b")] t /\
    (forall w, ~ In (None, w) t) /\ free_of t ["base_learning_rate"; "max_learning_rate"; "exp_gamma"] /\ passes t "optimizer" "opt") /\
  (exists t, reads_as "torch.optim.lr_scheduler.LinearLR" [MkExpr false false "opt"] [] t /\ passes t "optimizer" "opt") /\
  (exists t, reads_as "torch.optim.lr_scheduler.MultiplicativeLR" [MkExpr false false "opt"; MkExpr false false "f"] [] t /\ passes t "optimizer" "opt") /\
  (exists t, reads_as "torch.optim.lr_scheduler.ConstantLR" [MkExpr false false "opt"] [MkKw (Some "factor") (MkExpr false false "f")] t /\
    passes t "optimizer" "opt" /\ passes t "factor" "f" /\ given_or t "total_iters" "5" "5") /\
  (exists t, reads_as "torch.optim.lr_scheduler.OneCycleLR" [MkExpr false false "opt"; MkExpr false false "m"] [MkKw (Some "epochs") (MkExpr false false "e"); MkKw (Some "steps_per_epoch") (MkExpr false false "s")] t /\
    (forall w, ~ In (None, w) t) /\ free_of t ["max_learning_rate"; "phase_pct"; "divide_factor"] /\ passes t "optimizer" "opt" /\
    (forall n, passes t "total_steps" n -> contains "None" n = true) /\ passes t "epochs" "e" /\ passes t "steps_per_epoch" "s" /\ (forall f, ~ passes t "final_div_factor" f)) /\
  (exists t, reads_as "torch.optim.lr_scheduler.OneCycleLR" [MkExpr false false "opt"; MkExpr false false "m"; MkExpr false false "n"] [MkKw (Some "final_div_factor") (MkExpr false false "f")] t /\
    (forall w, ~ In (None, w) t) /\ passes t "total_steps" "n" /\ contains "None" "n" = false /\ passes t "final_div_factor" "f" /\ (forall v, ~ passes t "div_factor" v)) /\
  (exists t, reads_as "torch.optim.lr_scheduler.OneCycleLR" [MkExpr false false "opt"; MkExpr false false "m"; MkExpr false false "n"; MkExpr false false "e"] [] t /\
    (forall w, ~ In (None, w) t) /\ free_of t ["max_learning_rate"; "phase_pct"; "divide_factor"; "final_div_factor"] /\ passes t "optimizer" "opt" /\
    passes t "total_steps" "n" /\ contains "None" "n" = false /\ passes t "epochs" "e").
Proof.
  Ltac there := unfold passes; cbn [In]; repeat (first [left; reflexivity | right]).
  Ltac nowhere := repeat intro; unfold passes in *; cbn [In] in *; repeat match goal with H : _ \/ _ |- _ => destruct H end; subst; try contradiction; try discriminate; congruence.
  split; [|split; [|split; [|split; [|split; [|split]]]]]; eexists; (split; [eexists; split; [vm_compute; reflexivity|vm_compute; reflexivity]|]).
  - split; [nowhere|]. split; [nowhere|there].
  - there.
  - there.
  - split; [there|]. split; [there|]. right. split; [reflexivity|nowhere].
  - split; [nowhere|]. split; [nowhere|]. split; [there|]. split; [nowhere|]. split; [there|]. split; [there|nowhere].
  - split; [nowhere|]. split; [there|]. split; [reflexivity|]. split; [there|nowhere].
  - split; [nowhere|]. split; [nowhere|]. split; [there|]. split; [there|]. split; [reflexivity|there].
Qed.

(** C20-C23, C25-C27, C46, C47, C52-C55: arguments of a converted call. *)
From Coq Require Import Lia.
From Verif Require Import PyStr PyStrFacts PyDict PyDictFacts UtilsFacts Args ArgsSpec ArgsFacts.

(** Two entries of the shipped table, used in the examples. *)
Definition resize_entry : entry :=   (* torchvision.transforms.Resize *)
  MkEntry ["size"; "interpolation"; "max_size"; "antialias"] [] 0 ["max_size"; "antialias"] [] []
          (Some "paddle.vision.transforms.Resize").
Definition adadelta_entry : entry :=  (* torch.optim.Adadelta *)
  MkEntry ["params"; "lr"; "rho"; "eps"; "weight_decay"; "foreach"; "*"; "maximize"; "differentiable"] [] 1
          ["foreach"; "maximize"; "differentiable"]
          [("params", TName "parameters"); ("lr", TName "learning_rate"); ("eps", TName "epsilon")]
          [("rho", "0.9"); ("weight_decay", "0.0"); ("learning_rate", "1.0")]
          (Some "paddle.optimizer.Adadelta").
Definition plain (s : string) : expr := MkExpr false false s.
Definition none : expr := MkExpr false true "None".

(** C20. An accepted call binds each positional argument to the positional name at
    its place and each keyword to its own name, and nothing else; only harmless
    keywords are dropped. *)
Theorem C20_binding_faithful :
  forall (e : entry) (args : list expr) (kwargs kept : list kwnode) (t : table),
  parse_args_and_kwargs e false false args kwargs = (Bound t, kept) ->
  without (harmless e) kwargs kept /\
  (List.length args <= List.length (position_args e))%nat /\
  (NoDup (map fst (bindings (position_args e) args kept)) -> t = bindings (position_args e) args kept) /\
  (forall k, dget key_eqb k t = last_binding k (bindings (position_args e) args kept)).
Proof.
  intros e args kwargs kept t H. apply parse_Bound in H as (-> & W & L).
  split; [exact W|]. split; [exact L|]. split.
  - intros N. apply (binds_nodup _ []). exact N.
  - intros k. rewrite binds_get. destruct (last_binding _ _); reflexivity.
Qed.
Print Assumptions C20_binding_faithful.

(** The positional names are those before the star of the signature (all of them if
    there is no star). *)
Theorem C20_positional_names :
  forall (e : entry) (x : string) (r : list string),
  args_list e = x :: r -> x <> "*" ->
  position_args e = before_star (args_list e) /\
  (~ In "*" (args_list e) -> position_args e = args_list e).
Proof.
  intros e x r H N. pose proof (position_args_before e x r H N) as P. split; [exact P|].
  intros S. rewrite P. apply before_star_none. exact S.
Qed.
Print Assumptions C20_positional_names.

(** Which calls are accepted: exactly those without [*]/[**], whose keywords are all
    known and supported, whose positional parameters are supported and whose number of
    arguments (keyword-only ones not counted) fits.  (No harmless keyword present.) *)
Theorem C20_accepted_exactly :
  forall (e : entry) (args : list expr) (kwargs : list kwnode),
  (forall n, In n kwargs -> ~ harmless e n) ->
  let num := (List.length args +
              List.length (filter (fun n => negb (key_in (kw_arg n) (force_kwargs e))) kwargs))%nat in
  (exists t kept, parse_args_and_kwargs e false false args kwargs = (Bound t, kept)) <->
  (forall a, In a args -> e_starred a = false) /\
  (forall n, In n kwargs -> exists k, kw_arg n = Some k /\
       In k (args_list e ++ overload_args_list e)%list /\ ~ In k (unsupport_args e)) /\
  (min_input_args e <= num <= List.length (position_args e))%nat /\
  (forall k, In k (firstn (List.length args) (position_args e)) -> ~ In k (unsupport_args e)).
Proof.
  intros e args kwargs HH num.
  assert (NUM : forall l, (List.length (filter (fun n => negb (key_in (kw_arg n) (force_kwargs e))) l)
                 + forced_count e l = List.length l)%nat).
  { unfold forced_count. induction l as [|n l IH]; [reflexivity|]. cbn [filter].
    destruct (key_in (kw_arg n) (force_kwargs e)); cbn [negb List.length]; lia. }
  specialize (NUM kwargs).
  unfold parse_args_and_kwargs. split.
  - intros (t & kept & H).
    destruct (existsb _ args) eqn:S; [discriminate|].
    destruct (check_kwargs e false kwargs) as [[v l] c] eqn:C. destruct v as [v|].
    { injection H as -> _. destruct (check_early _ _ _ _ _ _ C) as [E|E]; discriminate. }
    destruct (check_none_supported _ _ _ _ _ HH C) as (-> & -> & G).
    destruct (_ <? min_input_args e)%nat eqn:L1; [discriminate|].
    destruct (List.length (position_args e) <? _)%nat eqn:L2; [discriminate|].
    apply Nat.ltb_ge in L1, L2.
    destruct (bind_args e 0 args []) as [t'| | |] eqn:B; try discriminate.
    apply bind_args_Bound in B as (_ & L & U).
    split; [|split; [|split; [subst num; lia|]]].
    + intros a Ha. destruct (e_starred a) eqn:E; [|reflexivity]. exfalso.
      rewrite (proj2 (existsb_exists _ _)) in S; [discriminate|exists a; rewrite E; auto].
    + intros n Hn. destruct (G n Hn) as (_ & NU & k & K & Hk). exists k. repeat split; auto.
      intros Hu. apply NU. exists k; auto.
    + intros k Hk. apply In_nth_error in Hk as (j & Hj).
      assert (J : (j < List.length args)%nat).
      { pose proof (firstn_le_length (List.length args) (position_args e)).
        assert (j < List.length (firstn (List.length args) (position_args e)))%nat
          by (apply nth_error_Some; congruence). lia. }
      apply (U j k); [lia|]. rewrite <- Hj. clear -J.
      revert j J. generalize (List.length args). induction (position_args e) as [|x l IH];
      intros [|n] [|j] J; try lia; cbn; try reflexivity; apply IH; lia.
  - intros (S & K & (L1 & L2) & U).
    assert (E : existsb (fun a => e_starred a && negb false) args = false).
    { destruct (existsb _ args) eqn:E; [|reflexivity]. apply existsb_exists in E as (a & Ha & E).
      rewrite S in E by exact Ha. discriminate. }
    rewrite E. rewrite check_supported.
    + assert (A1 : (List.length args + List.length kwargs - forced_count e kwargs <? min_input_args e)%nat = false)
        by (apply Nat.ltb_ge; subst num; lia).
      assert (A2 : (List.length (position_args e) <? List.length args + List.length kwargs - forced_count e kwargs)%nat = false)
        by (apply Nat.ltb_ge; subst num; lia).
      rewrite A1, A2.
      destruct (bind_args_exists e args 0 []) as (t & ->); [subst num; lia| |eauto].
      intros j k Hj Ej. apply U. clear -Hj Ej. destruct Hj as [_ Hj]. cbn [plus] in Hj. revert j Hj Ej.
      generalize (List.length args). induction (position_args e) as [|x l IH]; intros [|n] [|j] J Ej; try lia; try discriminate.
      * injection Ej as ->. left. reflexivity.
      * right. apply (IH n j); [lia|exact Ej].
    + intros n Hn (k & E' & Hk). destruct (K n Hn) as (k' & K1 & _ & K2). congruence.
    + intros n Hn _. destruct (K n Hn) as (k' & K1 & _). congruence.
    + intros n Hn. destruct (K n Hn) as (k' & K1 & K2 & _). eauto.
Qed.
Print Assumptions C20_accepted_exactly.

Example C20_nonvacuous :
  parse_args_and_kwargs resize_entry false false
    [plain "224"] [MkKw (Some "max_size") none; MkKw (Some "interpolation") (plain "mode")]
  = (Bound [(Some "size", "224"); (Some "interpolation", "mode")],
     [MkKw (Some "interpolation") (plain "mode")])
  /\ force_kwargs adadelta_entry = ["maximize"; "differentiable"]
  /\ exists t kept, parse_args_and_kwargs adadelta_entry false false [plain "ps"; plain "0.1"]
        [MkKw (Some "eps") (plain "e")] = (Bound t, kept).
Proof. split; [reflexivity|]. split; [reflexivity|]. eexists _, _. reflexivity. Qed.

(** C21. *)
Theorem C21_never_out_of_range :
  forall (e : entry) (allow_starred allow_none : bool) (args : list expr) (kwargs : list kwnode),
  fst (parse_args_and_kwargs e allow_starred allow_none args kwargs) <> IndexError.
Proof. exact parse_never_IndexError. Qed.
Print Assumptions C21_never_out_of_range.
Example C21_nonvacuous :
  fst (parse_args_and_kwargs resize_entry false false
         [plain "1"; plain "2"; plain "3"; plain "4"; plain "5"] []) = Misidentified.
Proof. reflexivity. Qed.

(** C22. The claim is false: [Resize(s, max_size=None, antialias=True)] is accepted
    although [antialias] is unsupported. *)
Theorem C22_unsupported_accepted_refuted :
  exists (e : entry) (args : list expr) (kwargs kept : list kwnode) (n : kwnode) (t : table),
  In n kwargs /\ forbidden e n /\
  parse_args_and_kwargs e false false args kwargs = (Bound t, kept) /\
  dget key_eqb (kw_arg n) t = Some (text (kw_value n)).
Proof.
  exists resize_entry, [plain "s"],
    [MkKw (Some "max_size") none; MkKw (Some "antialias") (plain "True")],
    [MkKw (Some "antialias") (plain "True")], (MkKw (Some "antialias") (plain "True")),
    [(Some "size", "s"); (Some "antialias", "True")].
  split; [right; left; reflexivity|]. split; [|split; reflexivity].
  split; [exists "antialias"; split; [reflexivity|right; left; reflexivity]|reflexivity].
Qed.
Print Assumptions C22_unsupported_accepted_refuted.

(** What holds: in an accepted call a forbidden keyword can only stand directly after
    a harmless one; and an unsupported positional parameter is never accepted. *)
Theorem C22_only_after_dropped :
  forall (e : entry) (args : list expr) (pre post kept : list kwnode) (n : kwnode) (t : table),
  forbidden e n ->
  parse_args_and_kwargs e false false args (pre ++ n :: post)%list = (Bound t, kept) ->
  exists pre' d, pre = (pre' ++ [d])%list /\ harmless e d.
Proof.
  intros e args pre post kept n t F. unfold parse_args_and_kwargs.
  destruct (existsb _ args); [discriminate|].
  destruct (check_kwargs e false (pre ++ n :: post)%list) as [[v l] c] eqn:C. destruct v as [v|].
  { intros [= -> _]. destruct (check_early _ _ _ _ _ _ C) as [E|E]; discriminate. }
  intros _. eapply check_forbidden; [exact C|reflexivity|exact F].
Qed.
Print Assumptions C22_only_after_dropped.

Theorem C22_positional_rejected :
  forall (e : entry) (args : list expr) (kwargs kept : list kwnode) (t : table),
  parse_args_and_kwargs e false false args kwargs = (Bound t, kept) ->
  forall i k, (i < List.length args)%nat -> nth_error (position_args e) i = Some k -> ~ In k (unsupport_args e).
Proof.
  intros e args kwargs kept t. unfold parse_args_and_kwargs.
  destruct (existsb _ args); [discriminate|].
  destruct (check_kwargs e false kwargs) as [[v l] c] eqn:C. destruct v as [v|].
  { intros [= -> _]. destruct (check_early _ _ _ _ _ _ C) as [E|E]; discriminate. }
  destruct (_ <? min_input_args e)%nat; [discriminate|]. destruct (_ <? _)%nat; [discriminate|].
  destruct (bind_args e 0 args []) as [t'| | |] eqn:B; try discriminate.
  intros _ i k L E. apply bind_args_Bound in B as (_ & _ & U). apply (U i k); [lia|exact E].
Qed.
Print Assumptions C22_positional_rejected.
Example C22_nonvacuous :
  forbidden resize_entry (MkKw (Some "antialias") (plain "True")) /\
  fst (parse_args_and_kwargs resize_entry false false [plain "s"] [MkKw (Some "antialias") (plain "True")]) = Unsupported /\
  fst (parse_args_and_kwargs resize_entry false false [plain "s"; plain "i"; plain "m"] []) = Unsupported.
Proof.
  split; [|split; reflexivity]. split; [exists "antialias"|reflexivity].
  split; [reflexivity|right; left; reflexivity].
Qed.

(** C23. *)
Theorem C23_renaming_exact :
  forall (e : entry) (unuse : list string) (t : table),
  NoDup (flat_map (fun kv => new_names e unuse (fst kv)) t ++
         map fst (filter (fun kv => match new_names e unuse (fst kv) with [] => true | _ => false end) t))%list ->
  change_kwargs e unuse t = renamed e unuse t.
Proof.
  intros e unuse t H. unfold change_kwargs. apply (change_kwargs_exact_from e unuse t []). cbn [dkeys map app].
  (* every touched key is a new name or the name of a dropped argument *)
  clear -H. induction t as [|[k v] t IH]; [constructor|]. cbn [flat_map filter fst] in *.
  assert (SUB : forall x, In x (flat_map (fun kv => touched e unuse (fst kv)) t) ->
     In x (flat_map (fun kv => new_names e unuse (fst kv)) t ++
           map fst (filter (fun kv => match new_names e unuse (fst kv) with [] => true | _ => false end) t))%list).
  { clear. intros x Hx. apply in_flat_map in Hx as (kv & Hkv & Hx). apply in_or_app.
    destruct (touched_none_or_eq e unuse (fst kv)) as [E|[E (y & Ey)]].
    - left. apply in_flat_map. exists kv. rewrite E. auto.
    - right. rewrite Ey in Hx. destruct Hx as [<-|[]]. apply in_map_iff. exists kv. split.
      + unfold touched in Ey. destruct (fst kv) as [z|] eqn:K; [|congruence].
        destruct (dget String.eqb z (kwargs_change e)) eqn:D; [rewrite E in Ey; discriminate|]. congruence.
      + apply filter_In. rewrite E. auto. }
  destruct (touched_none_or_eq e unuse k) as [E|[E (y & Ey)]].
  - rewrite <- E. destruct (new_names e unuse k) as [|z zs] eqn:NN.
    + cbn [app map fst] in *. apply IH.
      apply NoDup_remove_1 in H. exact H.
    + rewrite <- app_assoc in H. clear E.
      assert (G : forall l : list key, NoDup (l ++ (flat_map (fun kv => new_names e unuse (fst kv)) t ++
           map fst (filter (fun kv => match new_names e unuse (fst kv) with [] => true | _ => false end) t)))%list ->
           NoDup (l ++ flat_map (fun kv => touched e unuse (fst kv)) t)%list).
      { induction l as [|a l IHl]; cbn [app]; intros N; [apply IH, N|].
        inversion N as [|? ? N1 N2]; subst. constructor; [|apply IHl; exact N2].
        intros K. apply N1. apply in_app_or in K as [K|K]; apply in_or_app; [left; exact K|right; apply SUB, K]. }
      apply G. exact H.
  - rewrite Ey. rewrite E in H. cbn [app map fst] in *.
    assert (K : k = y).
    { unfold touched in Ey. destruct k as [z|]; [|congruence].
      destruct (dget String.eqb z (kwargs_change e)); [congruence|congruence]. }
    subst y. pose proof (NoDup_remove_2 _ _ _ H) as N2. apply NoDup_remove_1 in H.
    constructor; [|apply IH; exact H]. intros X. apply N2, SUB, X.
Qed.
Print Assumptions C23_renaming_exact.

(** Consequently each argument of the call is found under each of its new names. *)
Theorem C23_renaming_keeps_every_argument :
  forall (e : entry) (unuse : list string) (t : table) (k : key) (v : string) (n : key),
  NoDup (flat_map (fun kv => new_names e unuse (fst kv)) t ++
         map fst (filter (fun kv => match new_names e unuse (fst kv) with [] => true | _ => false end) t))%list ->
  In (k, v) t -> In n (new_names e unuse k) ->
  dget key_eqb n (change_kwargs e unuse t) = Some v.
Proof.
  intros e unuse t k v n H Hkv Hn. rewrite C23_renaming_exact by exact H.
  apply (dget_in_nodup _ key_eqb_spec).
  - apply (NoDup_app_l _ _) in H.
    assert (E : dkeys (renamed e unuse t) = flat_map (fun kv => new_names e unuse (fst kv)) t).
    { clear. unfold renamed, dkeys. induction t as [|x t IH]; [reflexivity|]. cbn [flat_map].
      rewrite map_app, IH, map_map. cbn [fst]. rewrite map_id. reflexivity. }
    rewrite E. exact H.
  - unfold renamed. apply in_flat_map. exists (k, v). split; [exact Hkv|].
    cbn [fst snd]. apply in_map_iff. exists n. auto.
Qed.
Print Assumptions C23_renaming_keeps_every_argument.
Example C23_nonvacuous :
  change_kwargs adadelta_entry ["device"]
    [(Some "params", "ps"); (Some "device", "d"); (Some "rho", "r")]
  = [(Some "parameters", "ps"); (Some "rho", "r")].
Proof. reflexivity. Qed.

(** C25. *)
Theorem C25_defaults_exact :
  forall (e : entry) (t : table),
  NoDup (map fst (paddle_default_kwargs e)) ->
  set_paddle_default_kwargs e t = (t ++ missing_defaults e t)%list.
Proof.
  intros e t H. unfold set_paddle_default_kwargs. rewrite set_default_exact by exact H.
  unfold missing_defaults. do 2 f_equal. apply filter_ext. intros [k v]. cbn [fst]. f_equal.
  unfold dmem. clear. induction t as [|[x w] t IH]; [reflexivity|]. cbn [dget existsb fst].
  destruct (key_eqb (Some k) x); [reflexivity|exact IH].
Qed.
Print Assumptions C25_defaults_exact.
Example C25_nonvacuous :
  set_paddle_default_kwargs adadelta_entry [(Some "rho", "r")] =
  [(Some "rho", "r"); (Some "weight_decay", "0.0"); (Some "learning_rate", "1.0")].
Proof. reflexivity. Qed.

(** C26. *)
Theorem C26_prefix_change_keeps_arguments :
  forall (e : entry) (api : string) (args : list expr) (kwargs : list kwnode),
  unsupport_args e = [] -> NoDup (map kw_arg kwargs) ->
  change_prefix_nodes e api args kwargs =
  Code (call api (map text args ++
    map written (filter (fun n => negb (named_in ["layout"; "generator"; "memory_format"; "sparse_grad"; "foreach"] n)) kwargs))%list).
Proof.
  intros e api args kwargs U N. apply reemit_exact; [|exact N].
  intros n _ (k & _ & H). rewrite U in H. destruct H.
Qed.
Print Assumptions C26_prefix_change_keeps_arguments.
Theorem C26_rename_keeps_arguments :
  forall (e : entry) (api : string) (args : list expr) (kwargs : list kwnode),
  unsupport_args e = [] -> NoDup (map kw_arg kwargs) ->
  change_api_nodes e api args kwargs =
  Code (call api (map text args ++
    map written (filter (fun n => negb (named_in ["layout"; "generator"; "memory_format"] n)) kwargs))%list).
Proof.
  intros e api args kwargs U N. apply reemit_exact; [|exact N].
  intros n _ (k & _ & H). rewrite U in H. destruct H.
Qed.
Print Assumptions C26_rename_keeps_arguments.
Definition bare_entry : entry := MkEntry [] [] 0 [] [] [] None.
Example C26_nonvacuous :
  change_prefix_nodes bare_entry "paddle.sum" [plain "x"; MkExpr true false "*dims"]
    [MkKw (Some "keepdim") (plain "k"); MkKw (Some "layout") (plain "l"); MkKw None (plain "cfg")]
  = Code "paddle.sum(x, *dims, keepdim=k, **cfg)".
Proof. reflexivity. Qed.

(** C27. The claim is false: of two [**] only the last survives. *)
Theorem C27_second_star_lost_refuted :
  forall (e : entry) (api : string) (args : list expr) (a b : expr),
  change_prefix_nodes e api args [MkKw None a; MkKw None b] =
  Code (call api (map text args ++ [("**" ++ text b)%string])%list).
Proof. intros. apply reemit_two_stars. Qed.
Print Assumptions C27_second_star_lost_refuted.
Example C27_nonvacuous :
  change_prefix_nodes bare_entry "paddle.sum" [] [MkKw None (plain "first"); MkKw None (plain "second")]
  = Code "paddle.sum(**second)".
Proof. reflexivity. Qed.

(** C52. A call that is not converted should stay as it was; false: the harmless
    keyword is removed from the call node even though the call is then rejected. *)
Theorem C52_unconverted_call_changed_refuted :
  exists (e : entry) (args : list expr) (kwargs kept : list kwnode),
  parse_args_and_kwargs e false false args kwargs = (Misidentified, kept) /\ kept <> kwargs.
Proof.
  exists resize_entry, [plain "s"],
    [MkKw (Some "max_size") none; MkKw (Some "interpolation") (plain "i"); MkKw (Some "other") (plain "o")],
    [MkKw (Some "interpolation") (plain "i"); MkKw (Some "other") (plain "o")].
  split; [reflexivity|discriminate].
Qed.
Print Assumptions C52_unconverted_call_changed_refuted.
(** What holds: whatever the outcome, only harmless keywords leave the call. *)
Theorem C52_only_harmless_removed :
  forall (e : entry) (allow_starred allow_none : bool) (args : list expr) (kwargs kept : list kwnode) (r : parsed),
  parse_args_and_kwargs e allow_starred allow_none args kwargs = (r, kept) ->
  without (harmless e) kwargs kept.
Proof. intros. eapply parse_kept. eassumption. Qed.
Print Assumptions C52_only_harmless_removed.

(** C53. A [**] argument should be refused or re-emitted as [**]; false: after a
    harmless keyword it is accepted and printed as a keyword called "None". *)
Theorem C53_star_printed_as_keyword_refuted :
  exists (e : entry) (args : list expr) (kwargs kept : list kwnode) (t : table),
  In None (map kw_arg kwargs) /\
  parse_args_and_kwargs e false false args kwargs = (Bound t, kept) /\
  generic_code e "paddle.vision.transforms.Resize" "out_0" t = "paddle.vision.transforms.Resize(size=s, None=cfg)".
Proof.
  exists resize_entry, [plain "s"], [MkKw (Some "max_size") none; MkKw None (plain "cfg")],
    [MkKw None (plain "cfg")], [(Some "size", "s"); (None, "cfg")].
  split; [right; left; reflexivity|]. split; reflexivity.
Qed.
Print Assumptions C53_star_printed_as_keyword_refuted.
(** What holds: without a harmless keyword, a call with [**] or [*] is never accepted. *)
Theorem C53_stars_refused :
  forall (e : entry) (args : list expr) (kwargs : list kwnode),
  (forall n, In n kwargs -> ~ harmless e n) ->
  In None (map kw_arg kwargs) \/ (exists a, In a args /\ e_starred a = true) ->
  forall t kept, parse_args_and_kwargs e false false args kwargs <> (Bound t, kept).
Proof.
  intros e args kwargs HH S t kept H.
  assert (X : exists t kept, parse_args_and_kwargs e false false args kwargs = (Bound t, kept)) by eauto.
  apply (C20_accepted_exactly e args kwargs HH) in X as (A & K & _).
  destruct S as [S|(a & Ha & S)].
  - apply in_map_iff in S as (n & E & Hn). destruct (K n Hn) as (k & E' & _). congruence.
  - rewrite A in S by exact Ha. discriminate.
Qed.
Print Assumptions C53_stars_refused.
Example C53_nonvacuous :
  fst (parse_args_and_kwargs resize_entry false false [plain "s"] [MkKw None (plain "cfg")]) = Unsupported.
Proof. reflexivity. Qed.

(** C54. Generic conversion emits every renamed argument and missing default. *)
Theorem C54_generic_exact :
  forall (e : entry) (api fresh : string) (t : table),
  NoDup (flat_map (fun kv => new_names e generic_unused (fst kv)) t ++
         map fst (filter (fun kv => match new_names e generic_unused (fst kv) with [] => true | _ => false end) t))%list ->
  NoDup (map fst (paddle_default_kwargs e)) ->
  let final := (renamed e generic_unused t ++ missing_defaults e (renamed e generic_unused t))%list in
  generic_code e api fresh t = generic_text e api fresh final.
Proof.
  intros e api fresh t H D final.
  assert (E : set_paddle_default_kwargs e (change_kwargs e generic_unused t) = final).
  { rewrite C25_defaults_exact by exact D. rewrite C23_renaming_exact by exact H. reflexivity. }
  rewrite generic_exact; [rewrite E; reflexivity|]. rewrite E. subst final.
  unfold dkeys. rewrite map_app.
  assert (K : map fst (renamed e generic_unused t) = flat_map (fun kv => new_names e generic_unused (fst kv)) t).
  { clear. unfold renamed. induction t as [|x t IH]; [reflexivity|]. cbn [flat_map].
    rewrite map_app, IH, map_map. cbn [fst]. rewrite map_id. reflexivity. }
  apply (NoDup_app_l _ _) in H. rewrite <- K in H.
  set (R := renamed e generic_unused t) in *. clearbody R. clear K E.
  unfold missing_defaults. rewrite map_map. cbn [fst].
  induction (map fst R) as [|x l IH] eqn:ER in R, H |- *.
  - cbn [app]. apply map_eq_nil in ER. subst R. clear H.
    induction (paddle_default_kwargs e) as [|[k v] ds IHd] in D |- *; [constructor|].
    cbn [filter existsb fst negb map] in *. inversion D as [|? ? N1 N2]; subst. constructor; [|apply IHd; exact N2].
    intros K. apply in_map_iff in K as ([k' v'] & [= ->] & K). apply filter_In in K as [K _].
    apply N1. apply in_map_iff. exists (k, v'). auto.
  - (* generic argument: keys of [R] and missing defaults are disjoint *)
    clear IH. rewrite <- ER in *. clear ER x l.
    assert (DJ : forall k v, In (k, v) (filter (fun d => negb (existsb (fun kv => key_eqb (Some (fst d)) (fst kv)) R)) (paddle_default_kwargs e)) -> ~ In (Some k) (map fst R)).
    { intros k v Hk Hin. apply filter_In in Hk as [_ Hk]. cbn [fst] in Hk. apply negb_true_iff in Hk.
      apply in_map_iff in Hin as (kv & Ek & Hin).
      rewrite (proj2 (existsb_exists _ _)) in Hk; [discriminate|].
      exists kv. split; [exact Hin|]. rewrite Ek. destruct (key_eqb_spec (Some k) (Some k)); congruence. }
    assert (ND : NoDup (map (fun d => Some (fst d)) (filter (fun d => negb (existsb (fun kv => key_eqb (Some (fst d)) (fst kv)) R)) (paddle_default_kwargs e)))).
    { clear -D. induction (paddle_default_kwargs e) as [|[k v] ds IHd]; [constructor|]. cbn [map fst] in D.
      inversion D as [|? ? N1 N2]; subst. cbn [filter]. destruct (negb _); [|apply IHd; exact N2].
      cbn [map fst]. constructor; [|apply IHd; exact N2].
      intros K. apply in_map_iff in K as ([k' v'] & [= ->] & K). apply filter_In in K as [K _].
      apply N1. apply in_map_iff. exists (k, v'). auto. }
    set (F := filter _ (paddle_default_kwargs e)) in *. clearbody F.
    induction (map fst R) as [|a l IHl]; cbn [app]; [exact ND|].
    inversion H as [|? ? N1 N2]; subst. constructor.
    + intros K. apply in_app_or in K as [K|K]; [contradiction|].
      apply in_map_iff in K as ([k v] & <- & K). apply (DJ k v K). left. reflexivity.
    + apply IHl; [exact N2|]. intros k v Hk K. apply (DJ k v Hk). right. exact K.
Qed.
Print Assumptions C54_generic_exact.
Example C54_nonvacuous :
  generic_code adadelta_entry "paddle.optimizer.Adadelta" "out_0" [(Some "params", "ps"); (Some "lr", "0.5")]
  = "paddle.optimizer.Adadelta(parameters=ps, learning_rate=0.5, rho=0.9, weight_decay=0.0)" /\
  generic_code bare_entry "paddle.ones" "out_3" [(Some "shape", "s"); (Some "requires_grad", "(True)"); (Some "dtype", "d")]
  = (nls ++ "out_3 = paddle.ones(shape=s).astype(d)" ++ nls ++ "out_3.stop_gradient = not True" ++ nls ++ "out_3" ++ nls)%string.
Proof. split; reflexivity. Qed.

(** C55. [pin_memory=flag] should pin only when [flag] holds; false: any value other
    than the literal False pins unconditionally. *)
Theorem C55_pin_memory_flag_ignored_refuted :
  forall (flag : string), flag <> "(False)" ->
  generic_code bare_entry "paddle.ones" "out_0" [(Some "shape", "s"); (Some "pin_memory", flag)]
  = "paddle.ones(shape=s).pin_memory()".
Proof.
  intros flag H.
  change ((if String.eqb flag "(False)" then "paddle.ones(shape=s)"
           else "paddle.ones(shape=s).pin_memory()") = "paddle.ones(shape=s).pin_memory()").
  destruct (String.eqb_spec flag "(False)"); [contradiction|]. reflexivity.
Qed.
Print Assumptions C55_pin_memory_flag_ignored_refuted.

(** C46. *)
Theorem C46_legacy_flags :
  forall (t : table) (size_average reduce : option bool),
  NoDup (dkeys t) -> flag_is t "size_average" size_average -> flag_is t "reduce" reduce ->
  let t' := process_reduce_and_size_average t in
  dget key_eqb (Some "size_average") t' = None /\
  dget key_eqb (Some "reduce") t' = None /\
  (size_average = None -> reduce = None -> t' = t) /\
  (size_average <> None \/ reduce <> None ->
     dget key_eqb (Some "reduction") t' = Some (triple (legacy_reduction size_average reduce))) /\
  (forall k, k <> Some "size_average" -> k <> Some "reduce" -> k <> Some "reduction" ->
     dget key_eqb k t' = dget key_eqb k t).
Proof.
  intros t sa rd N S R.
  assert (TO : forall n b, flag_is t n b -> truth_of t n = b).
  { intros n b F. unfold truth_of. destruct F as [t n F|t n F|t n F].
    - rewrite (proj2 (dget_none_iff _ key_eqb_spec _ _) F). reflexivity.
    - rewrite (dget_in_nodup _ key_eqb_spec _ _ _ N F). reflexivity.
    - rewrite (dget_in_nodup _ key_eqb_spec _ _ _ N F). reflexivity. }
  unfold process_reduce_and_size_average. rewrite (TO _ _ S), (TO _ _ R). clear TO.
  set (t1 := ddel key_eqb (Some "size_average") t).
  assert (N1 : NoDup (dkeys t1)) by (apply (ddel_nodup _ key_eqb_spec); exact N).
  set (t2 := ddel key_eqb (Some "reduce") t1).
  assert (G1 : dget key_eqb (Some "size_average") t2 = None).
  { unfold t2. rewrite (ddel_get_other _ key_eqb_spec) by discriminate.
    apply (ddel_get_same _ key_eqb_spec). exact N. }
  assert (G2 : dget key_eqb (Some "reduce") t2 = None) by (apply (ddel_get_same _ key_eqb_spec); exact N1).
  assert (G3 : forall k, k <> Some "size_average" -> k <> Some "reduce" -> dget key_eqb k t2 = dget key_eqb k t).
  { intros k A B. unfold t2, t1. rewrite !(ddel_get_other _ key_eqb_spec) by assumption. reflexivity. }
  assert (EQ : sa = None -> rd = None -> t2 = t).
  { intros -> ->. inversion S; inversion R; subst. unfold t2, t1.
    rewrite (ddel_notin _ key_eqb_spec) by (rewrite (ddel_notin _ key_eqb_spec); assumption).
    apply (ddel_notin _ key_eqb_spec). assumption. }
  cbv zeta.
  destruct sa as [[|]|], rd as [[|]|]; cbn [andb legacy_reduction];
    rewrite ?(dget_set_other _ key_eqb_spec) by discriminate;
    rewrite ?(dget_set_same _ key_eqb_spec);
    (split; [exact G1|]); (split; [exact G2|]); (split; [intros; try discriminate; auto|]);
    (split; [intros [?|?]; try congruence; reflexivity|]);
    intros k A B C; rewrite ?(dget_set_other _ key_eqb_spec) by assumption; auto.
Qed.
Print Assumptions C46_legacy_flags.
Example C46_nonvacuous :
  flag_is [(Some "input", "x"); (Some "size_average", "(False)")] "size_average" (Some false) /\
  flag_is [(Some "input", "x"); (Some "size_average", "(False)")] "reduce" None /\
  process_reduce_and_size_average [(Some "input", "x"); (Some "size_average", "(False)")]
  = [(Some "input", "x"); (Some "reduction", triple "sum")].
Proof.
  split; [apply flag_false; right; left; reflexivity|].
  split; [apply flag_absent; cbn; intros [H|[H|[]]]; discriminate|reflexivity].
Qed.

(** C47.  For a name or literal [w] (printed bare or in parentheses) the value given to
    [stop_gradient] reads as the negation of what was passed. *)
Lemma append_snoc (a : string) c b : ((a ++ String c "") ++ b)%string = (a ++ String c b)%string.
Proof. rewrite app_assoc_s. reflexivity. Qed.

Lemma tokens_from_name cur w :
  forallb is_name_char (list_ascii_of_string w) = true -> (cur ++ w)%string <> "" ->
  tokens_from cur w = [(cur ++ w)%string].
Proof.
  revert cur. induction w as [|c w IH]; intros cur H N.
  - cbn [tokens_from]. rewrite app_nil_r_s in *. destruct (String.eqb_spec cur ""); [contradiction|reflexivity].
  - cbn [list_ascii_of_string forallb] in H. apply andb_prop in H as [H1 H2].
    cbn [tokens_from]. rewrite H1. rewrite IH; [rewrite append_snoc; reflexivity|exact H2|].
    rewrite append_snoc. exact N.
Qed.

Lemma tokens_from_close cur w :
  forallb is_name_char (list_ascii_of_string w) = true -> (cur ++ w)%string <> "" ->
  tokens_from cur (w ++ ")") = [(cur ++ w)%string; ")"].
Proof.
  revert cur. induction w as [|c w IH]; intros cur H N.
  - cbn [String.append tokens_from is_name_char is_word is_space in_range]. rewrite app_nil_r_s in *.
    destruct (String.eqb_spec cur ""); [contradiction|reflexivity].
  - cbn [list_ascii_of_string forallb] in H. apply andb_prop in H as [H1 H2].
    cbn [String.append tokens_from]. rewrite H1. rewrite IH; [rewrite append_snoc; reflexivity|exact H2|].
    rewrite append_snoc. exact N.
Qed.

Lemma is_name_parts w : is_name w = true ->
  w <> "" /\ keyword w = false /\ forallb is_name_char (list_ascii_of_string w) = true.
Proof.
  unfold is_name. intros H. apply andb_prop in H as [H H3]. apply andb_prop in H as [H1 H2].
  apply negb_true_iff in H1, H2. split; [intros ->; discriminate|auto].
Qed.

Lemma read_not_name f w r : is_name w = true -> read_not (S f) (w :: r) = Some (BName w, r).
Proof.
  intros H. pose proof (is_name_parts w H) as (N & K & C).
  assert (E : w <> "not" /\ w <> "(").
  { split; intros ->; discriminate. }
  destruct E as [E1 E2]. cbn [read_not].
  transitivity (if is_name w then Some (BName w, r) else None); [|rewrite H; reflexivity].
  clear H N K C. 
  repeat match goal with
  | |- context [match ?x with EmptyString => _ | String _ _ => _ end] => is_var x; destruct x; try reflexivity
  | |- context [match ?x with Ascii _ _ _ _ _ _ _ _ => _ end] => is_var x; destruct x
  | |- context [if ?x then _ else _] => is_var x; destruct x; try reflexivity
  end; congruence.
Qed.

Lemma read_or_name f w r : is_name w = true -> r = [] \/ r = [")"] ->
  read_or (S (S (S f))) (w :: r) = Some (BName w, r).
Proof.
  intros H R. cbn [read_or read_and]. rewrite read_not_name by exact H. destruct R as [->| ->]; reflexivity.
Qed.

Lemma read_name w : is_name w = true -> read w = Some (BName w).
Proof.
  intros H. pose proof (is_name_parts w H) as (N & K & C). unfold read, tokens.
  rewrite tokens_from_name by assumption. change (("" ++ w)%string) with w.
  change (4 * S (List.length [w]))%nat with (S (S (S 5))).
  rewrite read_or_name by auto. reflexivity.
Qed.
Lemma read_paren_name w : is_name w = true -> read ("(" ++ w ++ ")") = Some (BName w).
Proof.
  intros H. pose proof (is_name_parts w H) as (N & K & C). unfold read, tokens.
  change (tokens_from "" ("(" ++ w ++ ")")) with ("(" :: tokens_from "" (w ++ ")")).
  rewrite tokens_from_close by assumption. change (("" ++ w)%string) with w.
  change (4 * S (List.length ["("; w; ")"]))%nat with (S (S (S 13))).
  assert (E : forall f, read_or (S (S (S (S (S (S f)))))) ["("; w; ")"] = Some (BName w, [])).
  { intros f. cbn [read_or]. cbn [read_and].
    change (read_not (S (S (S (S f)))) ["("; w; ")"]) with
      (match read_or (S (S (S f))) [w; ")"] with Some (a, ")" :: r') => Some (a, r') | _ => None end).
    rewrite read_or_name by auto. reflexivity. }
  change (S (S (S 13))) with (S (S (S (S (S (S 10)))))). rewrite E. reflexivity.
Qed.
Lemma read_negated_name w : is_name w = true -> read ("not " ++ w) = Some (BNot (BName w)).
Proof.
  intros H. pose proof (is_name_parts w H) as (N & K & C). unfold read, tokens.
  change (tokens_from "" ("not " ++ w)) with ("not" :: tokens_from "" w).
  rewrite tokens_from_name by assumption. change (("" ++ w)%string) with w.
  assert (E : forall f, read_or (S (S (S (S f)))) ["not"; w] = Some (BNot (BName w), [])).
  { intros f. cbn [read_or]. cbn [read_and].
    change (read_not (S (S f)) ["not"; w]) with
      (match read_not (S f) [w] with Some (a, r') => Some (BNot a, r') | None => None end).
    rewrite read_not_name by exact H. reflexivity. }
  change (4 * S (List.length ["not"; w]))%nat with (S (S (S (S 8)))). rewrite E. reflexivity.
Qed.

Lemma strip_name w : is_name w = true -> strip_by is_paren w = w /\ strip_by is_paren ("(" ++ w ++ ")") = w.
Proof.
  intros H. pose proof (is_name_parts w H) as (N & K & C).
  assert (P : forall c, is_name_char c = true -> is_paren c = false).
  { intros c. unfold is_paren. cbn [mem_char]. rewrite orb_false_r.
    destruct (Ascii.eqb_spec c "("%char) as [->|]; [discriminate|].
    destruct (Ascii.eqb_spec c ")"%char) as [->|]; [discriminate|]. reflexivity. }
  assert (R : forall s, forallb is_name_char (list_ascii_of_string s) = true -> rstrip_by is_paren s = s).
  { induction s as [|c s IH]; intros F; [reflexivity|]. cbn [list_ascii_of_string forallb] in F.
    apply andb_prop in F as [F1 F2]. cbn [rstrip_by]. rewrite (IH F2), (P c F1). destruct s; reflexivity. }
  assert (R2 : forall s, forallb is_name_char (list_ascii_of_string s) = true -> rstrip_by is_paren (s ++ ")") = s).
  { induction s as [|c s IH]; intros F; [reflexivity|]. cbn [list_ascii_of_string forallb] in F.
    apply andb_prop in F as [F1 F2]. cbn [String.append rstrip_by]. rewrite (IH F2), (P c F1). destruct s; reflexivity. }
  assert (L : forall t, lstrip_by is_paren (w ++ t) = (w ++ t)%string).
  { intros t. destruct w as [|c w]; [contradiction|]. cbn [list_ascii_of_string forallb] in C.
    apply andb_prop in C as [C1 _]. cbn [String.append lstrip_by]. rewrite (P c C1). reflexivity. }
  split; unfold strip_by.
  - rewrite <- (app_nil_r_s w) at 1. rewrite L, app_nil_r_s. apply R, C.
  - change (lstrip_by is_paren ("(" ++ w ++ ")")) with (lstrip_by is_paren (w ++ ")")). rewrite L. apply R2, C.
Qed.

Lemma renamed_plain e (t : table) : kwargs_change e = [] ->
  renamed e generic_unused t = filter (fun kv => negb (key_in (fst kv) generic_unused)) t.
Proof.
  intros H. unfold renamed. induction t as [|[[k|] v] t IH]; [reflexivity| |]; cbn [flat_map filter fst snd].
  - rewrite IH. unfold new_names. rewrite H. cbn [dget key_in]. destruct (mem_str k generic_unused); reflexivity.
  - rewrite IH. reflexivity.
Qed.

Lemma new_names_plain_nodup e (t : table) : kwargs_change e = [] -> NoDup (dkeys t) ->
  NoDup (flat_map (fun kv => new_names e generic_unused (fst kv)) t ++
         map fst (filter (fun kv => match new_names e generic_unused (fst kv) with [] => true | _ => false end) t))%list.
Proof.
  intros H N.
  assert (E : forall k, new_names e generic_unused k = if key_in k generic_unused then [] else [k]).
  { intros [k|]; unfold new_names; rewrite ?H; reflexivity. }
  induction t as [|[k v] t IH]; [constructor|].
  cbn [dkeys map fst] in N. inversion N as [|? ? N1 N2]; subst. specialize (IH N2).
  cbn [flat_map filter fst].
  assert (S : forall x, In x (flat_map (fun kv => new_names e generic_unused (fst kv)) t ++
         map fst (filter (fun kv => match new_names e generic_unused (fst kv) with [] => true | _ => false end) t))%list ->
         In x (dkeys t)).
  { intros x Hx. apply in_app_or in Hx as [Hx|Hx].
    - apply in_flat_map in Hx as (kv & Hkv & Hx). rewrite E in Hx.
      destruct (key_in (fst kv) generic_unused); [destruct Hx|]. destruct Hx as [<-|[]]. apply (in_map fst). exact Hkv.
    - apply in_map_iff in Hx as (kv & <- & Hx). apply filter_In in Hx as [Hx _]. apply (in_map fst). exact Hx. }
  destruct (key_in k generic_unused) eqn:K.
  - rewrite (E k), K. cbn [app map fst]. apply NoDup_Add with (a := k) (l := (flat_map (fun kv => new_names e generic_unused (fst kv)) t ++
         map fst (filter (fun kv => match new_names e generic_unused (fst kv) with [] => true | _ => false end) t))%list).
    + apply Add_app.
    + split; [exact IH|]. intros X. apply N1, S, X.
  - rewrite (E k), K. cbn [app]. constructor; [|exact IH]. intros X. apply N1, S, X.
Qed.

Theorem C47_names_negated :
  forall (e : entry) (api fresh v w : string) (t : table),
  kwargs_change e = [] -> paddle_default_kwargs e = [] -> NoDup (dkeys t) ->
  ~ In (Some "out") (dkeys t) ->
  In (Some "requires_grad", v) t ->
  is_name w = true -> v = w \/ v = ("(" ++ w ++ ")")%string ->
  exists value s,
  generic_code e api fresh t =
    (nls ++ fresh ++ " = " ++ value ++ nls ++ fresh ++ ".stop_gradient = " ++ s ++ nls ++ fresh ++ nls)%string /\ read v = Some (BName w) /\ read s = Some (BNot (BName w)) /\
  forall env, truth env (BNot (BName w)) = negb (truth env (BName w)).
Proof.
  intros e api fresh v w t K D N NO I W V.
  pose proof (strip_name w W) as [S1 S2].
  assert (RV : read v = Some (BName w)) by (destruct V as [->| ->]; [apply read_name|apply read_paren_name]; exact W).
  assert (SV : strip_by is_paren v = w) by (destruct V as [->| ->]; assumption).
  rewrite C54_generic_exact; [|apply new_names_plain_nodup; assumption|rewrite D; constructor].
  unfold missing_defaults. rewrite D. cbn [filter map]. rewrite app_nil_r, (renamed_plain e t K).
  set (u := filter _ t). unfold generic_text.
  assert (SP : special_names e = ["dtype"; "pin_memory"; "requires_grad"; "out"]) by (unfold special_names; rewrite K; reflexivity).
  rewrite SP.
  assert (G : value_of u "requires_grad" = Some v).
  { unfold u. rewrite value_of_filter by reflexivity. rewrite value_of_dget. apply (dget_in_nodup _ key_eqb_spec); assumption. }
  assert (O : value_of u "out" = None).
  { unfold u. rewrite value_of_filter by reflexivity. rewrite value_of_dget. apply (dget_none_iff _ key_eqb_spec), NO. }
  rewrite G, O. clearbody u.
  cbn [mem_str existsb String.eqb Ascii.eqb Bool.eqb orb].
  eexists _, _. split; [reflexivity|]. split; [exact RV|]. split; [|reflexivity].
  change (fun c => mem_char c "()") with is_paren. rewrite SV. apply read_negated_name, W.
Qed.
Print Assumptions C47_names_negated.
Example C47_nonvacuous :
  is_name "self.flag" = true /\
  generic_code bare_entry "paddle.ones" "out_0" [(Some "shape", "s"); (Some "requires_grad", "self.flag")]
  = (nls ++ "out_0 = paddle.ones(shape=s)" ++ nls ++ "out_0.stop_gradient = not self.flag" ++ nls ++ "out_0" ++ nls)%string.
Proof. split; reflexivity. Qed.

(** The general claim is false: [requires_grad=(a or b)] becomes [not a or b]. *)
Theorem C47_compound_not_negated_refuted :
  exists (v s : string) (bv bs : bexp) (env : string -> bool),
  generic_code bare_entry "paddle.ones" "out_0" [(Some "shape", "x"); (Some "requires_grad", v)]
    = (nls ++ "out_0 = paddle.ones(shape=x)" ++ nls ++ "out_0.stop_gradient = " ++ s ++ nls ++ "out_0" ++ nls)%string /\ read v = Some bv /\ read s = Some bs /\ truth env bs <> negb (truth env bv).
Proof.
  exists "(a or b)", "not a or b", (BOr (BName "a") (BName "b")), (BOr (BNot (BName "a")) (BName "b")), (fun _ => true).
  split; [reflexivity|]. split; [reflexivity|]. split; [reflexivity|]. discriminate.
Qed.
Print Assumptions C47_compound_not_negated_refuted.
(** ... and [requires_grad=f(x)] becomes text with unbalanced parentheses. *)
Theorem C47_call_unbalanced_refuted :
  generic_code bare_entry "paddle.ones" "out_0" [(Some "shape", "x"); (Some "requires_grad", "f(x)")]
    = (nls ++ "out_0 = paddle.ones(shape=x)" ++ nls ++ "out_0.stop_gradient = not f(x" ++ nls ++ "out_0" ++ nls)%string.
Proof. reflexivity. Qed.
Print Assumptions C47_call_unbalanced_refuted.

(** C148: pooling with random regions. *)
From Verif Require Import PyStr PyStrFacts PyDict PyDictFacts Ast Args ArgsFacts UtilsFile TablesData Generate GenerateData GenerateRel GenerateRows GenericBridge FlagSpec FlagFacts DatasetSpec DatasetFacts DatasetCalls OutSpec OutFacts LrSpec LrFacts PropertiesLr AdamFacts PoolSpec PoolFacts.
Opaque api_mapping generators.

(** What a call becomes, for the sizes already worked out. *)
Lemma pool_call c x t d new dropped i : api_known c None x -> kwargs_change (row_of c) = [] -> paddle_default_kwargs (row_of c) = [] ->
  made_of (texts d) t dropped new -> free_of t pool_foreign -> (forall k, In k pool_foreign -> ~ In k (map fst new)) ->
  exists q s l, exec c g_GenericMatcher (st [] (rename_into pool_names [] d) None i false) = Ret (Some (Text q), s) /\ render q = call_of x l /\ renamed_as pool_names (texts d) l.
Proof.
  intros A C D M F Fn.
  assert (N : NoDup (dkeys d)) by (rewrite <- texts_keys; exact (proj1 M)).
  assert (K : forall k, In k pool_foreign -> ~ In k (dkeys d)) by (apply (made_fresh d t dropped new pool_foreign M F Fn)).
  assert (Z : renamed_as pool_names (texts d) (texts (rename_into pool_names [] d))).
  { apply rename_texts; [unfold pool_names; easy_lists|unfold pool_names; distinct|exact N|]. intros p J. apply K. destruct J as [<-|[<-|[]]]; unfold pool_foreign; cbn [In snd]; tauto. }
  set (e := rename_into pool_names [] d) in *.
  assert (Ne : NoDup (dkeys e)) by (rewrite <- texts_keys; exact (proj1 Z)).
  assert (Fe : forall k, In k pool_foreign -> ~ In k (map snd pool_names) -> ~ In k (dkeys e)).
  { intros k I O J. rewrite <- texts_keys in J. apply in_map_iff in J as ([a v] & Q & J). cbn [fst] in Q. subst a. apply Z in J as (j & J & Q). unfold called in Q.
    destruct (dget String.eqb j pool_names) as [n|] eqn:G.
    - subst n. apply O. apply (dget_some_in _ String.eqb_spec) in G. apply in_map_iff. exists (j, k). split; [reflexivity|exact G].
    - subst j. apply (K k I). rewrite <- texts_keys. apply in_map_iff. exists (k, v). split; [reflexivity|exact J]. }
  assert (U : forall k, In k generic_unused -> ~ In k (dkeys e)).
  { intros k I. apply Fe; [unfold generic_unused in I; unfold pool_foreign; cbn [In] in *; tauto|]. unfold generic_unused in I. cbn [In] in I. decompose [or] I; subst; try contradiction; unfold pool_names; notin. }
  assert (Y : renamed_as [] (texts e) (texts (change_rope (row_of c) [] e))) by (apply renamed_texts; [exact C|intros p []|constructor|exact Ne|intros p []]).
  assert (S : settled c e = change_rope (row_of c) [] e) by (unfold settled; rewrite (unused_free (row_of c) generic_unused e U); unfold default_ropes; rewrite D; reflexivity).
  assert (X : forall k, In k ["dtype"; "pin_memory"; "requires_grad"; "out"] -> dget String.eqb k (settled c e) = None).
  { intros k I. rewrite S. apply (dget_none_iff _ String.eqb_spec). rewrite <- texts_keys. intros J. apply in_map_iff in J as ([a v] & Q & J). cbn [fst] in Q. subst a. apply Y in J as (j & J & Q).
    cbn in Q. subst j. apply (Fe k).
    - unfold pool_foreign. cbn [In] in *. tauto.
    - destruct I as [<-|[<-|[<-|[<-|[]]]]]; unfold pool_names; notin.
    - rewrite <- texts_keys. apply in_map_iff. exists (k, v). split; [reflexivity|exact J]. }
  destruct (generic_call c e i false x A) as (q & s & B & W); [apply X; cbn; tauto|apply X; cbn; tauto|apply X; cbn; tauto|apply X; cbn; tauto|].
  exists q, s, (texts (settled c e)). split; [exact B|]. split; [exact W|]. rewrite S. exact (renamed_same _ _ _ _ Z Y).
Qed.
Definition ropes (sizes : string -> string -> string) (f : rope -> rope -> rope) : Prop := forall x r, render (f x r) = sizes (render x) (render r).
Lemma pool_parts n p sizes : pool n p sizes -> exists s r g f, find (fun r => String.eqb (r_name r) n) api_mapping = Some r /\ generator r = Some (s, g) /\ paddle_api (r_entry r) = Some p /\
  kwargs_change (r_entry r) = [] /\ paddle_default_kwargs (r_entry r) = [] /\ ropes sizes f /\
  forall c d i q s1, dget String.eqb "input" d <> None -> exec c g_GenericMatcher (st [] (rename_into pool_names [] (sized f d)) None i false) = Ret (Some (Text q), s1) ->
    exists s2, exec c g (st [] d None i false) = Ret (Some (Text q), s2).
Proof.
  intros [].
  - assert (J : exists s r, find (fun r => String.eqb (r_name r) "torch.nn.functional.fractional_max_pool2d") api_mapping = Some r /\ generator r = Some (s, g_Fractional_Max_pool2dMatcher) /\
      paddle_api (r_entry r) = Some "paddle.nn.functional.fractional_max_pool2d" /\ kwargs_change (r_entry r) = [] /\ paddle_default_kwargs (r_entry r) = []) by (row_found; repeat split; reflexivity).
    destruct J as (s & r & A & B & C & D & E). exists s, r, g_Fractional_Max_pool2dMatcher, rope_2d. repeat split; try assumption; [exact rope_2d_text|exact pool2_runs].
  - assert (J : exists s r, find (fun r => String.eqb (r_name r) "torch.nn.functional.fractional_max_pool3d") api_mapping = Some r /\ generator r = Some (s, g_Fractional_Max_pool3dMatcher) /\
      paddle_api (r_entry r) = Some "paddle.nn.functional.fractional_max_pool3d" /\ kwargs_change (r_entry r) = [] /\ paddle_default_kwargs (r_entry r) = []) by (row_found; repeat split; reflexivity).
    destruct J as (s & r & A & B & C & D & E). exists s, r, g_Fractional_Max_pool3dMatcher, rope_3d. repeat split; try assumption; [exact rope_3d_text|exact pool3_runs].
Qed.
(** With sizes given, or none. *)
Theorem C148_sizes :
  forall n p sizes args kwargs t x i,
    pool n p sizes -> reads_as n args kwargs t -> (forall v, ~ In (None, v) t) -> free_of t pool_foreign -> passes t "input" x -> (forall r, ~ passes t "output_ratio" r) ->
    exists q u m l, answer n None args kwargs i = Some (Ret (Converted q u)) /\ render q = call_of p l /\ made_of m t [] [] /\ renamed_as pool_names m l.
Proof.
  intros n p sizes args kwargs t x i B R S F P O. destruct (pool_parts n p sizes B) as (s & r & g & f & Fr & G & A & C & D & T & H).
  pose proof (keys_once _ args kwargs t R S) as N. destruct (answer_call _ r s _ args kwargs t i Fr G R) as (c & E & Q & Hc).
  pose proof (made_start t N S) as M. assert (Z : sized f (start t) = start t) by (unfold sized; rewrite (not_got _ args kwargs t R S "output_ratio" O); reflexivity).
  destruct (pool_call c p t (start t) [] [] i (Q _ A) ltac:(rewrite E; exact C) ltac:(rewrite E; exact D) M F ltac:(intros k _ [])) as (q & s1 & l & V & W & Y).
  rewrite <- Z in V. destruct (H c (start t) i q s1) as (s2 & X); [rewrite (got _ args kwargs t R "input" x ltac:(discriminate) P); discriminate|exact V|].
  exists q, (utils s2), (texts (start t)), l. split; [apply Hc; [exact X|rewrite W; apply call_bracket]|]. split; [exact W|]. split; [exact M|exact Y].
Qed.
Print Assumptions C148_sizes.
(** With a ratio, the sizes are its parts of the sizes of the input. *)
Theorem C148_ratio :
  forall n p sizes args kwargs t x r i,
    pool n p sizes -> reads_as n args kwargs t -> (forall v, ~ In (None, v) t) -> free_of t pool_foreign -> passes t "input" x -> passes t "output_ratio" r ->
    exists q u m l, answer n None args kwargs i = Some (Ret (Converted q u)) /\ render q = call_of p l /\
      made_of m t ["output_ratio"] [("output_size", sizes x r)] /\ renamed_as pool_names m l.
Proof.
  intros n p sizes args kwargs t x r i B R S F P O. destruct (pool_parts n p sizes B) as (s & r0 & g & f & Fr & G & A & C & D & T & H).
  pose proof (keys_once _ args kwargs t R S) as N. destruct (answer_call _ r0 s _ args kwargs t i Fr G R) as (c & E & Q & Hc).
  assert (I : dget String.eqb "input" (start t) = Some [MkPiece [Argument "input"] x]) by exact (got _ args kwargs t R "input" x ltac:(discriminate) P).
  assert (M : made_of (texts (sized f (start t))) t ["output_ratio"] [("output_size", sizes x r)]).
  { unfold sized. rewrite I, (got _ args kwargs t R "output_ratio" r ltac:(discriminate) O).
    match goal with |- made_of ?l ?t _ _ => eassert (M : made_of l t _ _) by made end. cbn [app] in M. rewrite T, !render_one in M. exact M. }
  destruct (pool_call c p t (sized f (start t)) _ _ i (Q _ A) ltac:(rewrite E; exact C) ltac:(rewrite E; exact D) M F) as (q & s1 & l & V & W & Y).
  { intros k J [K|[]]. cbn [fst] in K. subst k. unfold pool_foreign in J. cbn [In] in J. decompose [or] J; try discriminate; contradiction. }
  destruct (H c (start t) i q s1) as (s2 & X); [rewrite I; discriminate|exact V|].
  exists q, (utils s2), (texts (sized f (start t))), l. split; [apply Hc; [exact X|rewrite W; apply call_bracket]|]. split; [exact W|]. split; [exact M|exact Y].
Qed.
Print Assumptions C148_ratio.
(** So with output_ratio=None, which is no ratio, the sizes given are lost, and the new code indexes None. *)
Theorem C148_none_refuted :
  forall n p sizes args kwargs t x a i,
    pool n p sizes -> reads_as n args kwargs t -> (forall v, ~ In (None, v) t) -> free_of t pool_foreign -> passes t "input" x -> passes t "output_size" a -> passes t "output_ratio" "None" ->
    exists q u l, answer n None args kwargs i = Some (Ret (Converted q u)) /\ render q = call_of p l /\
      In ("output_size", sizes x "None") l /\ forall b, In ("output_size", b) l -> b = sizes x "None".
Proof.
  intros n p sizes args kwargs t x a i B R S F P _ O. destruct (C148_ratio n p sizes args kwargs t x "None" i B R S F P O) as (q & u & m & l & A & W & [N M] & [_ Z]).
  exists q, u, l. split; [exact A|]. split; [exact W|]. split.
  - apply Z. exists "output_size". split; [|reflexivity]. apply M. left. left. reflexivity.
  - intros b I. apply Z in I as (j & I & Q). unfold called, pool_names in Q. cbn [dget] in Q. destruct (String.eqb j "input"); [discriminate Q|]. destruct (String.eqb j "return_indices"); [discriminate Q|]. subst j.
    apply M in I as [[I|[]]|(K1 & K2 & _)]; [injection I as <-; reflexivity|]. exfalso. first [apply K1; left; reflexivity | apply K2; left; reflexivity].
Qed.
Print Assumptions C148_none_refuted.
Transparent api_mapping generators.
Example C148_nonvacuous :
  (exists t, reads_as "torch.nn.functional.fractional_max_pool2d" [MkExpr false false "y"; MkExpr false false "3"] [MkKw (Some "output_size") (MkExpr false false "(4, 5)"); MkKw (Some "return_indices") (MkExpr false false "True")] t /\
    (forall v, ~ In (None, v) t) /\ free_of t pool_foreign /\ passes t "input" "y" /\ (forall r, ~ passes t "output_ratio" r)) /\
  (exists t, reads_as "torch.nn.functional.fractional_max_pool3d" [MkExpr false false "y"; MkExpr false false "3"; MkExpr false false "s"] [MkKw (Some "output_ratio") (MkExpr false false "None")] t /\
    (forall v, ~ In (None, v) t) /\ free_of t pool_foreign /\ passes t "input" "y" /\ passes t "output_size" "s" /\ passes t "output_ratio" "None").
Proof.
  split.
  - eexists. split; [eexists; split; vm_compute; reflexivity|]. split; [nowhere|]. split; [unfold pool_foreign; nowhere|]. split; [there|nowhere].
  - eexists. split; [eexists; split; vm_compute; reflexivity|]. split; [nowhere|]. split; [unfold pool_foreign; nowhere|]. split; [there|]. split; there.
Qed.

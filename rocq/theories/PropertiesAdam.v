(** C142: optimizers of the Adam family. *)
From Verif Require Import PyStr PyStrFacts PyDict PyDictFacts Ast Args ArgsFacts UtilsFile TablesData Generate GenerateData GenerateRel GenerateRows FlagSpec FlagFacts DatasetSpec DatasetFacts DatasetCalls OutSpec OutFacts LrSpec LrFacts PropertiesLr AdamSpec AdamFacts.
Opaque api_mapping generators.

Lemma adam_rows n p w : In (n, p, w) adam_family -> exists s r, find (fun r => String.eqb (r_name r) n) api_mapping = Some r /\ generator r = Some (s, g_OptimAdamMatcher) /\
  paddle_api (r_entry r) = Some p /\ kwargs_change (r_entry r) = renaming_of paddle_names /\ paddle_default_kwargs (r_entry r) = if w then [("weight_decay", "0.0")] else [].
Proof.
  intros [E|[E|[E|[E|[]]]]]; injection E as <- <- <-; row_found; (split; [reflexivity|split; reflexivity]).
Qed.
Theorem C142_optimizers :
  forall n p w args kwargs t dropped new i,
    In (n, p, w) adam_family -> reads_as n args kwargs t -> (forall v, ~ In (None, v) t) -> free_of t foreign -> betas_split t dropped new ->
    exists q u m l l',
      answer n None args kwargs i = Some (Ret (Converted q u)) /\ render q = call_of p l' /\
      made_of m t dropped new /\ renamed_as paddle_names m l /\ (if w then filled "weight_decay" "0.0" l l' else l' = l).
Proof.
  intros n p w args kwargs t dropped new i I R S F B. destruct (adam_rows n p w I) as (s & r & Fr & G & A & C & D).
  pose proof (keys_once _ args kwargs t R S) as N. destruct (answer_call _ r s _ args kwargs t i Fr G R) as (c & E & Q & H).
  set (d := match dget String.eqb "betas" (start t) with Some b => with_betas b (start t) | None => start t end).
  assert (M : made_of (texts d) t dropped new).
  { unfold d. destruct B as [(b & P & -> & ->)|(P & -> & ->)].
    - rewrite (got _ args kwargs t R "betas" b ltac:(discriminate) P). unfold with_betas.
      match goal with |- made_of ?l ?t _ _ => eassert (M : made_of l t _ _) by made end.
      replace (b ++ "[0]") with (render (MkPiece [] "" :: [MkPiece [Argument "betas"] b] ++ [MkPiece [] "[0]"])%list) by txo.
      replace (b ++ "[1]") with (render (MkPiece [] "" :: [MkPiece [Argument "betas"] b] ++ [MkPiece [] "[1]"])%list) by txo. exact M.
    - rewrite (not_got _ args kwargs t R S "betas" P). apply made_start; assumption. }
  assert (Fn : forall k, In k foreign -> ~ In k (map fst new)).
  { clear -B. intros k I. destruct B as [(b & _ & _ & ->)|(_ & _ & ->)]; [|intros []]. intros [<-|[<-|[]]]; cbn in I; repeat (destruct I as [I|I]; [discriminate I|]); exact I. }
  assert (K : forall k, In k foreign -> ~ In k (dkeys d)) by (apply (made_fresh d t dropped new foreign M F Fn)).
  assert (U : forall k, In k generic_unused -> ~ In k (dkeys d)) by (intros k J; apply K; unfold generic_unused in J; unfold foreign; cbn [In] in *; tauto).
  pose proof M as [Nd _]. rewrite texts_keys in Nd.
  assert (Z : renamed_as paddle_names (texts d) (texts (change_rope (row_of c) [] d))).
  { apply renamed_texts; [rewrite E; exact C|unfold paddle_names; easy_lists|unfold paddle_names; distinct|exact Nd|].
    intros x J. apply K. unfold paddle_names in J. destruct J as [<-|[<-|[<-|[]]]]; unfold foreign; cbn [In snd]; tauto. }
  assert (X : forall k, In k ["dtype"; "pin_memory"; "requires_grad"; "out"] -> dget String.eqb k (settled c d) = None).
  { intros k J. assert (L : In k foreign) by (unfold foreign; cbn [In] in *; tauto). apply (settled_absent c paddle_names d t dropped new).
    - exact Z.
    - exact M.
    - exact U.
    - unfold paddle_names. destruct J as [<-|[<-|[<-|[<-|[]]]]]; notin.
    - exact (Fn k L).
    - intros v. exact (F k v L).
    - unfold default_ropes. rewrite E, D. destruct w; cbn; repeat constructor. intros [].
    - unfold default_ropes. rewrite E, D. destruct w; [|intros []]. destruct J as [<-|[<-|[<-|[<-|[]]]]]; notin. }
  destruct (generic_call c d i false p (Q _ A)) as (q & s1 & V & T); [apply X; cbn; tauto|apply X; cbn; tauto|apply X; cbn; tauto|apply X; cbn; tauto|].
  destruct (adam_runs c (start t) i q s1 V) as (s2 & W).
  exists q, (utils s2), (texts d), (texts (change_rope (row_of c) [] d)), (texts (settled c d)).
  split; [apply H; [exact W|rewrite T; apply call_bracket]|]. split; [exact T|]. split; [exact M|]. split; [exact Z|].
  unfold settled, default_ropes. rewrite (unused_free (row_of c) generic_unused d U). rewrite E, D. destruct w; [apply filled_texts|reflexivity].
Qed.
Print Assumptions C142_optimizers.
Transparent api_mapping generators.
Example C142_nonvacuous :
  exists t, reads_as "torch.optim.Adam" [MkExpr false false "p"; MkExpr false false "0.1"] [MkKw (Some "betas") (MkExpr false false "b")] t /\
    (forall v, ~ In (None, v) t) /\ free_of t foreign /\ betas_split t ["betas"] [("beta1", "b[0]"); ("beta2", "b[1]")] /\ In ("torch.optim.Adam", "paddle.optimizer.Adam", true) adam_family.
Proof.
  eexists. split; [eexists; split; [vm_compute; reflexivity|vm_compute; reflexivity]|].
  split; [nowhere|]. split; [unfold foreign; nowhere|]. split; [left; exists "b"; split; [there|split; reflexivity]|left; reflexivity].
Qed.

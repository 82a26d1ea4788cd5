(** C144: several results of one call. *)
From Verif Require Import PyStr PyStrFacts PyDict PyDictFacts Ast Args ArgsFacts UtilsFile TablesData Generate GenerateData GenerateRel GenerateRows FlagSpec FlagFacts DatasetSpec DatasetFacts DatasetCalls OutSpec OutFacts LrSpec LrFacts PropertiesLr AdamFacts PairSpec PairFacts.
Opaque api_mapping generators.

(** The deviation gets all arguments, the mean all but those that only a deviation has. *)
Theorem C144_std_mean :
  forall args kwargs t i, reads_as "torch.std_mean" args kwargs t ->
    exists q u l l', answer "torch.std_mean" None args kwargs i = Some (Ret (Converted q u)) /\
      render q = pair_of (call_of "paddle.std" l) (call_of "paddle.mean" l') /\ made_of l t [] [] /\ made_of l' t ["correction"; "unbiased"] [].
Proof.
  intros args kwargs t i R.
  assert (J : exists s r, find (fun r => String.eqb (r_name r) "torch.std_mean") api_mapping = Some r /\ generator r = Some (s, g_StdMeanMatcher) /\ unsupport_args (r_entry r) = [])
    by (row_found; reflexivity).
  destruct J as (s & r & Fr & G & U). pose proof (known_star _ r args kwargs t Fr U R) as S. pose proof (keys_once _ args kwargs t R S) as N.
  destruct (answer_line _ r s _ args kwargs t i Fr G R) as (c & E & Q & H). destruct (std_runs c (start t) i) as (q & s1 & B & V).
  eexists; eexists; eexists; eexists. split; [eapply H; [exact B|rewrite V; reflexivity]|]. split; [exact V|]. split; [apply made_start; assumption|made_it].
Qed.
Print Assumptions C144_std_mean.
Theorem C144_var_mean :
  forall args kwargs t i, reads_as "torch.var_mean" args kwargs t ->
    exists q u l l', answer "torch.var_mean" None args kwargs i = Some (Ret (Converted q u)) /\
      render q = pair_of (call_of "paddle.var" l) (call_of "paddle.mean" l') /\ made_of l t [] [] /\ made_of l' t ["correction"; "unbiased"] [].
Proof.
  intros args kwargs t i R.
  assert (J : exists s r, find (fun r => String.eqb (r_name r) "torch.var_mean") api_mapping = Some r /\ generator r = Some (s, g_VarMeanMatcher) /\ unsupport_args (r_entry r) = [])
    by (row_found; reflexivity).
  destruct J as (s & r & Fr & G & U). pose proof (known_star _ r args kwargs t Fr U R) as S. pose proof (keys_once _ args kwargs t R S) as N.
  destruct (answer_line _ r s _ args kwargs t i Fr G R) as (c & E & Q & H). destruct (var_runs c (start t) i) as (q & s1 & B & V).
  eexists; eexists; eexists; eexists. split; [eapply H; [exact B|rewrite V; reflexivity]|]. split; [exact V|]. split; [apply made_start; assumption|made_it].
Qed.
Print Assumptions C144_var_mean.

Definition unpack_names : list (string * string) := [("LU_data", "x"); ("LU_pivots", "y"); ("unpack_data", "unpack_ludata")].
Lemma unpack_row : exists s r, find (fun r => String.eqb (r_name r) "torch.lu_unpack") api_mapping = Some r /\ generator r = Some (s, g_Lu_unpackMatcher) /\
  paddle_api (r_entry r) = Some "paddle.linalg.lu_unpack" /\ kwargs_change (r_entry r) = renaming_of unpack_names /\ paddle_default_kwargs (r_entry r) = [] /\ unsupport_args (r_entry r) = [] /\
  forall k, In k (map snd unpack_names) -> mem_str k (position_args (r_entry r) ++ args_list (r_entry r) ++ overload_args_list (r_entry r))%list = false.
Proof. row_found. repeat (split; [reflexivity|]). intros k [<-|[<-|[<-|[]]]]; vm_compute; reflexivity. Qed.
(** The arguments under their new names. *)
Lemma unpack_parts args kwargs t : reads_as "torch.lu_unpack" args kwargs t -> forall s r, find (fun r => String.eqb (r_name r) "torch.lu_unpack") api_mapping = Some r ->
  generator r = Some (s, g_Lu_unpackMatcher) -> kwargs_change (r_entry r) = renaming_of unpack_names -> paddle_default_kwargs (r_entry r) = [] -> unsupport_args (r_entry r) = [] ->
  (forall k, In k (map snd unpack_names) -> mem_str k (position_args (r_entry r) ++ args_list (r_entry r) ++ overload_args_list (r_entry r))%list = false) ->
  forall c, row_of c = r_entry r ->
  (forall j n v, called unpack_names j = n -> In (Some j, v) t -> exists x, dget String.eqb n (changed c (start t)) = Some x /\ render x = v) /\
  (forall n x, dget String.eqb n (changed c (start t)) = Some x -> exists j, called unpack_names j = n /\ passes t j (render x)) /\
  exists m, made_of m t ["out"] [] /\ renamed_as unpack_names m (texts (ddel String.eqb "out" (changed c (start t)))).
Proof.
  intros R s r Fr G C D U Un c E. pose proof (known_star _ r args kwargs t Fr U R) as S. pose proof (keys_once _ args kwargs t R S) as N.
  assert (F : forall k, In k (map snd unpack_names) -> ~ In k (dkeys (start t))).
  { intros k I J. rewrite <- texts_keys in J. apply in_map_iff in J as ([a v] & <- & J). apply (member_start _ _ _ S) in J. exact (unknown _ r args kwargs t Fr U R _ _ (Un _ I) J). }
  assert (Z : renamed_as unpack_names (texts (start t)) (texts (changed c (start t)))).
  { unfold changed, default_ropes. rewrite E, D. apply renamed_texts; [exact C|unfold unpack_names; easy_lists|unfold unpack_names; distinct|exact N|].
    intros p I. apply F. apply in_map_iff. exists p. split; [reflexivity|exact I]. }
  assert (Nc : NoDup (dkeys (changed c (start t)))) by (rewrite <- texts_keys; exact (proj1 Z)).
  split; [|split].
  - intros j n v <- I. apply in_texts; [exact Nc|]. apply Z. exists j. split; [apply (member_start _ _ _ S); exact I|reflexivity].
  - intros n x X. assert (I : In (n, render x) (texts (changed c (start t)))) by (apply in_texts; [exact Nc|exists x; split; [exact X|reflexivity]]).
    apply Z in I as (j & I & ->). exists j. split; [reflexivity|]. apply (member_start _ _ _ S) in I. exact I.
  - exists (texts (ddel String.eqb "out" (start t))). split; [made_it|]. apply renamed_out; [|exact N|exact Nc|exact Z].
    intros j _. split; [|intros ->; reflexivity]. unfold called, unpack_names. cbn [dget]. repeat (destruct (String.eqb j _); [discriminate|]). intros H; exact H.
Qed.
(** The three results arrive in the tuple given as out, but empty tensors for those that the
    call asks to leave out. *)
Theorem C144_lu_unpack :
  forall args kwargs t o r1 r2 r3 i,
    reads_as "torch.lu_unpack" args kwargs t -> passes t "out" o -> o <> "None" ->
    unless_off t "unpack_pivots" "out1" r1 -> unless_off t "unpack_data" "out2" r2 -> unless_off t "unpack_data" "out3" r3 ->
    exists q u m l, answer "torch.lu_unpack" None args kwargs i = Some (Ret (Converted q u)) /\
      render q = lines ["out1, out2, out3 = " ++ call_of "paddle.linalg.lu_unpack" l; handed "" o 0 [r1; r2; r3]] /\
      made_of m t ["out"] [] /\ renamed_as unpack_names m l.
Proof.
  intros args kwargs t o r1 r2 r3 i R P O O1 O2 O3. destruct unpack_row as (s & r & Fr & G & A & C & D & U & Un).
  destruct (answer_line _ r s _ args kwargs t i Fr G R) as (c & E & Q & H).
  destruct (unpack_parts args kwargs t R s r Fr G C D U Un c E) as (Get & Got & m & M & Z).
  destruct (Get "out" "out" o eq_refl P) as (x & X & <-).
  assert (Off : forall j k y z w, called unpack_names j = k -> (forall j', called unpack_names j' = k -> passes t j' "(False)" -> j' = j) -> unless_off t j y w ->
     z = "paddle.paddle.to_tensor([])" -> (if off k (changed c (start t)) then z else y) = w).
  { intros j k y z w K One [[Y ->]|[Y ->]] ->; unfold off.
    - destruct (Get j k _ K Y) as (v & -> & V). rewrite V. reflexivity.
    - destruct (dget String.eqb k (changed c (start t))) as [v|] eqn:V; [|reflexivity]. destruct (Got _ _ V) as (j' & K' & P').
      destruct (String.eqb_spec (render v) "(False)") as [W|_]; [|reflexivity]. exfalso. rewrite W in P'. rewrite (One j' K' P') in P'. exact (Y P'). }
  assert (Uk : forall k v, In k (map snd unpack_names) -> ~ passes t k v) by (intros k v I; exact (unknown _ r args kwargs t Fr U R k v (Un k I))).
  assert (One1 : forall j', called unpack_names j' = "unpack_pivots" -> passes t j' "(False)" -> j' = "unpack_pivots").
  { intros j' K' _. revert K'. unfold called, unpack_names. cbn [dget]. repeat (destruct (String.eqb j' _); [discriminate|]). intros K'; exact K'. }
  assert (One2 : forall j', called unpack_names j' = "unpack_ludata" -> passes t j' "(False)" -> j' = "unpack_data").
  { intros j' K' P'. revert K'. unfold called, unpack_names. cbn [dget]. destruct (String.eqb j' "LU_data"); [discriminate|]. destruct (String.eqb j' "LU_pivots"); [discriminate|].
    destruct (String.eqb_spec j' "unpack_data") as [->|_]; [reflexivity|]. intros ->. exfalso. apply (Uk "unpack_ludata" "(False)"); [unfold unpack_names; cbn; tauto|exact P']. }
  destruct (unpack_runs c (start t) i _ x (Q _ A) X) as (q & s1 & B & V); [apply String.eqb_neq; exact O|]. cbv zeta in V.
  rewrite (Off "unpack_pivots" "unpack_pivots" "out1" _ r1 eq_refl One1 O1 eq_refl), (Off "unpack_data" "unpack_ludata" "out2" _ r2 eq_refl One2 O2 eq_refl), (Off "unpack_data" "unpack_ludata" "out3" _ r3 eq_refl One2 O3 eq_refl) in V.
  eexists; eexists; exists m; eexists. split; [eapply H; [exact B|rewrite V; reflexivity]|]. split; [exact V|]. split; [exact M|exact Z].
Qed.
Print Assumptions C144_lu_unpack.
Theorem C144_lu_unpack_plain :
  forall args kwargs t i,
    reads_as "torch.lu_unpack" args kwargs t -> (forall o, passes t "out" o -> o = "None") ->
    exists q u m l, answer "torch.lu_unpack" None args kwargs i = Some (Ret (Converted q u)) /\
      render q = call_of "paddle.linalg.lu_unpack" l /\ made_of m t ["out"] [] /\ renamed_as unpack_names m l.
Proof.
  intros args kwargs t i R P. destruct unpack_row as (s & r & Fr & G & A & C & D & U & Un).
  destruct (answer_call _ r s _ args kwargs t i Fr G R) as (c & E & Q & H).
  destruct (unpack_parts args kwargs t R s r Fr G C D U Un c E) as (Get & Got & m & M & Z).
  destruct (unpack_plain c (start t) i _ (Q _ A)) as (q & s1 & B & V).
  { intros o X. destruct (Got _ _ X) as (j & K & Pj). apply String.eqb_eq. apply P. revert K. unfold called, unpack_names. cbn [dget]. repeat (destruct (String.eqb j _); [discriminate|]). intros <-. exact Pj. }
  eexists; eexists; exists m; eexists. split; [eapply H; [exact B|rewrite V; apply call_bracket]|]. split; [exact V|]. split; [exact M|exact Z].
Qed.
Print Assumptions C144_lu_unpack_plain.
Transparent api_mapping generators.
Example C144_nonvacuous :
  (exists t, reads_as "torch.std_mean" [MkExpr false false "x"; MkExpr false false "1"] [MkKw (Some "correction") (MkExpr false false "0")] t) /\
  (exists t, reads_as "torch.var_mean" [MkExpr false false "x"] [] t) /\
  (exists t, reads_as "torch.lu_unpack" [MkExpr false false "a"; MkExpr false false "p"; MkExpr false false "(False)"] [MkKw (Some "out") (MkExpr false false "res")] t /\
    passes t "out" "res" /\ unless_off t "unpack_pivots" "out1" "out1" /\ unless_off t "unpack_data" "out2" "paddle.paddle.to_tensor([])") /\
  (exists t, reads_as "torch.lu_unpack" [MkExpr false false "a"; MkExpr false false "p"] [MkKw (Some "out") (MkExpr false true "None")] t /\ (forall o, passes t "out" o -> o = "None")).
Proof.
  split; [|split; [|split]].
  - eexists. eexists. split; vm_compute; reflexivity.
  - eexists. eexists. split; vm_compute; reflexivity.
  - eexists. split; [eexists; split; vm_compute; reflexivity|]. split; [there|]. split; [right; split; [nowhere|reflexivity]|left; split; [there|reflexivity]].
  - eexists. split; [eexists; split; vm_compute; reflexivity|]. nowhere.
Qed.

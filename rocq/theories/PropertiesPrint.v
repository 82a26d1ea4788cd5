(** C143: options for printing. *)
From Verif Require Import PyStr PyStrFacts PyDict PyDictFacts Ast Args ArgsFacts UtilsFile TablesData Generate GenerateData GenerateRel GenerateRows FlagSpec FlagFacts DatasetSpec DatasetFacts DatasetCalls OutSpec OutFacts LrSpec LrFacts PropertiesLr AdamFacts PrintSpec PrintFacts.
Opaque api_mapping generators.

Lemma lits_texts l : texts (lits l) = l.
Proof. unfold texts, lits. rewrite map_map. rewrite <- (map_id l) at 2. apply map_ext. intros [k v]. cbn [fst snd]. unfold lit. rewrite render_one. reflexivity. Qed.
Lemma lits_keys l : dkeys (lits l) = map fst l.
Proof. unfold dkeys, lits. apply map_map. Qed.
Lemma member_missing d l k v : NoDup (dkeys d) -> NoDup (map fst l) ->
  In (k, v) (texts (add_missing d (lits l))) <-> In (k, v) (texts d) \/ (~ In k (dkeys d) /\ In (k, v) l).
Proof.
  intros N K. rewrite in_texts by (apply missing_nodup; exact N). rewrite missing_get by (rewrite lits_keys; exact K). rewrite (in_texts d) by exact N. split.
  - intros (r & E & <-). destruct (dget String.eqb k d) as [x|] eqn:G; [injection E as ->; left; exists r; split; [reflexivity|reflexivity]|].
    right. split; [apply (dget_none_iff _ String.eqb_spec); exact G|]. rewrite <- (lits_texts l). apply in_texts; [rewrite lits_keys; exact K|]. exists r. split; [exact E|reflexivity].
  - intros [(r & -> & E)|[G I]]; [exists r; split; [reflexivity|exact E]|]. apply (dget_none_iff _ String.eqb_spec) in G. rewrite G.
    rewrite <- (lits_texts l) in I. apply in_texts in I; [exact I|rewrite lits_keys; exact K].
Qed.
Lemma print_row : exists s r, find (fun r => String.eqb (r_name r) "torch.set_printoptions") api_mapping = Some r /\ generator r = Some (s, g_SetPrintOptionsMatcher) /\
  paddle_api (r_entry r) = Some "paddle.set_printoptions" /\ kwargs_change (r_entry r) = renaming_of [] /\
  paddle_default_kwargs (r_entry r) = [("precision", "4")] /\ unsupport_args (r_entry r) = [] /\
  (position_args (r_entry r) ++ args_list (r_entry r) ++ overload_args_list (r_entry r))%list =
   ["precision"; "threshold"; "edgeitems"; "linewidth"; "profile"; "sci_mode"; "precision"; "threshold"; "edgeitems"; "linewidth"; "profile"; "sci_mode"].
Proof. row_found. repeat (split; [reflexivity|]). vm_compute. reflexivity. Qed.
(** The arguments of the new call, for the arguments [d] that are left when the profile is read. *)
Lemma print_answer args kwargs t d i (pro : list (string * string)) :
  reads_as "torch.set_printoptions" args kwargs t ->
  (forall k, In k (map fst pro) -> In k ["precision"; "threshold"; "edgeitems"; "linewidth"]) -> NoDup (map fst pro) ->
  (forall c q s, exec c g_GenericMatcher (st [] d None i false) = Ret (Some (Text q), s) -> exists s1, exec c g_SetPrintOptionsMatcher (st [] (start t) None i false) = Ret (Some (Text q), s1)) ->
  NoDup (dkeys d) ->
  (forall k v, In (k, v) (texts d) <-> (k <> "profile" /\ passes t k v) \/ ((forall w, ~ passes t k w) /\ In (k, v) pro)) ->
  exists q u l, answer "torch.set_printoptions" None args kwargs i = Some (Ret (Converted q u)) /\ render q = call_of "paddle.set_printoptions" l /\
    options t (if mem_str "precision" (map fst pro) then pro else pro ++ [("precision", "4")]%list)%list l.
Proof.
  intros R Pk Pn X N M. destruct print_row as (s & r & Fr & G & A & C & D & U & L).
  destruct (answer_call _ r s _ args kwargs t i Fr G R) as (c & E & Q & H).
  assert (W : forall k v, mem_str k ["precision"; "threshold"; "edgeitems"; "linewidth"; "profile"; "sci_mode"; "precision"; "threshold"; "edgeitems"; "linewidth"; "profile"; "sci_mode"] = false -> ~ passes t k v).
  { intros k v K. rewrite <- L in K. exact (unknown _ r args kwargs t Fr U R k v K). }
  assert (V : forall k, mem_str k ["precision"; "threshold"; "edgeitems"; "linewidth"; "profile"; "sci_mode"; "precision"; "threshold"; "edgeitems"; "linewidth"; "profile"; "sci_mode"] = false -> ~ In k (dkeys d)).
  { intros k K I. rewrite <- texts_keys in I. apply in_map_iff in I as ([a v] & <- & I). cbn [fst] in K. apply M in I as [[_ I]|[_ I]]; [exact (W _ _ K I)|].
    assert (J : In a (map fst pro)) by (apply in_map_iff; exists (a, v); split; [reflexivity|exact I]). apply Pk in J. apply mem_str_false in K. apply K. cbn [In] in *. tauto. }
  assert (Un : forall k, In k generic_unused -> ~ In k (dkeys d)).
  { intros k I. apply V. unfold generic_unused in I. cbn [In] in I. repeat (destruct I as [<-|I]; [reflexivity|]). destruct I. }
  assert (Z : renamed_as [] (texts d) (texts (change_rope (row_of c) [] d))).
  { apply renamed_texts; [rewrite E; exact C|intros ? []|constructor|exact N|intros ? []]. }
  assert (Nc : NoDup (dkeys (change_rope (row_of c) [] d))) by apply change_nodup.
  assert (S : settled c d = add_missing (change_rope (row_of c) [] d) (lits [("precision", "4")])).
  { unfold settled, default_ropes. rewrite (unused_free (row_of c) generic_unused d Un). rewrite E, D. reflexivity. }
  assert (Y : forall k v, In (k, v) (texts (settled c d)) <-> In (k, v) (texts d) \/ (~ In k (dkeys d) /\ In (k, v) [("precision", "4")])).
  { intros k v. rewrite S, member_missing; [|exact Nc|repeat constructor; intros []]. rewrite (unrenamed _ _ Z).
    assert (K : In k (dkeys (change_rope (row_of c) [] d)) <-> In k (dkeys d)).
    { rewrite <- !texts_keys. rewrite !in_map_iff. split; intros ([a w] & B & I); exists (a, w); (split; [exact B|]); apply (unrenamed _ _ Z); exact I. }
    rewrite K. reflexivity. }
  assert (Ns : NoDup (dkeys (settled c d))) by (rewrite S; apply missing_nodup; exact Nc).
  assert (O : forall k, mem_str k ["precision"; "threshold"; "edgeitems"; "linewidth"; "profile"; "sci_mode"; "precision"; "threshold"; "edgeitems"; "linewidth"; "profile"; "sci_mode"] = false -> dget String.eqb k (settled c d) = None).
  { intros k K. apply (dget_none_iff _ String.eqb_spec). rewrite <- texts_keys. intros I. apply in_map_iff in I as ([a v] & <- & I). cbn [fst] in K. apply Y in I as [I|[_ [I|[]]]].
    - apply (V a K). rewrite <- texts_keys. apply in_map_iff. exists (a, v). split; [reflexivity|exact I].
    - injection I as <- <-. discriminate K. }
  destruct (generic_call c d i false _ (Q _ A)) as (q & s1 & B & T); [apply O; reflexivity|apply O; reflexivity|apply O; reflexivity|apply O; reflexivity|].
  destruct (X c q s1 B) as (s2 & B2).
  exists q, (utils s2), (texts (settled c d)). split; [apply H; [exact B2|rewrite T; apply call_bracket]|]. split; [exact T|].
  split; [rewrite texts_keys; exact Ns|]. intros k v. rewrite Y, M.
  assert (Kd : In k (dkeys d) <-> (k <> "profile" /\ exists w, passes t k w) \/ ((forall w, ~ passes t k w) /\ In k (map fst pro))).
  { rewrite <- texts_keys. rewrite in_map_iff. split.
    - intros ([a w] & <- & I). cbn [fst]. apply M in I as [[I1 I2]|[I1 I2]]; [left; split; [exact I1|exists w; exact I2]|right; split; [exact I1|apply in_map_iff; exists (a, w); split; [reflexivity|exact I2]]].
    - intros [[I1 [w I2]]|[I1 I2]]; [exists (k, w); split; [reflexivity|apply M; left; split; assumption]|].
      apply in_map_iff in I2 as ([a w] & <- & I2). exists (a, w). split; [reflexivity|]. apply M. right. split; assumption. }
  destruct (mem_str "precision" (map fst pro)) eqn:Mp.
  - split; [intros [J|[J1 [J2|[]]]]; [exact J|]|intros J; left; exact J]. injection J2 as <- <-. exfalso. apply J1. apply Kd. apply mem_str_In in Mp.
    destruct (in_dec string_dec "precision" (map (fun kv => match fst kv with Some k => k | None => "" end) t)) as [I|I].
    + left. split; [discriminate|]. apply in_map_iff in I as ([[a|] w] & Ea & I); cbn in Ea; [subst a; exists w; exact I|discriminate Ea].
    + right. split; [|exact Mp]. intros w J. apply I. apply in_map_iff. exists (Some "precision", w). split; [reflexivity|exact J].
  - apply mem_str_false in Mp. rewrite in_app_iff. split.
    + intros [[J|[J1 J2]]|[J1 [J2|[]]]]; [left; exact J|right; split; [exact J1|left; exact J2]|]. injection J2 as <- <-. right. split; [|right; left; reflexivity].
      intros w J. apply J1. apply Kd. left. split; [discriminate|exists w; exact J].
    + intros [J|[J1 [J2|[J2|[]]]]]; [left; left; exact J|left; right; split; assumption|]. injection J2 as <- <-. right. split; [|left; reflexivity].
      intros J. apply Kd in J as [[_ [w J]]|[_ J]]; [exact (J1 w J)|exact (Mp J)].
Qed.
Lemma given_keys t k : (exists w, passes t k w) \/ (forall w, ~ passes t k w).
Proof.
  induction t as [|[[a|] w] t IH]; [right; intros w []| |].
  - destruct (string_dec a k) as [->|D]; [left; exists w; left; reflexivity|]. destruct IH as [[x I]|I]; [left; exists x; right; exact I|right].
    intros x [J|J]; [injection J as J1 _; exact (D J1)|exact (I x J)].
  - destruct IH as [[x I]|I]; [left; exists x; right; exact I|right]. intros x [J|J]; [discriminate J|exact (I x J)].
Qed.
(** The dictionary after the profile is read. *)
Lemma print_left args kwargs t p pro : reads_as "torch.set_printoptions" args kwargs t -> passes t "profile" p -> NoDup (map fst pro) -> ~ In "profile" (map fst pro) ->
  let d := ddel String.eqb "profile" (add_missing (start t) (lits pro)) in
  NoDup (dkeys d) /\ forall k v, In (k, v) (texts d) <-> (k <> "profile" /\ passes t k v) \/ ((forall w, ~ passes t k w) /\ In (k, v) pro).
Proof.
  intros R P N F. destruct print_row as (s & r & Fr & _ & _ & _ & _ & U & _).
  pose proof (known_star _ r args kwargs t Fr U R) as S. pose proof (keys_once _ args kwargs t R S) as K.
  assert (A : NoDup (dkeys (add_missing (start t) (lits pro)))) by (apply missing_nodup; exact K).
  split; [apply out_nodup; exact A|]. intros k v. rewrite member_out by exact A. rewrite member_missing by assumption. rewrite (member_start _ _ _ S).
  assert (G : ~ In k (dkeys (start t)) <-> forall w, ~ passes t k w).
  { rewrite <- texts_keys. split.
    - intros I w J. apply I. apply in_map_iff. exists (k, w). split; [reflexivity|]. apply (member_start _ _ _ S). exact J.
    - intros I J. apply in_map_iff in J as ([a w] & <- & J). apply (member_start _ _ _ S) in J. exact (I w J). }
  rewrite G. unfold passes. split.
  - intros [D [I|I]]; [left; split; assumption|right; exact I].
  - intros [[D I]|[I J]]; [split; [exact D|left; exact I]|]. split; [intros ->; exact (I p P)|right; split; assumption].
Qed.

(** A profile gives the options that are not given themselves. *)
Theorem C143_profile :
  forall args kwargs t p others i,
    reads_as "torch.set_printoptions" args kwargs t -> passes t "profile" p -> profile_of p = Some others ->
    exists q u l, answer "torch.set_printoptions" None args kwargs i = Some (Ret (Converted q u)) /\
      render q = call_of "paddle.set_printoptions" l /\ options t others l.
Proof.
  intros args kwargs t p others i R P O.
  assert (K : map fst others = ["precision"; "threshold"; "edgeitems"; "linewidth"]).
  { revert O. unfold profile_of. destruct (String.eqb p _); [intros E; injection E as <-; reflexivity|]. destruct (String.eqb p _); [intros E; injection E as <-; reflexivity|].
    destruct (String.eqb p _); [intros E; injection E as <-; reflexivity|discriminate]. }
  assert (N : NoDup (map fst others)) by (rewrite K; distinct).
  destruct (print_left args kwargs t p others R P N) as [Nd M]; [rewrite K; notin|].
  set (d := ddel String.eqb "profile" (add_missing (start t) (lits others))) in *.
  destruct (print_answer args kwargs t d i others R) as (q & u & l & A & T & L).
  - rewrite K. intros k I. exact I.
  - exact N.
  - intros c q s Q. apply (print_runs c (start t) i [MkPiece [Argument "profile"] p] q s).
    + exact (got _ args kwargs t R "profile" p ltac:(discriminate) P).
    + rewrite render_one, O. exact Q.
  - exact Nd.
  - exact M.
  - rewrite K in L. exists q, u, l. split; [exact A|]. split; [exact T|exact L].
Qed.
Print Assumptions C143_profile.

(** Without a profile the options are passed on, but the precision is always set: PyTorch
    leaves it as it is. *)
Theorem C143_precision_refuted :
  forall args kwargs t i,
    reads_as "torch.set_printoptions" args kwargs t -> (forall p, ~ passes t "profile" p) ->
    exists q u l, answer "torch.set_printoptions" None args kwargs i = Some (Ret (Converted q u)) /\
      render q = call_of "paddle.set_printoptions" l /\ options t [("precision", "4")] l.
Proof.
  intros args kwargs t i R P. destruct print_row as (s & r & Fr & _ & _ & _ & _ & U & _).
  pose proof (known_star _ r args kwargs t Fr U R) as S. pose proof (keys_once _ args kwargs t R S) as K.
  destruct (print_answer args kwargs t (start t) i [] R) as (q & u & l & A & T & L).
  - intros k [].
  - constructor.
  - intros c q s0 Q. apply (print_plain c (start t) i q s0); [exact (not_got _ args kwargs t R S "profile" P)|exact Q].
  - exact K.
  - intros k v. rewrite (member_start _ _ _ S). split; [intros I; left; split; [intros ->; exact (P v I)|exact I]|intros [[_ I]|[_ []]]; exact I].
  - exists q, u, l. split; [exact A|]. split; [exact T|exact L].
Qed.
Print Assumptions C143_precision_refuted.

(** A profile that is no literal is lost: the new call does not depend on it. *)
Theorem C143_profile_refuted :
  forall args kwargs t p i,
    reads_as "torch.set_printoptions" args kwargs t -> passes t "profile" p -> profile_of p = None ->
    exists q u l, answer "torch.set_printoptions" None args kwargs i = Some (Ret (Converted q u)) /\
      render q = call_of "paddle.set_printoptions" l /\ options t [("precision", "4")] l.
Proof.
  intros args kwargs t p i R P O. destruct (print_left args kwargs t p [] R P ltac:(constructor) ltac:(intros [])) as [Nd M].
  set (d := ddel String.eqb "profile" (add_missing (start t) (lits []))) in *.
  destruct (print_answer args kwargs t d i [] R) as (q & u & l & A & T & L).
  - intros k [].
  - constructor.
  - intros c q s Q. apply (print_runs c (start t) i [MkPiece [Argument "profile"] p] q s).
    + exact (got _ args kwargs t R "profile" p ltac:(discriminate) P).
    + rewrite render_one, O. exact Q.
  - exact Nd.
  - exact M.
  - exists q, u, l. split; [exact A|]. split; [exact T|exact L].
Qed.
Print Assumptions C143_profile_refuted.
Transparent api_mapping generators.
Example C143_nonvacuous :
  (exists t, reads_as "torch.set_printoptions" [] [MkKw (Some "profile") (MkExpr false false """""""full"""""""); MkKw (Some "linewidth") (MkExpr false false "n")] t /\
    passes t "profile" """""""full""""""" /\ passes t "linewidth" "n" /\ profile_of """""""full""""""" = Some [("precision", "4"); ("threshold", "1000000"); ("edgeitems", "3"); ("linewidth", "80")]) /\
  (exists t, reads_as "torch.set_printoptions" [] [MkKw (Some "linewidth") (MkExpr false false "n")] t /\ (forall p, ~ passes t "profile" p)) /\
  (exists t, reads_as "torch.set_printoptions" [] [MkKw (Some "profile") (MkExpr false false "p")] t /\ passes t "profile" "p" /\ profile_of "p" = None).
Proof.
  split; [|split]; eexists; (split; [eexists; split; [vm_compute; reflexivity|vm_compute; reflexivity]|]).
  - split; [there|]. split; [there|reflexivity].
  - nowhere.
  - split; [there|reflexivity].
Qed.

(** C146: sorting and histograms. *)
From Verif Require Import PyStr PyStrFacts PyDict PyDictFacts Ast Args ArgsFacts UtilsFile TablesData Generate GenerateData GenerateRel GenerateRows GenericBridge FlagSpec FlagFacts DatasetSpec DatasetFacts DatasetCalls OutSpec OutFacts LrSpec LrFacts PropertiesLr AdamFacts HistSpec HistFacts.
Opaque api_mapping generators.

(** The answer for any receiver. *)
Lemma answer_any n recv r strictly b args kwargs t i :
  find (fun r => String.eqb (r_name r) n) api_mapping = Some r -> generator r = Some (strictly, b) -> reads_as n args kwargs t ->
  exists c r0, row_of c = r_entry r /\ torch_api c = n /\ receiver c = recv /\ (recv = None -> r0 = None) /\
  forall q s, exec c b (st [] (start t) r0 i false) = Ret (Some (Text q), s) -> mem_char "(" (render q) = true ->
    answer n recv args kwargs i = Some (Ret (Converted q (utils s))).
Proof.
  intros F G R. exists (context_of r strictly recv), (initial_api (context_of r strictly recv)). split; [reflexivity|]. split; [pose proof (find_some _ _ F) as [_ E]; apply String.eqb_eq in E; exact E|]. split; [reflexivity|]. split; [intros ->; reflexivity|].
  intros q s E T.
  destruct R as (r' & F' & R). rewrite F in F'. injection F' as <-. unfold answer. rewrite F, G. unfold paddle_nodes. rewrite R. cbn [fst snd].
  rewrite generate_ends, E. unfold ends, finish. rewrite then_ret.
  destruct (String.eqb_spec (render q) "misidentify") as [X|_]; [rewrite X in T; discriminate|].
  destruct (String.eqb_spec (render q) "unchange") as [X|_]; [rewrite X in T; discriminate|].
  destruct (String.eqb_spec (render q) "") as [X|_]; [rewrite X in T; discriminate|]. reflexivity.
Qed.
Lemma bracket_left a b : mem_char "(" a = true -> mem_char "(" (a ++ b) = true.
Proof. intros A. rewrite mem_char_app, A. reflexivity. Qed.
Lemma bracket_right a b : mem_char "(" b = true -> mem_char "(" (a ++ b) = true.
Proof. intros A. rewrite mem_char_app, A. apply Bool.orb_true_r. Qed.
Lemma bracket_cons h a : mem_char "(" a = true -> mem_char "(" (String h a) = true.
Proof. intros A. apply (bracket_right (String h "")). exact A. Qed.
(** The arguments with the limits. *)
Lemma made_limited n args kwargs t new : reads_as n args kwargs t -> (forall v, ~ In (None, v) t) -> limits t new -> made_of (texts (limited (start t))) t ["range"] new.
Proof.
  intros R S L. pose proof (keys_once _ args kwargs t R S) as N. unfold limited. destruct L as [(r & P & ->)|(P & ->)].
  - rewrite (got _ args kwargs t R "range" r ltac:(discriminate) P).
    match goal with |- made_of ?l ?t _ _ => eassert (M : made_of l t _ _) by made end.
    replace (r ++ "[0]") with (render (MkPiece [] "" :: [MkPiece [Argument "range"] r] ++ [MkPiece [] "[0]"])%list) by txo.
    replace (r ++ "[1]") with (render (MkPiece [] "" :: [MkPiece [Argument "range"] r] ++ [MkPiece [] "[1]"])%list) by txo. exact M.
  - rewrite (not_got _ args kwargs t R S "range" P). apply made_absent; [apply made_start; assumption|exact P].
Qed.
Lemma limits_new t new k : limits t new -> In k ["weight"; "density"; "out"] -> ~ In k (map fst new).
Proof. intros [(r & _ & ->)|(_ & ->)] I; [|intros []]. cbn [In] in I. destruct I as [<-|[<-|[<-|[]]]]; notin. Qed.
Lemma made_edges n args kwargs t new : reads_as n args kwargs t -> (forall v, ~ In (None, v) t) -> limits t new -> made_of (texts (edges (limited (start t)))) t ["density"; "weight"; "range"] new.
Proof.
  intros R S L. unfold edges. apply made_out; [apply made_out; [eapply made_limited; eassumption|]|]; apply (limits_new t new _ L); cbn; tauto.
Qed.
Lemma hist_row : exists s r, find (fun r => String.eqb (r_name r) "torch.histogram") api_mapping = Some r /\ generator r = Some (s, g_HistogramMatcher) /\ unsupport_args (r_entry r) = [].
Proof. row_found. reflexivity. Qed.
Theorem C146_histogram :
  forall args kwargs t x new i,
    reads_as "torch.histogram" args kwargs t -> passes t "input" x -> (forall o, ~ passes t "out" o) -> limits t new ->
    exists q u l l', answer "torch.histogram" None args kwargs i = Some (Ret (Converted q u)) /\
      render q = both (typed "paddle" "histogram" x l) (typed "paddle" "histogram_bin_edges" x l') /\
      made_of l t ["range"] new /\ made_of l' t ["density"; "weight"; "range"] new.
Proof.
  intros args kwargs t x new i R P O L. destruct hist_row as (s & r & Fr & G & U). pose proof (known_star _ r args kwargs t Fr U R) as S.
  destruct (answer_any _ None r s _ args kwargs t i Fr G R) as (c & r0 & E & T & V & Z & H). rewrite (Z eq_refl) in H.
  destruct (hist_runs c (start t) i _ ltac:(rewrite T; reflexivity) (not_got _ args kwargs t R S "out" O) (got _ args kwargs t R "input" x ltac:(discriminate) P)) as (q & s1 & B & W).
  rewrite render_one in W. cbn [content] in W.
  exists q, (utils s1). eexists; eexists. split; [apply H; [exact B|rewrite W; unfold both, typed; apply bracket_left, bracket_left, call_bracket]|]. split; [exact W|].
  split; [eapply made_limited; eassumption|eapply made_edges; eassumption].
Qed.
Print Assumptions C146_histogram.
Theorem C146_histogram_out :
  forall args kwargs t o new i,
    reads_as "torch.histogram" args kwargs t -> passes t "out" o -> limits t new ->
    exists q u l l', answer "torch.histogram" None args kwargs i = Some (Ret (Converted q u)) /\
      render q = lines ["out1, out2 = " ++ both (typed "paddle" "histogram" (o ++ "[0]") l) (typed "paddle" "histogram_bin_edges" (o ++ "[1]") l'); handed "" o 0 ["out1"; "out2"]] /\
      made_of l t ["out"; "range"] new /\ made_of l' t ["out"; "density"; "weight"; "range"] new.
Proof.
  intros args kwargs t o new i R P L. destruct hist_row as (s & r & Fr & G & U). pose proof (known_star _ r args kwargs t Fr U R) as S.
  destruct (answer_any _ None r s _ args kwargs t i Fr G R) as (c & r0 & E & T & V & Z & H). rewrite (Z eq_refl) in H.
  destruct (hist_out c (start t) i _ ltac:(rewrite T; reflexivity) (got _ args kwargs t R "out" o ltac:(discriminate) P)) as (q & s1 & B & W).
  rewrite render_one in W. cbn [content] in W.
  exists q, (utils s1). eexists; eexists. split; [apply H; [exact B|rewrite W; unfold both, typed; cbn [lines]; apply bracket_left, bracket_cons, bracket_right, bracket_left, bracket_left, call_bracket]|]. split; [exact W|].
  split; (apply made_out; [first [eapply made_limited; eassumption|eapply made_edges; eassumption]|apply (limits_new t new _ L); cbn; tauto]).
Qed.
Print Assumptions C146_histogram_out.
(** So out=None, which asks for no tuple, makes the new code index None. *)
Theorem C146_none_refuted :
  forall args kwargs t new i,
    reads_as "torch.histogram" args kwargs t -> passes t "out" "None" -> limits t new ->
    exists q u a, answer "torch.histogram" None args kwargs i = Some (Ret (Converted q u)) /\
      render q = lines [a; "paddle.assign(out1, None[0]), paddle.assign(out2, None[1])"].
Proof.
  intros args kwargs t new i R P L. destruct (C146_histogram_out args kwargs t "None" new i R P L) as (q & u & l & l' & A & B & _).
  exists q, u. eexists. split; [exact A|]. exact B.
Qed.
Print Assumptions C146_none_refuted.
Theorem C146_histogram_method :
  forall w args kwargs t new i,
    reads_as "torch.Tensor.histogram" args kwargs t -> limits t new ->
    exists q u l l', answer "torch.Tensor.histogram" (Some w) args kwargs i = Some (Ret (Converted q u)) /\
      render q = both (typed w "histogram" w l) (typed w "histogram_bin_edges" w l') /\
      made_of l t ["range"] new /\ made_of l' t ["density"; "weight"; "range"] new.
Proof.
  intros w args kwargs t new i R L.
  assert (J : exists s r, find (fun r => String.eqb (r_name r) "torch.Tensor.histogram") api_mapping = Some r /\ generator r = Some (s, g_HistogramMatcher) /\ unsupport_args (r_entry r) = [] /\
    mem_str "out" (position_args (r_entry r) ++ args_list (r_entry r) ++ overload_args_list (r_entry r))%list = false) by (row_found; split; vm_compute; reflexivity).
  destruct J as (s & r & Fr & G & U & K). pose proof (known_star _ r args kwargs t Fr U R) as S.
  destruct (answer_any _ (Some w) r s _ args kwargs t i Fr G R) as (c & r0 & E & T & V & Z & H).
  assert (O : forall o, ~ passes t "out" o) by (intros o; exact (unknown _ r args kwargs t Fr U R "out" o K)).
  destruct (hist_method c (start t) r0 i w ltac:(rewrite T; reflexivity) V (not_got _ args kwargs t R S "out" O)) as (q & s1 & B & W).
  exists q, (utils s1). eexists; eexists. split; [apply H; [exact B|rewrite W; unfold both, typed; apply bracket_left, bracket_left, call_bracket]|]. split; [exact W|].
  split; [eapply made_limited; eassumption|eapply made_edges; eassumption].
Qed.
Print Assumptions C146_histogram_method.
(** Sorting keeps the arguments for the values and for the indices alike. *)
Theorem C146_sort :
  forall w args kwargs t i,
    reads_as "torch.Tensor.sort" args kwargs t ->
    exists q u m l, answer "torch.Tensor.sort" (Some w) args kwargs i = Some (Ret (Converted q u)) /\
      render q = both (call_of "paddle.sort" l) (call_of "paddle.argsort" l) /\
      made_of m t [] [("x", w)] /\ renamed_as [("dim", "axis")] m l.
Proof.
  intros w args kwargs t i R.
  assert (J : exists s r, find (fun r => String.eqb (r_name r) "torch.Tensor.sort") api_mapping = Some r /\ generator r = Some (s, g_SortMatcher) /\ unsupport_args (r_entry r) = [] /\
    kwargs_change (r_entry r) = renaming_of [("dim", "axis")] /\
    forall k, In k ["out"; "input"; "x"; "axis"] -> mem_str k (position_args (r_entry r) ++ args_list (r_entry r) ++ overload_args_list (r_entry r))%list = false).
  { row_found. split; [reflexivity|]. split; [reflexivity|]. intros k [<-|[<-|[<-|[<-|[]]]]]; vm_compute; reflexivity. }
  destruct J as (s & r & Fr & G & U & C & K). pose proof (known_star _ r args kwargs t Fr U R) as S. pose proof (keys_once _ args kwargs t R S) as N.
  destruct (answer_any _ (Some w) r s _ args kwargs t i Fr G R) as (c & r0 & E & T & V & _ & H).
  assert (O : forall k v, In k ["out"; "input"; "x"; "axis"] -> ~ passes t k v) by (intros k v I; exact (unknown _ r args kwargs t Fr U R k v (K k I))).
  set (d := dset String.eqb "x" (receiver_piece w) (start t)).
  assert (M : made_of (texts d) t [] [("x", w)]).
  { assert (M' : made_of (texts d) t [] ([] ++ [("x", render (receiver_piece w))])%list) by (apply made_put; [apply made_start; assumption|intros []]). unfold receiver_piece in M'. rewrite render_one in M'. exact M'. }
  assert (Nd : NoDup (dkeys d)) by (rewrite <- texts_keys; exact (proj1 M)).
  assert (X : renamed_as [("dim", "axis")] (texts d) (texts (change_rope (row_of c) [] d))).
  { apply renamed_texts; [rewrite E; exact C|easy_lists|distinct|exact Nd|]. intros p [<-|[]]. cbn [snd]. apply (made_fresh d t [] [("x", w)] ["axis"] M); [|intros k [<-|[]]; notin|left; reflexivity].
    intros k v [<-|[]]. apply O. cbn. tauto. }
  assert (Nc : NoDup (dkeys (change_rope (row_of c) [] d))) by (rewrite <- texts_keys; exact (proj1 X)).
  destruct (sort_method c (start t) r0 i w V) as (q & s1 & B & W).
  { apply (not_got _ args kwargs t R S). intros v. apply O. cbn. tauto. }
  { fold d. apply (dget_none_iff _ String.eqb_spec). rewrite <- texts_keys. intros I. apply in_map_iff in I as ([a v] & Q & I). cbn [fst] in Q. subst a. apply X in I as (j & I & Q).
    unfold called in Q. cbn [dget] in Q. destruct (String.eqb j "dim"); [discriminate Q|]. subst j. apply M in I as [[I|[]]|(_ & _ & I)]; [discriminate I|]. apply (O "out" v); [cbn; tauto|exact I]. }
  fold d in W. exists q, (utils s1), (texts d). eexists. split; [apply H; [exact B|rewrite W; unfold both; apply bracket_left, call_bracket]|]. split; [exact W|]. split; [exact M|exact X].
Qed.
Print Assumptions C146_sort.
Transparent api_mapping generators.
Example C146_nonvacuous :
  (exists t, reads_as "torch.histogram" [MkExpr false false "x"; MkExpr false false "10"] [MkKw (Some "range") (MkExpr false false "(0, 1)"); MkKw (Some "density") (MkExpr false false "d")] t /\
    passes t "input" "x" /\ (forall o, ~ passes t "out" o) /\ limits t [("min", "(0, 1)[0]"); ("max", "(0, 1)[1]")]) /\
  (exists t, reads_as "torch.histogram" [MkExpr false false "x"; MkExpr false false "10"] [MkKw (Some "out") (MkExpr false true "None")] t /\ passes t "out" "None" /\ limits t []) /\
  (exists t, reads_as "torch.Tensor.histogram" [MkExpr false false "10"] [] t /\ limits t []) /\
  (exists t, reads_as "torch.Tensor.sort" [MkExpr false false "0"] [MkKw (Some "descending") (MkExpr false false "True")] t).
Proof.
  split; [|split; [|split]].
  - eexists. split; [eexists; split; vm_compute; reflexivity|]. split; [there|]. split; [nowhere|]. left. exists "(0, 1)". split; [there|reflexivity].
  - eexists. split; [eexists; split; vm_compute; reflexivity|]. split; [there|]. right. split; [nowhere|reflexivity].
  - eexists. split; [eexists; split; vm_compute; reflexivity|]. right. split; [nowhere|reflexivity].
  - eexists. eexists. split; vm_compute; reflexivity.
Qed.

(** Proofs: what the shipped matchers make of a call (C110). *)
From Coq Require Import Lia.
From Verif Require Import PyStr PyStrFacts PyDict PyDictFacts UtilsFile Args ArgsFacts ArgsSpec TablesData Lookup LookupFacts LookupSpec Ast Walk
  ImportPass BasicPass ConvSpec Placed NodeEq Generate GenerateData GenerateRows GenericSpec GenericFacts EffectSpec EffectFacts Shipped ShippedSpec ShippedFacts
  PropertiesArgs GenericBridge ImportFacts3.
Opaque api_mapping attribute_mapping alias_mapping wildcard_mapping matcher_classes torch_package_mapping generators.

(** ** What is called *)
Lemma classes_apart : forallb (fun c => forallb (fun d => String.eqb c d || negb (prefix c d)) receiver_classes) receiver_classes = true.
Proof. vm_compute. reflexivity. Qed.
Lemma app_same (a x y : string) : a ++ x = a ++ y -> x = y.
Proof. induction a as [|c a IH]; [auto|]. cbn [append]. intros [= E]. apply IH, E. Qed.
Lemma app_prefixes (a b x y : string) : a ++ x = b ++ y -> prefix a b = true \/ prefix b a = true.
Proof.
  revert b. induction a as [|c a IH]; intros b E; [left; destruct b; reflexivity|]. destruct b as [|d b]; [right; reflexivity|].
  injection E as -> E. cbn [prefix]. destruct (ascii_dec d d); [|contradiction]. apply IH in E. exact E.
Qed.
Lemma called_on_functional api v f g : called_on api v f -> called_on api v g -> f = g.
Proof.
  assert (K : forall c d x y, In c receiver_classes -> In d receiver_classes -> c ++ x = d ++ y -> x = y).
  { intros c d x y C D E. assert (c = d) as ->; [|apply app_same in E; exact E].
    assert (P : forall c d, In c receiver_classes -> In d receiver_classes -> prefix c d = true -> c = d).
    { clear. intros c d C D P. pose proof (proj1 (forallb_forall _ _) classes_apart c C) as H. cbv beta in H.
      pose proof (proj1 (forallb_forall _ _) H d D) as H'. cbv beta in H'. rewrite P, Bool.orb_false_r in H'. apply String.eqb_eq, H'. }
    destruct (app_prefixes _ _ _ _ E) as [H|H]; [exact (P _ _ C D H)|symmetry; exact (P _ _ D C H)]. }
  intros F G. destruct F as [|c x v C E|v N]; inversion G as [|c' x' v' C' E'|v' N']; subst.
  - reflexivity.
  - f_equal. eapply K; [exact C|exact C'|exact E'].
  - exfalso. eapply N'; [exact C|reflexivity].
  - exfalso. eapply N; [exact C'|reflexivity].
  - reflexivity.
Qed.
(** As [cut_once], and the name may be the class itself. *)
Definition cut_well (a : string) : bool :=
  match find (fun c => prefix c a) class_names, segments 0 "" a with
  | Some c, [Some b; None; Some d] => String.eqb b "" && String.eqb a (c ++ d)
  | None, [Some b] => String.eqb b a
  | _, _ => false
  end.
Lemma cut_once_well a : cut_once a = true -> cut_well a = true.
Proof.
  unfold cut_once, cut_well. destruct (find _ _); destruct (segments 0 "" a) as [|[b|] [|[|] [|[d|] [|]]]]; auto.
  intros H. apply andb_prop in H as [H _]. exact H.
Qed.
Lemma with_receiver_exact a v : cut_well a = true -> plain_text v -> called_on a (Some v) (with_receiver v a).
Proof.
  intros K P. unfold with_receiver. unfold cut_well in K.
  destruct (find (fun c => prefix c a) class_names) as [k|] eqn:F.
  - apply find_some in F. destruct F as [I F].
    destruct (segments 0 "" a) as [|[b|] [|[|] [|[d|] [|]]]] eqn:S; try discriminate.
    apply andb_prop in K as [B A]. apply String.eqb_eq in B, A. subst b.
    assert (Q : render (flat_map (fun x => match x with Some s => lit s | None => receiver_piece (through_re v) end) [Some ""; None; Some d]) = v ++ d).
    { cbn [flat_map app]. unfold lit, receiver_piece. cbn [app render content]. rewrite through_garbled, garbled_plain, append_nil_r by exact P. reflexivity. }
    rewrite Q. apply (on_receiver a k d v); [exact I|exact A].
  - destruct (segments 0 "" a) as [|[b|] [|]] eqn:S; try discriminate. apply String.eqb_eq in K. subst b.
    cbn [flat_map app]. change (lit a ++ [])%list with (lit a). rewrite render_lit. apply on_no_class.
    intros k rest I E. pose proof (find_none _ _ F k I) as G. cbn beta in G. rewrite E, prefix_app in G. discriminate.
Qed.
Lemma called_on_nonempty a v f : called_on a (Some v) f -> a <> "" -> cut_once a = true -> f <> "".
Proof.
  intros C N K. inversion C as [|c x w I E|w NC]; subst; [|exact N].
  intros Z. apply app_empty_r in Z. subst x. rewrite append_nil_r in *. unfold cut_once in K.
  destruct (find (fun d => prefix d c) class_names) as [k|] eqn:F.
  - destruct (segments 0 "" c) as [|[b|] [|[|] [|[d|] [|]]]] eqn:S; try discriminate.
    rewrite !andb_true_iff in K. destruct K as [[B A] D]. apply String.eqb_eq in A. apply find_some in F as [I' _].
    assert (c = k).
    { assert (X := classes_apart). pose proof (proj1 (forallb_forall _ _) X k I') as H. cbv beta in H.
      pose proof (proj1 (forallb_forall _ _) H c I) as H'. cbv beta in H'. rewrite A, prefix_app, Bool.orb_false_r in H'.
      rewrite <- A in H'. apply String.eqb_eq in H'. symmetry. exact H'. }
    subst k. apply Bool.negb_true_iff in D. destruct d as [|ch d]; [discriminate D|].
    apply (f_equal String.length) in A. rewrite length_app_s in A. cbn [String.length] in A. lia.
  - pose proof (find_none _ _ F c I) as G. cbn beta in G. rewrite <- (append_nil_r c) in G at 2. rewrite prefix_app in G. discriminate.
Qed.

(** ** The rows *)
Lemma prefix_names_cut : forallb (fun r => negb (match r_matcher r with Some m => String.eqb m "ChangePrefixMatcher" | None => false end)
    || match change_prefix_name false (r_name r) "" with
       | Some n => cut_well n && negb (String.eqb n "") && match unsupport_args (r_entry r) with [] => true | _ => false end
       | None => false end) api_mapping = true.
Proof. vm_compute. reflexivity. Qed.
Lemma rename_rows : forallb (fun r => negb (match r_matcher r with Some m => String.eqb m "ChangeAPIMatcher" | None => false end)
    || get_paddle_api_returns (r_name r) "ChangeAPIMatcher" (r_entry r)
       && match paddle_api (r_entry r) with Some n => negb (String.eqb n "") | None => false end
       && match unsupport_args (r_entry r) with [] => true | _ => false end) api_mapping = true.
Proof. vm_compute. reflexivity. Qed.
Lemma generic_rows_named : forallb (fun r => negb (match r_matcher r with Some m => String.eqb m "GenericMatcher" | None => false end)
    || match paddle_api (r_entry r) with Some n => negb (String.eqb n "") && negb (r_abstract r) | None => true end) api_mapping = true.
Proof. vm_compute. reflexivity. Qed.
Lemma row_fact (P : row -> bool) r m : forallb (fun r => negb (match r_matcher r with Some x => String.eqb x m | None => false end) || P r) api_mapping = true ->
  In r api_mapping -> r_matcher r = Some m -> P r = true.
Proof.
  intros A I M. pose proof (proj1 (forallb_forall _ _) A r I) as H. cbv beta in H. rewrite M, String.eqb_refl in H. exact H.
Qed.
(** The row found for a call handled by one of the three classes. *)
Lemma plain_row api a c r : get_api_matcher api = LMatcher a c r -> (forall x, In x wildcard_mapping -> r_matcher x <> Some c) ->
  In r api_mapping /\ r_matcher r = Some c /\ r_name r = a.
Proof.
  intros L N. apply get_matcher_found in L as (_ & M & _ & [[I E]|[I _]]); [auto|]. exfalso. exact (N r I M).
Qed.
Lemma wildcard_classes : forallb (fun r => match r_matcher r with
    | Some m => negb (mem_str m ["ChangePrefixMatcher"; "ChangeAPIMatcher"; "GenericMatcher"]) | None => true end) wildcard_mapping = true.
Proof. vm_compute. reflexivity. Qed.
Lemma plain_row_of api a c r m : get_api_matcher api = LMatcher a c r -> r_matcher r = Some m ->
  mem_str m ["ChangePrefixMatcher"; "ChangeAPIMatcher"; "GenericMatcher"] = true ->
  c = m /\ In r api_mapping /\ r_name r = a.
Proof.
  intros L M X. pose proof L as L'. apply get_matcher_found in L' as (_ & M' & _). rewrite M in M'. injection M' as <-.
  split; [reflexivity|]. destruct (plain_row api a m r L) as (I & _ & N); [|auto].
  intros x J Y. pose proof (proj1 (forallb_forall _ _) wildcard_classes x J) as H. cbv beta in H. rewrite Y, X in H. discriminate.
Qed.

Lemma enable_if_none t b cls w : mem_str cls with_helper = false -> enable_if t b cls w = ([], w).
Proof. intros H. unfold enable_if, enable. rewrite H. destruct b; reflexivity. Qed.
Lemma receiver_exact t f v x : source t f = v ++ "." ++ x -> no_char "."%char x -> receiver_of t f = v.
Proof. intros E N. unfold receiver_of. rewrite E. change (v ++ "." ++ x) with (v ++ String "." x). rewrite rsplit1_last by exact N. reflexivity. Qed.

Section Call.
Variable t : tools.
Variables (api a c : string) (r : row) (origin : string).
Hypothesis L : get_api_matcher api = LMatcher a c r.
Hypothesis MIN : min_mode t = true -> c <> "ChangePrefixMatcher".
Let m := MkMatcher a c r origin.

Lemma keyword_names kws : map kw_arg (keywords_of t kws) = map keyword_name kws.
Proof. unfold keywords_of. rewrite map_map. reflexivity. Qed.

(** The name that is noted. *)
Lemma new_call_noted recv args kws tmp name code st w : new_call t r recv args kws tmp name code ->
  name <> "" /\ shipped_api t m st w = Ok (Some name, [], w).
Proof.
  intros H. unfold shipped_api, paddle_name. cbn [m_class m_row m_api m_origin m].
  destruct H as [pkg target rest callee M N C T ND CO|nm callee M P ND CO|nm callee M P F X CO];
    destruct (plain_row_of api a c r _ L M eq_refl) as (E & I & RN); subst c; cbn [String.eqb Ascii.eqb Bool.eqb].
  - assert (MF : min_mode t = false) by (destruct (min_mode t); [exfalso; exact (MIN eq_refl eq_refl)|reflexivity]).
    rewrite MF. pose proof (row_fact _ r _ prefix_names_cut I M) as K. cbv beta in K.
    change (change_prefix_name false a origin) with (change_prefix_name false a "").
    assert (Q : change_prefix_name false a "" = Some (target ++ "." ++ rest)) by (rewrite <- RN, N; apply change_prefix_exact; assumption).
    rewrite <- RN in Q. rewrite <- RN, Q in *. cbn [bind]. rewrite enable_if_none by reflexivity. split; [|reflexivity].
    intros Z. rewrite !andb_true_iff in K. destruct K as [[_ K] _]. rewrite Z in K. discriminate.
  - pose proof (row_fact _ r _ rename_rows I M) as K. cbv beta in K. rewrite !andb_true_iff in K. destruct K as [[K1 K2] _].
    rewrite RN in K1. rewrite K1. rewrite P in *. cbn [bind]. rewrite enable_if_none by reflexivity. split; [|reflexivity].
    intros ->. discriminate.
  - pose proof (row_fact _ r _ generic_rows_named I M) as K. cbv beta in K. rewrite P in K. unfold has_name. rewrite P. cbn [negb]. rewrite Bool.andb_false_r.
    cbn [bind]. rewrite enable_if_none by reflexivity. split; [|reflexivity]. intros ->. discriminate.
Qed.

Lemma run_generator_ret c0 b d i g : generate c0 b d i = Ret g -> exists i' h, run_generator c0 b d i = Ret (g, i', h) /\ (forall q h', g = Generate.Converted q h' -> h = h').
Proof.
  intros H. rewrite run_generator_exact in H. destruct (run_generator c0 b d i) as [[[g' i'] h]|x] eqn:R; [|discriminate].
  cbn [andthen fst] in H. injection H as <-. exists i', h. split; [reflexivity|]. intros q h' ->.
  unfold run_generator in R. destruct (exec c0 b _) as [[w s]|y]; [|discriminate]. cbn [andthen] in R.
  destruct w as [[u| |[|]]|]; try discriminate. destruct (String.eqb (render u) "misidentify"); [discriminate|].
  destruct (String.eqb (render u) "unchange"); [discriminate|]. destruct (String.eqb (render u) ""); [discriminate|].
  injection R as _ <- _ <-. reflexivity.
Qed.
Lemma generic_generator : dget String.eqb "GenericMatcher" generators = Some (true, g_GenericMatcher).
Proof. vm_compute. reflexivity. Qed.
(** Generic rows. *)
Lemma generic_nodes recv args kws w nm callee code l :
  r_matcher r = Some "GenericMatcher" -> paddle_api (r_entry r) = Some nm ->
  fits (r_entry r) (exprs_of t args) (keywords_of t kws) ->
  (In (r_name r) two_for_one -> one_of_two (r_entry r) (exprs_of t args) (keywords_of t kws)) ->
  (forall v, recv = Some v -> plain_text v) -> called_on nm recv callee ->
  code = generic_text (r_entry r) callee (snd (unique_name (name_counters w) "out"))
           (final_arguments (r_entry r) (exprs_of t args) (keywords_of t kws)) ->
  parse t code = Ok l ->
  exists w', base_nodes t m recv args kws w = Ok (ANodes l, [], w').
Proof.
  intros M P F X PL CO -> PA. destruct (plain_row_of api a c r _ L M eq_refl) as (E & I & RN). 
  pose proof (row_fact _ r _ generic_rows_named I M) as K. cbv beta in K. rewrite P in K. apply andb_prop in K as [_ AB]. apply Bool.negb_true_iff in AB.
  destruct (generic_rows_exact r recv _ _ (name_counters w) I M AB F X) as (nm' & f & q & P' & CO' & G & R).
  rewrite P in P'. injection P' as <-.
  assert (f = callee) as ->.
  { eapply called_on_functional; [|exact CO]. destruct recv as [v|]; [|exact CO']. cbn [option_map] in CO'.
    rewrite garbled_plain in CO' by (apply PL; reflexivity). exact CO'. }
  unfold base_nodes, paddle_nodes in *. cbn [m_row m_class m fst snd] in *. rewrite E in *.
  destruct (fst (parse_args_and_kwargs (r_entry r) false false (exprs_of t args) (keywords_of t kws))) as [d| | |]; try discriminate.
  cbn [from_parsed]. rewrite generic_generator. unfold from_generator. unfold m; cbn [m_row m_class m_api]. cbv zeta.
  destruct (run_generator_ret _ _ _ _ _ G) as (i' & h & RG & H). specialize (H q false eq_refl). subst h.
  unfold context_of in RG. rewrite RN in RG. rewrite RG. unfold enable_if. unfold as_nodes. rewrite R, PA. cbn [bind]. eexists. reflexivity.
Qed.

Lemma new_call_nodes args kws st w name code l :
  new_call t r None args kws (snd (unique_name (name_counters w) "out")) name code -> parse t code = Ok l ->
  exists kws' w', shipped_call t m args kws st w = Ok (ANodes l, (args, kws'), [], w').
Proof.
  intros H PA. destruct (new_call_noted _ _ _ _ _ _ st w H) as [_ NP]. unfold shipped_api in NP. unfold shipped_call.
  destruct (paddle_name t m) as [p|]; [|discriminate]. cbn [bind] in *. destruct (enable_if _ _ _ _). injection NP as -> _ _.
  destruct H as [pkg target rest callee M N C T ND CO|nm callee M P ND CO|nm callee M P F X CO];
    destruct (plain_row_of api a c r _ L M eq_refl) as (E & I & RN); unfold nodes_of; cbn [m_class m_row m]; rewrite E.
  - change (printed_again "ChangePrefixMatcher") with (Some change_prefix_nodes). inversion CO; subst callee.
    pose proof (row_fact _ r _ prefix_names_cut I M) as K. cbv beta in K. destruct (change_prefix_name false (r_name r) ""); [|discriminate].
    apply andb_prop in K as [_ K]. destruct (unsupport_args (r_entry r)) eqn:U; [|discriminate].
    assert (AN : asked_name m None (Some (target ++ "." ++ rest)) = Some (target ++ "." ++ rest)).
    { unfold asked_name. destruct (mem_str _ _); reflexivity. }
    rewrite AN. cbn [text_of].
    rewrite (C26_prefix_change_keeps_arguments _ _ _ _ U) by (rewrite keyword_names; exact ND).
    unfold from_code, as_nodes. unfold call_with in PA. rewrite PA. cbn [bind in_order]. eexists _, _. reflexivity.
  - change (printed_again "ChangeAPIMatcher") with (Some change_api_nodes). inversion CO; subst callee.
    pose proof (row_fact _ r _ rename_rows I M) as K. cbv beta in K.
    apply andb_prop in K as [_ K]. destruct (unsupport_args (r_entry r)) eqn:U; [|discriminate].
    assert (AN : asked_name m None (Some nm) = Some nm).
    { unfold asked_name. destruct (mem_str _ _); reflexivity. }
    rewrite AN. cbn [text_of].
    rewrite (C26_rename_keeps_arguments _ _ _ _ U) by (rewrite keyword_names; exact ND).
    unfold from_code, as_nodes. unfold call_with in PA. rewrite PA. cbn [bind in_order]. eexists _, _. reflexivity.
  - change (printed_again "GenericMatcher") with (@None (entry -> string -> list expr -> list kwnode -> Args.code)).
    assert (S : special_nodes t m None (asked_name m None (Some nm)) args kws w = None).
    { unfold special_nodes. unfold m; cbn [m_class]. rewrite E. reflexivity. }
    rewrite S. destruct (generic_nodes None args kws w nm callee _ l M P F X (fun v H => match H with end) CO eq_refl PA) as (w' & B).
    rewrite B. cbn [bind in_order]. eexists _, _. reflexivity.
Qed.

Lemma special_generic recv name args kws w : c = "GenericMatcher" -> special_nodes t m recv name args kws w = None.
Proof. intros E. unfold special_nodes. unfold m; cbn [m_class]. rewrite E. reflexivity. Qed.
Lemma new_method_nodes f v x args kws st w name code l :
  source t f = v ++ "." ++ x -> no_char "."%char x -> plain_text v ->
  new_call t r (Some v) args kws (snd (unique_name (name_counters w) "out")) name code -> parse t code = Ok l ->
  exists kws' w', shipped_method t m f args kws st w = Ok (ANodes l, (args, kws'), [], w').
Proof.
  intros SF NX PV H PA. destruct (new_call_noted _ _ _ _ _ _ st w H) as [NE NP]. unfold shipped_api in NP. unfold shipped_method.
  rewrite (receiver_exact t f v x SF NX). cbv zeta.
  destruct (paddle_name t m) as [p|] eqn:PN; [|discriminate]. cbn [bind] in *. destruct (enable_if _ _ _ _). injection NP as -> _ _.
  assert (SN : forall callee, called_on name (Some v) callee -> cut_well name = true -> stored_name (Some v) (Some name) = Some callee).
  { intros callee CO K. unfold stored_name. rewrite (proj2 (String.eqb_neq name "") NE). f_equal.
    eapply called_on_functional; [|exact CO]. apply with_receiver_exact; [exact K|exact PV]. }
  destruct H as [pkg target rest callee M N C T ND CO|nm callee M P ND CO|nm callee M P F X CO];
    destruct (plain_row_of api a c r _ L M eq_refl) as (E & I & RN).
  - assert (E' : m_class m = "ChangePrefixMatcher") by exact E. rewrite E'. cbn [String.eqb Ascii.eqb Bool.eqb].
    assert (MF : min_mode t = false) by (destruct (min_mode t); [exfalso; exact (MIN eq_refl E)|reflexivity]). rewrite MF. cbn [bind].
    pose proof (row_fact _ r _ prefix_names_cut I M) as K. cbv beta in K.
    assert (Q : change_prefix_name false (r_name r) "" = Some (target ++ "." ++ rest)) by (rewrite N; apply change_prefix_exact; assumption).
    rewrite Q in K. rewrite !andb_true_iff in K. destruct K as [[K1 _] K].
    rewrite (SN callee CO K1). cbn [text_of m_row m].
    destruct (unsupport_args (r_entry r)) eqn:U; [|discriminate].
    rewrite (C26_prefix_change_keeps_arguments _ _ _ _ U) by (rewrite keyword_names; exact ND).
    unfold from_code, as_nodes. unfold call_with in PA. rewrite PA. cbn [bind in_order]. eexists _, _. reflexivity.
  - assert (E' : m_class m = "ChangeAPIMatcher") by exact E. rewrite E'. cbn [String.eqb Ascii.eqb Bool.eqb].
    unfold nodes_of. rewrite E'. change (printed_again "ChangeAPIMatcher") with (Some change_api_nodes).
    pose proof (row_fact _ r _ rename_rows I M) as K. cbv beta in K.
    apply andb_prop in K as [_ K]. destruct (unsupport_args (r_entry r)) eqn:U; [|discriminate].
    assert (CW : cut_once nm = true).
    { pose proof (proj1 (forallb_forall _ _) names_ok r) as G. unfold name_ok in G. rewrite P in G. apply G, in_or_app. left. exact I. }
    assert (AN : asked_name m (Some v) (Some nm) = Some callee).
    { unfold asked_name. rewrite E'. cbn [mem_str existsb String.eqb Ascii.eqb Bool.eqb orb]. rewrite (SN callee CO (cut_once_well _ CW)).
      rewrite (proj2 (String.eqb_neq callee "")); [reflexivity|]. eapply called_on_nonempty; [exact CO|exact NE|exact CW]. }
    rewrite AN. cbn [text_of m_row m].
    rewrite (C26_rename_keeps_arguments _ _ _ _ U) by (rewrite keyword_names; exact ND).
    unfold from_code, as_nodes. unfold call_with in PA. rewrite PA. cbn [bind in_order]. eexists _, _. reflexivity.
  - assert (E' : m_class m = "GenericMatcher") by exact E. rewrite E'. cbn [String.eqb Ascii.eqb Bool.eqb].
    unfold nodes_of. rewrite E'. change (printed_again "GenericMatcher") with (@None (entry -> string -> list expr -> list kwnode -> Args.code)).
    rewrite special_generic by exact E.
    assert (PL : forall u, Some v = Some u -> plain_text u) by (intros u [= <-]; exact PV).
    destruct (generic_nodes (Some v) args kws w nm callee _ l M P F X PL CO eq_refl PA) as (w' & B).
    rewrite B. cbn [bind in_order]. eexists _, _. reflexivity.
Qed.
End Call.

(** ** --mode min *)
Section Kept.
Variable t : tools.
Variables (api a : string) (r : row) (origin : string).
Hypothesis MIN : min_mode t = true.
Let m := MkMatcher a "ChangePrefixMatcher" r origin.
Lemma kept_name st w : shipped_api t m st w = Ok (Some origin, [], w).
Proof.
  unfold shipped_api, paddle_name. cbn [m_class m_row m_api m_origin m String.eqb Ascii.eqb Bool.eqb]. rewrite MIN.
  cbn [change_prefix_name bind].
  unfold enable_if, enable. destruct (name_enables _); [|reflexivity].
  change (mem_str "ChangePrefixMatcher" with_helper) with false. reflexivity.
Qed.
Hypothesis L : get_api_matcher api = LMatcher a "ChangePrefixMatcher" r.
Lemma kept_row : unsupport_args (r_entry r) = [].
Proof.
  pose proof L as L'. apply get_matcher_found in L' as (_ & M & _). destruct (plain_row_of api a _ r _ L M eq_refl) as (_ & I & _).
  pose proof (row_fact _ r _ prefix_names_cut I M) as K. cbv beta in K. destruct (change_prefix_name false (r_name r) ""); [|discriminate].
  apply andb_prop in K as [_ K]. destruct (unsupport_args (r_entry r)); [reflexivity|discriminate].
Qed.
Lemma kept_call args kws st w l : NoDup (map keyword_name kws) ->
  parse t (call_with t origin ["layout"; "generator"; "memory_format"; "sparse_grad"; "foreach"] args kws) = Ok l ->
  shipped_call t m args kws st w = Ok (ANodes l, (args, kws), [], w).
Proof.
  intros ND PA. pose proof (kept_name st w) as NP. unfold shipped_api in NP. unfold shipped_call.
  destruct (paddle_name t m) as [p|]; [|discriminate]. cbn [bind] in *. destruct (enable_if _ _ _ _). injection NP as -> _ _.
  unfold nodes_of. cbn [m_class m_row m]. change (printed_again "ChangePrefixMatcher") with (Some change_prefix_nodes).
  assert (AN : asked_name m None (Some origin) = Some origin) by (unfold asked_name; destruct (mem_str _ _); reflexivity).
  fold m. rewrite AN. cbn [text_of].
  rewrite (C26_prefix_change_keeps_arguments _ _ _ _ kept_row) by (unfold keywords_of; rewrite map_map; exact ND).
  unfold from_code, as_nodes. unfold call_with in PA. rewrite PA. reflexivity.
Qed.
Lemma kept_method f args kws st w l : NoDup (map keyword_name kws) ->
  parse t (call_with t (source t f) ["layout"; "generator"; "memory_format"; "sparse_grad"; "foreach"] args kws) = Ok l ->
  shipped_method t m f args kws st w = Ok (ANodes l, (args, kws), [], w).
Proof.
  intros ND PA. unfold shipped_method. cbn [m_class m_row m String.eqb Ascii.eqb Bool.eqb]. rewrite MIN. cbn [bind text_of].
  rewrite (C26_prefix_change_keeps_arguments _ _ _ _ kept_row) by (unfold keywords_of; rewrite map_map; exact ND).
  unfold from_code, as_nodes. unfold call_with in PA. rewrite PA. reflexivity.
Qed.
End Kept.

(** ** In the pass *)
Section Pass.
Context {M : Type}.
Variable e : benv M.
Lemma record_scopes k l (s : bst M) : scopes (record k l s) = scopes s.
Proof. destruct l; reflexivity. Qed.
Lemma insert_nothing st (s : bst M) : exists s1, insert_multi_node e [] st s = Ok (true, s1) /\ shared s1 = shared s /\ scopes s1 = scopes s.
Proof. unfold insert_multi_node. cbn [filter]. eexists. split; [reflexivity|]. split; reflexivity. Qed.
Lemma ask_plain m st (s : bst M) name : (forall w, api_of e m st w = Ok (Some name, [], w)) ->
  exists s1, ask_api e m st s = Ok (Some name, s1) /\ shared s1 = shared s /\ scopes s1 = scopes s.
Proof.
  intros A. unfold ask_api. rewrite A. cbn [bind]. destruct (insert_nothing st (with_shared s (shared s))) as (s1 & E & SH & SC).
  rewrite E. cbn [bind]. exists s1. split; [reflexivity|]. split; [exact SH|exact SC].
Qed.
Lemma note_plain api m st (s : bst M) name : name <> "" -> (forall w, api_of e m st w = Ok (Some name, [], w)) ->
  exists s1, ask_and_note e api m st s = Ok s1 /\ shared s1 = shared s /\ scopes s1 = scopes s.
Proof.
  intros NE A. unfold ask_and_note. destruct (ask_plain m st s name A) as (s1 & E1 & SH1 & SC1). rewrite E1. cbn [bind truthy].
  rewrite (proj2 (String.eqb_neq name "") NE). cbn [negb]. destruct (ask_plain m st s1 name A) as (s2 & E2 & SH2 & SC2). rewrite E2. cbn [bind].
  eexists. split; [reflexivity|]. rewrite <- SH1, <- SH2, <- SC1, <- SC2. unfold note_paddle. destruct (dget _ _ _) as [[? ?]|]; split; reflexivity.
Qed.
Lemma insert_room st p line l (s : bst M) : parent st = Ok p -> scope_body_index st (scopes s) = Ok line ->
  (no_room p -> for_the_line e l = []) -> exists s1, insert_multi_node e l st s = Ok (true, s1).
Proof.
  intros P A R. unfold insert_multi_node.
  assert (E : filter (fun n => negb (is_import n || mentions_sys_path e n)) l = for_the_line e l).
  { unfold for_the_line. apply filter_ext. intros n. destruct n; reflexivity. }
  rewrite E. destruct (for_the_line e l) as [|y ys] eqn:FL; [eexists; reflexivity|]. rewrite P. cbn [bind].
  destruct (mem_str (kind_of p) ["DictComp"; "ListComp"]) eqn:K.
  - exfalso. apply mem_str_In in K. assert (N : no_room p) by (unfold no_room; destruct K as [<-|[<-|[]]]; auto). discriminate (R N).
  - rewrite record_scopes. rewrite A. cbn [bind]. eexists. reflexivity.
Qed.
Lemma result_exact before last_ x : expression_of last_ x -> result_node (before ++ [last_]) = x.
Proof.
  intros H. rewrite result_last. destruct (result_expression last_) as [R|[_ N]]; [exact (expression_unique _ _ _ R H)|exfalso; exact (N x H)].
Qed.

Lemma requested_plain line ls rs (s s' : bst M) : (forall x, In x ls -> x = ([], [])) -> requested line (ls ++ rs) s s' -> requested line rs s s'.
Proof.
  intros A R k. rewrite (R k), fold_left_app. f_equal. clear R. generalize (held k s) as h. 
  induction ls as [|x ls IH]; intros h; [reflexivity|]. cbn [fold_left]. rewrite (A x (or_introl eq_refl)).
  assert (G : granted line k h ([], []) = h).
  { unfold granted, joined. cbn [fst snd filter]. destruct (place_eqb k file_top), (place_eqb k line); rewrite ?app_nil_r; reflexivity. }
  rewrite G. apply IH. intros y Y. apply A. right. exact Y.
Qed.
Lemma ask_none p : ask e p [] = ([], []).
Proof. unfold ask. cbn. destruct (no_room_b p); reflexivity. Qed.
Lemma effect_rewritten p allowed fin note old before last_ x r rs mk :
  expression_of last_ x -> In (kind_of x) allowed -> (no_room p -> for_the_line e before = []) ->
  effect e p allowed fin note old (ANodes (before ++ [last_])) r rs mk -> rs = [ask e p before] /\ mk = EffectSpec.Converted.
Proof.
  intros X K R H. remember (ANodes (before ++ [last_])) as A eqn:EA. destruct H as [H| | |b l y Y KY RY|H| | |b l N|b l y Y KY NR FL]; try discriminate EA.
  - injection EA as E. apply app_inj_tail in E as [-> _]. auto.
  - injection EA as E. destruct before; discriminate.
  - injection EA as E. apply app_inj_tail in E as [-> ->]. exfalso. exact (N x X K).
  - injection EA as E. apply app_inj_tail in E as [-> ->]. exfalso. apply FL, R, NR.
Qed.
Lemma named_plain m st w name n ls w' : name <> "" -> (forall w, api_of e m st w = Ok (Some name, [], w)) ->
  named e m st w n ls w' -> n = name /\ w' = w /\ forall l, In l ls -> l = [].
Proof.
  intros NE A H. destruct H as [p l w1 E D|p l w1 q l' w2 E N E'].
  - rewrite A in E. injection E as <- _ _. destruct D as [D|D]; [discriminate|]. injection D as D. contradiction.
  - rewrite A in E. injection E as <- <- <-. rewrite A in E'. injection E' as <- <- <-. split; [reflexivity|]. split; [reflexivity|].
    intros l [<-|[<-|[]]]; reflexivity.
Qed.

Section Use.
Variables (st : list frame) (p : node) (line : place) (s : bst M) (api a c : string) (r : row) (origin name : string)
  (before : list node) (last_ x : node).
Let m := MkMatcher a c r origin.
Hypothesis L : get_api_matcher api = LMatcher a c r.
Hypothesis P : parent st = Ok p.
Hypothesis B : scope_body_index st (scopes s) = Ok line.
Hypothesis ND : NoDup (dkeys (all_apis s)).
Hypothesis NE : name <> "".
Hypothesis A : forall w, api_of e m st w = Ok (Some name, [], w).
Hypothesis X : expression_of last_ x.
Hypothesis R : no_room p -> for_the_line e before = [].

Lemma above_line : above st line s.
Proof. intros q Q. rewrite B in Q. injection Q as <-. reflexivity. Qed.
Lemma call_rewritten f args kws kws' w' : In (kind_of x) for_call ->
  call_nodes e m args kws st (shared s) = Ok (ANodes (before ++ [last_]), (args, kws'), [], w') ->
  exists s', visit_torch_call e f args kws api origin st s = Ok (Reply (VNode x), s') /\
    booked api api name EffectSpec.Converted s s' /\ requested line [ask e p before] s s'.
Proof.
  intros K C.
  assert (V : exists s', visit_torch_call e f args kws api origin st s = Ok (Reply (VNode x), s')).
  { unfold visit_torch_call. rewrite L. cbn [matcher_of bind]. fold m.
    destruct (note_plain api m st (recognise api s) name NE A) as (s1 & E1 & SH1 & SC1). rewrite E1. cbn [bind].
    rewrite SH1. change (shared (recognise api s)) with (shared s). rewrite C. cbn [bind].
    destruct (insert_nothing st (with_shared s1 w')) as (s2 & E2 & _ & SC2). rewrite E2. cbn [bind fst snd].
    assert (RN := result_exact before last_ x X). assert (RL := removelast_last before last_).
    destruct (before ++ [last_])%list as [|y ys] eqn:BL; [destruct before; discriminate|]. rewrite RN.
    rewrite (proj2 (mem_str_In (kind_of x) call_results) K), RL.
    destruct (insert_room st p line before s2 P) as (s3 & E3); [rewrite SC2; cbn; rewrite SC1; exact B|exact R|].
    rewrite E3. cbn [bind]. eexists. reflexivity. }
  destruct V as [s' V]. exists s'. split; [exact V|].
  destruct (call_effect e st p line P f args kws api origin s _ s' above_line ND V) as [(N & _)|H]; [rewrite L in N; discriminate|].
  destruct H as (a0 & c0 & r0 & n0 & ls & w0 & an & args0 & kws0 & ex & rs & mk & L0 & NM & CN & EF & BK & RQ).
  rewrite L in L0. injection L0 as <- <- <-. destruct (named_plain _ _ _ _ _ _ _ NE A NM) as (-> & -> & LS).
  fold m in CN. rewrite C in CN. injection CN as <- _ _ <- _. destruct (effect_rewritten _ _ _ _ _ _ _ _ _ _ _ X K R EF) as [-> ->].
  split; [exact BK|]. eapply requested_plain; [|exact RQ]. intros y Y. apply in_map_iff in Y as (z & <- & Z).
  apply in_app_or in Z as [Z|[<-|[]]]; [rewrite (LS z Z)|]; apply ask_none.
Qed.
Lemma method_rewritten f args kws kws' w' : In (kind_of x) for_method ->
  class_nodes e m f (shown args) kws st (shared s) = Ok (ANodes (before ++ [last_]), (shown args, kws'), [], w') ->
  exists s', trans_class_method e f args kws api origin st (recognise api s) = Ok (Reply (VNode (put_back args x)), s') /\
    booked api ("*" ++ method_suffix api) name EffectSpec.Converted s s' /\ requested line [ask e p before] s s'.
Proof.
  intros K C.
  assert (V : exists s', trans_class_method e f args kws api origin st (recognise api s) = Ok (Reply (VNode (put_back args x)), s')).
  { unfold trans_class_method. rewrite L. cbn [matcher_of bind]. fold m.
    destruct (note_plain api m st (recognise api s) name NE A) as (s1 & E1 & SH1 & SC1). rewrite E1. cbn [bind].
    rewrite SH1. change (shared (recognise api s)) with (shared s).
    assert (HS : match args with y :: _ => is_self y | [] => false end = hides_self args) by (destruct args as [|[]]; reflexivity).
    rewrite HS. change (if hides_self args then tl args else args) with (shown args). rewrite C. cbn [bind].
    destruct (insert_nothing st (with_shared s1 w')) as (s2 & E2 & _ & SC2). rewrite E2. cbn [bind fst snd].
    assert (RN := result_exact before last_ x X). assert (RL := removelast_last before last_).
    destruct (before ++ [last_])%list as [|y ys] eqn:BL; [destruct before; discriminate|]. rewrite RN.
    rewrite (proj2 (mem_str_In (kind_of x) method_results) K), RL.
    destruct (insert_room st p line before s2 P) as (s3 & E3); [rewrite SC2; cbn; rewrite SC1; exact B|exact R|].
    rewrite E3. cbn [bind]. eexists. unfold put_back. destruct x; reflexivity. }
  destruct V as [s' V]. exists s'. split; [exact V|].
  destruct (method_effect e st p line P f args kws api origin s _ s' above_line ND V) as [(N & _)|H]; [rewrite L in N; discriminate|].
  destruct H as (a0 & c0 & r0 & n0 & ls & w0 & an & args0 & kws0 & ex & rs & mk & L0 & NM & CN & EF & BK & RQ).
  rewrite L in L0. injection L0 as <- <- <-. destruct (named_plain _ _ _ _ _ _ _ NE A NM) as (-> & -> & LS).
  fold m in CN. rewrite C in CN. injection CN as <- _ _ <- _. destruct (effect_rewritten _ _ _ _ _ _ _ _ _ _ _ X K R EF) as [-> ->].
  split; [exact BK|]. eapply requested_plain; [|exact RQ]. intros y Y. apply in_map_iff in Y as (z & <- & Z).
  apply in_app_or in Z as [Z|[<-|[]]]; [rewrite (LS z Z)|]; apply ask_none.
Qed.
End Use.
End Pass.

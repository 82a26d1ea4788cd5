(** What becomes of a recognised use (C83): proofs. *)
From Coq Require Import Lia ZArith.
From Verif Require Import PyStr PyStrFacts PyDict PyDictFacts TablesData Lookup Ast ImportPass Walk BasicPass NodeEq Placed PlacedUniform EffectSpec.
Opaque api_mapping attribute_mapping alias_mapping wildcard_mapping matcher_classes torch_package_mapping.

Section Facts.
Context {M : Type}.
Variable e : benv M.
Variables (st : list frame) (p : node) (line : place).
Hypothesis P : parent st = Ok p.

(** The place above the line, whenever the program asks for it. *)
Notation line_of := (@above M st line).
Notation holds := (@requested M line).
(** From [s] to [s'] only requests and the matchers' state. *)
Definition only_asked (rs : list request) (w : M) (s s' : bst M) : Prop :=
  (exists d, s' = with_records (with_shared s w) d) /\ forall k, held k s' = fold_left (granted line k) rs (held k s).
Lemma only_asked_trans r1 r2 w1 w2 s s1 s2 : only_asked r1 w1 s s1 -> only_asked r2 w2 s1 s2 -> only_asked (r1 ++ r2) w2 s s2.
Proof.
  intros [[d1 ->] H1] [[d2 ->] H2]. split; [exists d2; reflexivity|]. intros k. rewrite fold_left_app, <- H1. apply H2.
Qed.
Lemma only_asked_scopes r w s s' : only_asked r w s s' -> scopes s' = scopes s /\ shared s' = w /\ all_apis s' = all_apis s /\
  torch_count s' = torch_count s /\ success_count s' = success_count s /\ unsupported s' = unsupported s.
Proof. intros [[d ->] _]. repeat split. Qed.

Lemma held_record k at_ l (s : bst M) : held k (record at_ l s) = if place_eqb k at_ then joined (held k s) l else held k s.
Proof. rewrite record_rec1. unfold held. cbn [records with_records]. apply (rec1_at k (at_, l)). Qed.
Lemma record_shape at_ l (s : bst M) : exists d, record at_ l s = with_records s d.
Proof. rewrite record_rec1. eauto. Qed.

Lemma top_filter l : filter (fun n => is_import n || mentions_sys_path e n) l = for_the_top e l.
Proof. apply filter_ext. intros []; reflexivity. Qed.
Lemma line_filter l : filter (fun n => negb (is_import n || mentions_sys_path e n)) l = for_the_line e l.
Proof. apply filter_ext. intros []; reflexivity. Qed.
Lemma no_room_spec : no_room_b p = true <-> no_room p.
Proof.
  unfold no_room_b, no_room. rewrite orb_true_iff, !String.eqb_eq. reflexivity.
Qed.
Lemma comprehension_b : mem_str (kind_of p) ["DictComp"; "ListComp"] = no_room_b p.
Proof. unfold mem_str, no_room_b. cbn [existsb]. rewrite orb_false_r. reflexivity. Qed.

Lemma granted_top k h t : granted line k h (t, []) = if place_eqb k file_top then joined h t else h.
Proof. unfold granted. cbn [fst snd]. rewrite joined_nil_r. destruct (place_eqb k line); reflexivity. Qed.
Lemma root_top : (root_path, "body", 0) = file_top. Proof. reflexivity. Qed.

Lemma insert_asked l s s' ok : line_of s -> insert_multi_node e l st s = Ok (ok, s') ->
  only_asked [ask e p l] (shared s) s s' /\ (ok = true <-> (no_room p -> for_the_line e l = [])).
Proof.
  intros L. unfold insert_multi_node. rewrite top_filter, line_filter, root_top.
  destruct (for_the_line e l) as [|x xs] eqn:F.
  - intros E. injection E as <- <-. split; [|split; auto]. split.
    + rewrite record_rec1. eexists. destruct s; reflexivity.
    + intros k. cbn [fold_left]. unfold ask. rewrite F. destruct (no_room_b p); rewrite granted_top, held_record; reflexivity.
  - assert (NE : x :: xs <> []) by discriminate. set (others := x :: xs) in *. clearbody others.
    rewrite P. cbn [bind]. rewrite comprehension_b. destruct (no_room_b p) eqn:R.
    + intros E. injection E as <- <-. split; [|split; [discriminate|]; intros H; apply no_room_spec in R; specialize (H R); contradiction]. split.
      * rewrite record_rec1. eexists. destruct s; reflexivity.
      * intros k. cbn [fold_left]. unfold ask. rewrite R, granted_top, held_record. reflexivity.
    + assert (SC : scopes (record file_top (for_the_top e l) s) = scopes s) by (rewrite record_rec1; reflexivity). rewrite SC.
      destruct (scope_body_index st (scopes s)) as [a|] eqn:A; cbn [bind]; [|discriminate]. rewrite (L a A).
      intros E. injection E as <- <-. split.
      * split; [rewrite !record_rec1; eexists; destruct s; reflexivity|]. intros k. cbn [fold_left]. unfold ask. rewrite R, F, !held_record. reflexivity.
      * split; [|reflexivity]. intros _ H. apply no_room_spec in H. congruence.
Qed.
Lemma only_asked_shared w s : only_asked [] w s (with_shared s w).
Proof. split; [exists (records s); destruct s; reflexivity|reflexivity]. Qed.
Lemma line_of_scopes s s' : scopes s' = scopes s -> line_of s -> line_of s'.
Proof. intros E L a. rewrite E. apply L. Qed.
Lemma asked_after w l s s' ok : line_of s -> insert_multi_node e l st (with_shared s w) = Ok (ok, s') ->
  only_asked [ask e p l] w s s' /\ (ok = true <-> (no_room p -> for_the_line e l = [])).
Proof.
  intros L H. apply insert_asked in H as [H O]; [|exact L]. split; [|exact O].
  apply (only_asked_trans [] _ _ _ _ _ _ (only_asked_shared w s) H).
Qed.

Lemma ask_api_asked m s q s' : line_of s -> ask_api e m st s = Ok (q, s') ->
  exists l w, api_of e m st (shared s) = Ok (q, l, w) /\ only_asked [ask e p l] w s s'.
Proof.
  intros L. unfold ask_api. destruct (api_of e m st (shared s)) as [[[q0 l] w]|] eqn:A; cbn [bind]; [|discriminate].
  destruct (insert_multi_node e l st (with_shared s w)) as [[ok s1]|] eqn:I; cbn [bind]; [|discriminate].
  intros E. injection E as <- <-. apply asked_after in I as [I _]; eauto.
Qed.

(** Counters as after [recognise] and [note_paddle]. *)
Definition noted (api name : string) (s s' : bst M) : Prop :=
  torch_count s' = (torch_count s + 1)%Z /\ success_count s' = success_count s /\
  dget String.eqb api (all_apis s') = Some (name, S (times api (all_apis s))) /\
  (forall k, k <> api -> dget String.eqb k (all_apis s') = dget String.eqb k (all_apis s)) /\
  (NoDup (dkeys (all_apis s)) -> NoDup (dkeys (all_apis s'))) /\
  unsupported s' = unsupported s /\ scopes s' = scopes s.
Lemma recognise_noted api s : noted api (old_name api s) s (recognise api s).
Proof.
  unfold noted, recognise, old_name, times. cbn [torch_count success_count all_apis unsupported scopes]. repeat split.
  - rewrite (dget_set_same _ String.eqb_spec). destruct (dget String.eqb api (all_apis s)) as [[]|]; reflexivity.
  - intros k N. apply (dget_set_other _ String.eqb_spec), N.
  - apply (dset_nodup _ String.eqb_spec).
Qed.
Lemma noted_asked api name rs w s s1 s' : noted api name s s1 -> only_asked rs w s1 s' -> noted api name s s'.
Proof. intros (A & B & C & D & E & F & G) O. apply only_asked_scopes in O as (H1 & _ & H2 & H3 & H4 & H5). unfold noted. rewrite H1, H2, H3, H4, H5. repeat split; assumption. Qed.
Lemma noted_note api name name' s s' : noted api name s s' -> noted api name' s (note_paddle api name' s').
Proof.
  intros (A & B & C & D & E & F & G). unfold noted, note_paddle. rewrite C. cbn [torch_count success_count all_apis unsupported scopes].
  repeat split; try assumption.
  - apply (dget_set_same _ String.eqb_spec).
  - intros k N. rewrite (dget_set_other _ String.eqb_spec) by exact N. apply D, N.
  - intros H. apply (dset_nodup _ String.eqb_spec), E, H.
Qed.
Lemma held_note api name (s : bst M) k : held k (note_paddle api name s) = held k s.
Proof. unfold note_paddle. destruct (dget String.eqb api (all_apis s)) as [[]|]; reflexivity. Qed.
Lemma shared_note api name (s : bst M) : shared (note_paddle api name s) = shared s.
Proof. unfold note_paddle. destruct (dget String.eqb api (all_apis s)) as [[]|]; reflexivity. Qed.
Lemma holds_trans r1 r2 s s1 s2 : holds r1 s s1 -> holds r2 s1 s2 -> holds (r1 ++ r2) s s2.
Proof. intros A B k. rewrite fold_left_app, <- A. apply B. Qed.

Lemma ask_and_note_named api m nm s0 s s' : noted api nm s0 s -> line_of s -> ask_and_note e api m st s = Ok s' ->
  exists name ls, named e m st (shared s) name ls (shared s') /\ noted api name s0 s' /\ holds (map (ask e p) ls) s s'.
Proof.
  intros N L. unfold ask_and_note. destruct (ask_api e m st s) as [[q s1]|] eqn:A; cbn [bind]; [|discriminate].
  apply ask_api_asked in A as (l & w & A & O); [|exact L]. pose proof (noted_asked _ _ _ _ _ _ _ N O) as N1.
  pose proof (only_asked_scopes _ _ _ _ O) as (SC & SH & _).
  assert (NO : q = None \/ q = Some "" -> exists name ls, named e m st (shared s) name ls (shared (note_paddle api "" s1)) /\
       noted api name s0 (note_paddle api "" s1) /\ holds (map (ask e p) ls) s (note_paddle api "" s1)).
  { intros Q. exists "", [l]. split; [|split].
    - rewrite shared_note, SH. eapply unnamed; eauto.
    - eapply noted_note, N1.
    - intros k. rewrite held_note. apply O. }
  destruct q as [q|]; cbn [truthy].
  2:{ intros E. injection E as <-. auto. }
  destruct (String.eqb_spec q "") as [->|NE]; cbn [negb].
  { intros E. injection E as <-. auto. }
  destruct (ask_api e m st s1) as [[q2 s2]|] eqn:A2; cbn [bind]; [|discriminate]. intros E. injection E as <-.
  apply ask_api_asked in A2 as (l2 & w2 & A2 & O2); [|eapply line_of_scopes; [exact SC|exact L]].
  exists (match q2 with Some q => q | None => "" end), [l; l2]. split; [|split].
  - rewrite shared_note. pose proof (only_asked_scopes _ _ _ _ O2) as (_ & SH2 & _). rewrite SH2. rewrite SH in A2. eapply named_twice; eauto.
  - eapply noted_note, noted_asked; eauto.
  - intros k. rewrite held_note. apply (holds_trans [_] [_] s s1 s2); [intros k0; apply O|intros k0; apply O2].
Qed.

(** ** Booking *)
Lemma booked_converted api label name s s' : noted api name s s' -> booked api label name Converted s (succeed s').
Proof. intros (A & B & C & D & E & F & G). unfold booked. cbn [torch_count success_count all_apis unsupported scopes succeed]. rewrite A, B, F. repeat split; assumption. Qed.
Lemma booked_not api label name s s' : noted api name s s' -> booked api label name NotConverted s (unsupport label s').
Proof.
  intros (A & B & C & D & E & F & G). unfold booked. cbn [torch_count success_count all_apis unsupported scopes unsupport]. rewrite A, B, F.
  repeat split; try assumption; try lia. 
  - apply (dget_set_same _ String.eqb_spec).
  - intros k N. apply (dget_set_other _ String.eqb_spec), N.
Qed.
Lemma booked_withdrawn api label name s s' : NoDup (dkeys (all_apis s)) -> noted api name s s' -> booked api label name NotTorch s (misidentified api s').
Proof.
  intros ND (A & B & C & D & E & F & G). unfold booked. cbn [torch_count success_count all_apis unsupported scopes misidentified]. rewrite A, B, F.
  repeat split; try assumption; try lia.
  - apply (ddel_get_same _ String.eqb_spec), E, ND.
  - intros k N. rewrite (ddel_get_other _ String.eqb_spec) by exact N. apply D, N.
Qed.

(** ** The last node *)
Lemma result_expression line_ : expression_of line_ (result_node [line_]) \/ (kind_of (result_node [line_]) = "Expr" /\ forall x, ~ expression_of line_ x).
Proof.
  unfold result_node. cbn [last].
  destruct (string_dec (kind_of line_) "Expr") as [K|K].
  - destruct line_; try discriminate K. cbn in K. subst kind. destruct (field_child fields (At "value" 0)) as [v|] eqn:F.
    + left. apply of_line, F.
    + right. split; [reflexivity|]. intros x X. inversion X; subst; cbn in *; congruence.
  - left. assert (Z : result_node [line_] = line_).
    { unfold result_node. cbn [last]. destruct line_; try reflexivity. cbn in K. 
      destruct (string_dec kind "Expr"); [contradiction|]. 
      repeat (destruct kind as [|[[] [] [] [] [] [] [] []] kind]; try reflexivity). congruence. }
    unfold result_node in Z. cbn [last] in Z. rewrite Z. apply of_itself, K.
Qed.
Lemma result_last before line_ : result_node (before ++ [line_]) = result_node [line_].
Proof. unfold result_node. rewrite last_last. reflexivity. Qed.
Lemma expression_unique n x y : expression_of n x -> expression_of n y -> x = y.
Proof. intros E1 E2. destruct E1; inversion E2; subst; cbn in *; congruence. Qed.
Lemma kind_allowed line_ allowed : ~ In "Expr" allowed ->
  if mem_str (kind_of (result_node [line_])) allowed then expression_of line_ (result_node [line_]) /\ In (kind_of (result_node [line_])) allowed
  else forall x, expression_of line_ x -> ~ In (kind_of x) allowed.
Proof.
  intros NX. destruct (mem_str _ _) eqn:K.
  - apply mem_str_In in K. split; [|exact K]. destruct (result_expression line_) as [H|[H _]]; [exact H|]. rewrite H in K. contradiction.
  - intros x X. apply mem_str_false in K. destruct (result_expression line_) as [H|[_ H]]; [|exfalso; exact (H x X)].
    rewrite (expression_unique _ _ _ X H). exact K.
Qed.

(** ** An answer *)
Lemma answer_effect allowed fin note old s0 api label name s a (give_up : bst M -> res (reply * bst M)) r s' :
  ~ In "Expr" allowed -> NoDup (dkeys (all_apis s0)) -> noted api name s0 s -> line_of s ->
  (forall s r s', line_of s -> noted api name s0 s -> give_up s = Ok (r, s') ->
     r = Reply (VNode old) /\ booked api label name NotConverted s0 s' /\ holds [([], note)] s s' /\ shared s' = shared s) ->
  match a with
  | ADelete => let* expr := parent_is "Expr" st in if expr : bool then Ok (Reply VNone, succeed s) else give_up s
  | AMisidentify => Ok (Reply (VNode old), misidentified api s)
  | AUnchange => Ok (Reply (VNode old), succeed s)
  | ANothing | ANodes [] => give_up s
  | ANodes l =>
      if mem_str (kind_of (result_node l)) allowed then
        let* (ok, s) := insert_multi_node e (removelast l) st s in
        if ok : bool then Ok (Reply (VNode (fin (result_node l))), succeed s) else give_up s
      else give_up s
  end = Ok (r, s') ->
  exists rs m, effect e p allowed fin note old a r rs m /\ booked api label name m s0 s' /\ holds rs s s' /\ shared s' = shared s.
Proof.
  intros NX ND N L G.
  assert (GU : give_up s = Ok (r, s') -> r = Reply (VNode old) /\ booked api label name NotConverted s0 s' /\ holds [([], note)] s s' /\ shared s' = shared s) by (apply G; assumption).
  destruct a as [| | |l|].
  - unfold parent_is. rewrite P. cbn [bind]. destruct (String.eqb_spec (kind_of p) "Expr") as [K|K].
    + intros E. injection E as <- <-. exists [], Converted. split; [apply eff_deleted, K|]. split; [apply booked_converted, N|]. split; [intros k|]; reflexivity.
    + intros E. apply GU in E as (-> & B & H & SH). eexists _, _. split; [apply eff_used_value, K|]. auto.
  - intros E. injection E as <- <-. exists [], NotTorch. split; [apply eff_withdrawn|]. split; [apply booked_withdrawn; assumption|]. split; [intros k|]; reflexivity.
  - intros E. injection E as <- <-. exists [], Converted. split; [apply eff_kept|]. split; [apply booked_converted, N|]. split; [intros k|]; reflexivity.
  - destruct l as [|y l].
    { intros E. apply GU in E as (-> & B & H & SH). eexists _, _. split; [apply eff_empty|]. auto. }
    destruct (exists_last (l := y :: l) ltac:(discriminate)) as (before & line_ & EL). rewrite EL, result_last.
    assert (RM : removelast (before ++ [line_]) = before) by (rewrite removelast_app by discriminate; cbn; apply app_nil_r). rewrite RM.
    pose proof (kind_allowed line_ allowed NX) as KA. destruct (mem_str _ allowed).
    + destruct KA as [EX AL]. destruct (insert_multi_node e before st s) as [[ok s1]|] eqn:I; cbn [bind]; [|discriminate].
      apply insert_asked in I as [O OK]; [|exact L]. pose proof (only_asked_scopes _ _ _ _ O) as (SC & SH & _).
      destruct ok.
      * intros E. injection E as <- <-. eexists _, _. split; [apply eff_rewritten; [exact EX|exact AL|apply OK; reflexivity]|].
        split; [eapply booked_converted, noted_asked; eauto|]. split; [intros k; apply O|exact SH].
      * intros E. apply G in E as (-> & B & H & SH'); [|eapply line_of_scopes; eauto|eapply noted_asked; eauto].
        assert (NR : no_room p /\ for_the_line e before <> []).
        { split.
          - apply no_room_spec. destruct (no_room_b p) eqn:R; [reflexivity|]. exfalso. assert (false = true) by (apply OK; intros R'; apply no_room_spec in R'; congruence). discriminate.
          - intros F. assert (false = true) by (apply OK; auto). discriminate. }
        destruct NR as [NR NF]. eexists _, _. split; [eapply eff_no_room; eauto|]. split; [exact B|].
        split; [apply (holds_trans [_] [_] s s1 s'); [intros k; apply O|exact H]|congruence].
    + intros E. apply GU in E as (-> & B & H & SH). eexists _, _. split; [apply eff_wrong_kind, KA|]. auto.
  - intros E. apply GU in E as (-> & B & H & SH). eexists _, _. split; [apply eff_no_answer|]. auto.
Qed.

(** ** The visitors *)
Definition unchanged (s s' : bst M) : Prop := (forall k, held k s' = held k s) /\ shared s' = shared s.

Lemma not_expr_call : ~ In "Expr" for_call. Proof. cbn. intuition discriminate. Qed.
Lemma not_expr_method : ~ In "Expr" for_method. Proof. cbn. intuition discriminate. Qed.
Lemma not_expr_attribute : ~ In "Expr" for_attribute. Proof. cbn. intuition discriminate. Qed.
Lemma matcher_of_none l o : matcher_of l o = Ok None -> l = LNone.
Proof. destruct l; cbn; discriminate || reflexivity. Qed.
Lemma matcher_of_some l o m : matcher_of l o = Ok (Some m) -> exists a c r, l = LMatcher a c r /\ m = MkMatcher a c r o.
Proof. destruct l; cbn; try discriminate. intros E. injection E as <-. eauto. Qed.

Lemma granted_nothing k h : granted line k h ([], []) = h.
Proof. rewrite granted_top. rewrite joined_nil_r. destruct (place_eqb k file_top); reflexivity. Qed.
Theorem call_effect f args kws api origin s r s' : line_of s -> NoDup (dkeys (all_apis s)) ->
  visit_torch_call e f args kws api origin st s = Ok (r, s') ->
  (get_api_matcher api = LNone /\ r = Reply (VNode (Call f args kws)) /\
   booked api api (old_name api s) NotConverted s s' /\ unchanged s s') \/
  exists a c row name ls w answer args' kws' extra rs m,
    let mt := MkMatcher a c row origin in
    get_api_matcher api = LMatcher a c row /\ named e mt st (shared s) name ls w /\
    call_nodes e mt args kws st w = Ok (answer, (args', kws'), extra, shared s') /\
    effect e p for_call (fun x => x) [] (Call f args' kws') answer r rs m /\
    booked api api name m s s' /\ holds (map (ask e p) (ls ++ [extra]) ++ rs) s s'.
Proof.
  intros L ND. unfold visit_torch_call. pose proof (recognise_noted api s) as N.
  destruct (matcher_of (get_api_matcher api) origin) as [[m|]|] eqn:MO; cbn [bind]; [|intros E; left|discriminate].
  2:{ injection E as <- <-. apply matcher_of_none in MO. split; [exact MO|]. split; [reflexivity|]. split; [apply booked_not, N|]. split; [intros k|]; reflexivity. }
  apply matcher_of_some in MO as (a & c & row & LK & ->). set (mt := MkMatcher a c row origin).
  destruct (ask_and_note e api mt st (recognise api s)) as [s1|] eqn:AN; cbn [bind]; [|discriminate].
  apply (ask_and_note_named api mt (old_name api s) s) in AN as (name & ls & NM & N1 & H1); [|exact N|exact L].
  assert (L1 : line_of s1) by (eapply line_of_scopes; [apply N1|exact L]).
  destruct (call_nodes e mt args kws st (shared s1)) as [[[[an [args' kws']] extra] w]|] eqn:CN; cbn [bind]; [|discriminate].
  destruct (insert_multi_node e extra st (with_shared s1 w)) as [[ok s2]|] eqn:I; cbn [bind fst snd]; [|discriminate].
  apply asked_after in I as [O _]; [|exact L1]. pose proof (only_asked_scopes _ _ _ _ O) as (SC & SH & _).
  intros E.
  apply (answer_effect for_call (fun x => x) [] (Call f args' kws') s api api name s2 an
           (fun s => Ok (Reply (VNode (Call f args' kws')), unsupport api s))) in E as (rs & mk & EF & B & H & SH').
  - right. exists a, c, row, name, ls, (shared s1), an, args', kws', extra, rs, mk. cbn zeta. fold mt.
    split; [exact LK|]. split; [exact NM|]. split; [rewrite SH', SH; exact CN|]. split; [exact EF|]. split; [exact B|].
    apply (holds_trans _ _ s s2 s'); [|exact H]. rewrite map_app. apply (holds_trans _ _ s s1 s2); [exact H1|]. intros k. apply O.
  - exact not_expr_call.
  - exact ND.
  - eapply noted_asked; eauto.
  - eapply line_of_scopes; eauto.
  - intros s3 r3 s3' _ N3 E3. injection E3 as <- <-. split; [reflexivity|]. split; [apply booked_not, N3|]. split; [|reflexivity].
    intros k. cbn [fold_left]. rewrite granted_nothing. reflexivity.
Qed.

Lemma annotate_effect label s s' : line_of s -> annotate label st s = Ok s' ->
  exists s1, s' = unsupport label s1 /\ only_asked [([], [remark label])] (shared s) s s1.
Proof.
  intros L. unfold annotate. destruct (scope_body_index st (scopes s)) as [a|] eqn:A; cbn [bind]; [|discriminate]. rewrite (L a A).
  intros E. exists (record line [annotation label] s). split; [congruence|]. split; [rewrite record_rec1; eexists; destruct s; reflexivity|].
  intros k. cbn [fold_left]. rewrite held_record. unfold granted. cbn [fst snd]. rewrite joined_nil_r. destruct (place_eqb k file_top); reflexivity.
Qed.
Lemma give_up_effect label api name s0 old s r s' : line_of s -> noted api name s0 s ->
  (let* s := annotate label st s in Ok (Reply (VNode old), s)) = Ok (r, s') ->
  r = Reply (VNode old) /\ booked api label name NotConverted s0 s' /\ holds [([], [remark label])] s s' /\ shared s' = shared s.
Proof.
  intros L N. destruct (annotate label st s) as [s1|] eqn:A; cbn [bind]; [|discriminate]. intros E. injection E as <- <-.
  apply annotate_effect in A as (s2 & -> & O); [|exact L]. split; [reflexivity|]. split; [apply booked_not; eapply noted_asked; eauto|].
  split; [intros k; apply O|]. apply only_asked_scopes in O. apply O.
Qed.

Lemma self_hidden args : (match args with x :: _ => is_self x | [] => false end) = hides_self args.
Proof. destruct args as [|[] args]; reflexivity. Qed.
Theorem method_effect f args kws api origin s r s' : line_of s -> NoDup (dkeys (all_apis s)) ->
  trans_class_method e f args kws api origin st (recognise api s) = Ok (r, s') ->
  let label := "*" ++ method_suffix api in
  (get_api_matcher api = LNone /\ r = Reply (VNode (Call f args kws)) /\
   booked api label (old_name api s) NotConverted s s' /\ holds [([], [remark label])] s s' /\ shared s' = shared s) \/
  exists a c row name ls w answer args' kws' extra rs m,
    let mt := MkMatcher a c row origin in
    get_api_matcher api = LMatcher a c row /\ named e mt st (shared s) name ls w /\
    class_nodes e mt f (shown args) kws st w = Ok (answer, (args', kws'), extra, shared s') /\
    effect e p for_method (put_back args) [remark label] (Call f (if hides_self args then args else args') kws') answer r rs m /\
    booked api label name m s s' /\ holds (map (ask e p) (ls ++ [extra]) ++ rs) s s'.
Proof.
  intros L ND E label. revert E. unfold trans_class_method. fold label. pose proof (recognise_noted api s) as N.
  destruct (matcher_of (get_api_matcher api) origin) as [[m|]|] eqn:MO; cbn [bind]; [|intros E; left|discriminate].
  2:{ apply matcher_of_none in MO. split; [exact MO|].
      apply (give_up_effect label api (old_name api s) s (Call f args kws) (recognise api s)) in E as (-> & B & H & SH); [|exact L|exact N]. auto. }
  apply matcher_of_some in MO as (a & c & row & LK & ->). set (mt := MkMatcher a c row origin). rewrite self_hidden. fold (shown args).
  destruct (ask_and_note e api mt st (recognise api s)) as [s1|] eqn:AN; cbn [bind]; [|discriminate].
  apply (ask_and_note_named api mt (old_name api s) s) in AN as (name & ls & NM & N1 & H1); [|exact N|exact L].
  assert (L1 : line_of s1) by (eapply line_of_scopes; [apply N1|exact L]).
  destruct (class_nodes e mt f (shown args) kws st (shared s1)) as [[[[an [args' kws']] extra] w]|] eqn:CN; cbn [bind]; [|discriminate].
  destruct (insert_multi_node e extra st (with_shared s1 w)) as [[ok s2]|] eqn:I; cbn [bind fst snd]; [|discriminate].
  apply asked_after in I as [O _]; [|exact L1]. pose proof (only_asked_scopes _ _ _ _ O) as (SC & SH & _).
  intros E. set (old := Call f (if hides_self args then args else args') kws') in *.
  pose proof (answer_effect for_method (put_back args) [remark label] old s api label name s2 an
           (fun s => let* s := annotate label st s in Ok (Reply (VNode old), s)) r s') as Z.
  destruct Z as (rs & mk & EF & B & H & SH'); [| | | | | |].
  6:{ rewrite <- E. destruct an as [| | |[|y l]|]; try reflexivity. change for_method with method_results. unfold put_back.
      destruct (result_node (y :: l)); reflexivity. }
  6:{ right. exists a, c, row, name, ls, (shared s1), an, args', kws', extra, rs, mk. cbn zeta. fold mt.
    split; [exact LK|]. split; [exact NM|]. split; [rewrite SH', SH; exact CN|]. split; [exact EF|]. split; [exact B|].
    apply (holds_trans _ _ s s2 s'); [|exact H]. rewrite map_app. apply (holds_trans _ _ s s1 s2); [exact H1|]. intros k. apply O. }
  - exact not_expr_method.
  - exact ND.
  - eapply noted_asked; eauto.
  - eapply line_of_scopes; eauto.
  - intros s3 r3 s3' L3 N3 E3. eapply give_up_effect; eauto.
Qed.

Theorem attribute_effect n api origin s r s' : line_of s -> NoDup (dkeys (all_apis s)) ->
  trans_class_attribute e n api origin st (recognise api s) = Ok (r, s') ->
  (get_attribute_matcher api = LNone /\ r = Reply (VNode n) /\
   booked api api (old_name api s) NotConverted s s' /\ holds [([], [remark api])] s s' /\ shared s' = shared s) \/
  exists a c row name ls w answer extra rs m,
    let mt := MkMatcher a c row origin in
    get_attribute_matcher api = LMatcher a c row /\ named e mt st (shared s) name ls w /\
    attr_nodes e mt n st w = Ok (answer, extra, shared s') /\
    effect e p for_attribute (fun x => x) [remark api] n answer r rs m /\
    booked api api name m s s' /\ holds (map (ask e p) (ls ++ [extra]) ++ rs) s s'.
Proof.
  intros L ND. unfold trans_class_attribute. pose proof (recognise_noted api s) as N.
  destruct (matcher_of (get_attribute_matcher api) origin) as [[m|]|] eqn:MO; cbn [bind]; [|intros E; left|discriminate].
  2:{ apply matcher_of_none in MO. split; [exact MO|].
      apply (give_up_effect api api (old_name api s) s n (recognise api s)) in E as (-> & B & H & SH); [|exact L|exact N]. auto. }
  apply matcher_of_some in MO as (a & c & row & LK & ->). set (mt := MkMatcher a c row origin).
  destruct (ask_and_note e api mt st (recognise api s)) as [s1|] eqn:AN; cbn [bind]; [|discriminate].
  apply (ask_and_note_named api mt (old_name api s) s) in AN as (name & ls & NM & N1 & H1); [|exact N|exact L].
  assert (L1 : line_of s1) by (eapply line_of_scopes; [apply N1|exact L]).
  destruct (attr_nodes e mt n st (shared s1)) as [[[an extra] w]|] eqn:CN; cbn [bind]; [|discriminate].
  destruct (insert_multi_node e extra st (with_shared s1 w)) as [[ok s2]|] eqn:I; cbn [bind fst snd]; [|discriminate].
  apply asked_after in I as [O _]; [|exact L1]. pose proof (only_asked_scopes _ _ _ _ O) as (SC & SH & _).
  intros E.
  apply (answer_effect for_attribute (fun x => x) [remark api] n s api api name s2 an
           (fun s => let* s := annotate api st s in Ok (Reply (VNode n), s))) in E as (rs & mk & EF & B & H & SH').
  - right. exists a, c, row, name, ls, (shared s1), an, extra, rs, mk. cbn zeta. fold mt.
    split; [exact LK|]. split; [exact NM|]. split; [rewrite SH', SH; exact CN|]. split; [exact EF|]. split; [exact B|].
    apply (holds_trans _ _ s s2 s'); [|exact H]. rewrite map_app. apply (holds_trans _ _ s s1 s2); [exact H1|]. intros k. apply O.
  - exact not_expr_attribute.
  - exact ND.
  - eapply noted_asked; eauto.
  - eapply line_of_scopes; eauto.
  - intros s3 r3 s3' L3 N3 E3. eapply give_up_effect; eauto.
Qed.

Lemma rest_effect n api origin name s0 s r s' : line_of s -> noted api name s0 s -> attribute_rest e n api origin st s = Ok (r, s') ->
  exists rs m, without_row e st p n api origin (shared s) r rs m (shared s') /\ booked api api name m s0 s' /\ holds rs s s'.
Proof.
  intros L N. unfold attribute_rest. destruct (3 <=? List.length (split_on "."%char api))%nat eqn:LEN.
  2:{ intros E. injection E as <- <-. exists [], NotConverted. split; [apply short_name; apply Nat.leb_gt in LEN; exact LEN|]. split; [apply booked_not, N|]. intros k. reflexivity. }
  apply Nat.leb_le in LEN.
  destruct (matcher_of _ origin) as [[m|]|] eqn:MO; cbn [bind]; [| |discriminate].
  2:{ intros E. injection E as <- <-. apply matcher_of_none in MO. exists [], NotConverted. split; [apply owner_unknown; assumption|]. split; [apply booked_not, N|]. intros k. reflexivity. }
  apply matcher_of_some in MO as (a & c & row & LK & ->).
  destruct (ask_api e _ st s) as [[q s1]|] eqn:A; cbn [bind]; [|discriminate]. apply ask_api_asked in A as (l & w & A & O); [|exact L].
  pose proof (only_asked_scopes _ _ _ _ O) as (SC & SH & _). pose proof (noted_asked _ _ _ _ _ _ _ N O) as N1.
  destruct q as [q|]; [|discriminate]. destruct (String.eqb_spec q "unchange") as [->|NQ].
  - intros E. injection E as <- <-. exists [ask e p l], Converted. split; [|split; [apply booked_converted, N1|intros k; apply O]].
    cbn [shared succeed]. rewrite SH. eapply owner_unchanged; eauto.
  - destruct (parse_expr e _) as [new|] eqn:PE; cbn [bind]; [|discriminate]. intros E. injection E as <- <-.
    exists [ask e p l], Converted. split; [|split; [apply booked_converted, N1|intros k; apply O]].
    cbn [shared succeed]. rewrite SH. eapply owner_renamed; eauto.
Qed.
Theorem package_name_effect n api origin s r s' : line_of s -> NoDup (dkeys (all_apis s)) ->
  visit_torch_attribute e n api origin st s = Ok (r, s') ->
  exists name rs m, name_effect e st p n api origin (shared s) r name rs m (shared s') /\
    booked api api (match name with Some t => t | None => old_name api s end) m s s' /\ holds rs s s'.
Proof.
  intros L ND. unfold visit_torch_attribute. pose proof (recognise_noted api s) as N.
  destruct (matcher_of (attribute_lookup api) origin) as [[m|]|] eqn:MO; cbn [bind]; [| |discriminate].
  2:{ intros E. apply matcher_of_none in MO. apply (rest_effect n api origin (old_name api s) s (recognise api s)) in E as (rs & mk & W & B & H); [|exact L|exact N].
      exists None, rs, mk. split; [apply name_no_row; assumption|]. split; [exact B|exact H]. }
  apply matcher_of_some in MO as (a & c & row & LK & ->).
  destruct (ask_api e _ st (recognise api s)) as [[q s1]|] eqn:A; cbn [bind]; [|discriminate]. apply ask_api_asked in A as (l & w & A & O); [|exact L].
  change (shared (recognise api s)) with (shared s) in A.
  pose proof (only_asked_scopes _ _ _ _ O) as (SC & SH & _). pose proof (noted_asked _ _ _ _ _ _ _ N O) as N1.
  assert (L1 : line_of s1) by (eapply line_of_scopes; [exact SC|exact L]).
  assert (H1 : holds [ask e p l] s s1) by (intros k; apply O).
  assert (RE : attribute_rest e n api origin st s1 = Ok (r, s') -> exists rs mk, without_row e st p n api origin w r rs mk (shared s') /\
            booked api api (old_name api s) mk s s' /\ holds (ask e p l :: rs) s s').
  { intros E. apply (rest_effect n api origin (old_name api s) s s1) in E as (rs & mk & W & B & H); [|exact L1|exact N1]. rewrite SH in W.
    exists rs, mk. split; [exact W|]. split; [exact B|]. apply (holds_trans [_] rs s s1 s'); assumption. }
  destruct q as [q|].
  2:{ intros E. apply RE in E as (rs & mk & W & B & H). exists None, (ask e p l :: rs), mk. split; [eapply name_no_answer; eauto|]. auto. }
  destruct (String.eqb_spec q "delete") as [->|N1'].
  { unfold parent_is. rewrite P. cbn [bind]. destruct (String.eqb_spec (kind_of p) "Expr") as [K|K].
    - intros E. injection E as <- <-. exists None, [ask e p l], Converted. split; [|split; [apply booked_converted, N1|exact H1]].
      cbn [shared succeed]. rewrite SH. eapply name_deleted; eauto.
    - destruct (String.eqb (kind_of p) "FunctionDef" && field_is "decorator_list" (here st)) eqn:FD.
      + intros E. injection E as <- <-. exists None, [ask e p l], Converted. split; [|split; [apply booked_converted, N1|exact H1]].
        cbn [shared succeed]. rewrite SH. apply andb_prop in FD as [F1 F2]. apply String.eqb_eq in F1. unfold field_is in F2. apply String.eqb_eq in F2. eapply name_undecorated; eauto.
      + intros E. apply RE in E as (rs & mk & W & B & H). exists None, (ask e p l :: rs), mk. split; [|auto].
        eapply name_undeletable; eauto. intros [F1 F2]. unfold field_is in FD. rewrite F1, F2 in FD. discriminate. }
  destruct (String.eqb_spec q "misidentify") as [->|N2].
  { intros E. injection E as <- <-. exists None, [ask e p l], NotTorch. split; [|split; [apply booked_withdrawn; assumption|exact H1]].
    cbn [shared misidentified]. rewrite SH. eapply name_withdrawn; eauto. }
  destruct (String.eqb_spec q "unchange") as [->|N3].
  { intros E. injection E as <- <-. exists None, [ask e p l], Converted. split; [|split; [apply booked_converted, N1|exact H1]].
    cbn [shared succeed]. rewrite SH. eapply name_kept; eauto. }
  destruct (String.eqb_spec q "") as [->|N4].
  { intros E. apply RE in E as (rs & mk & W & B & H). exists None, (ask e p l :: rs), mk. split; [eapply name_no_answer; eauto|]. auto. }
  destruct (parse_expr e q) as [new|] eqn:PE; cbn [bind]; [|discriminate]. intros E. injection E as <- <-.
  exists (Some q), [ask e p l], Converted. split; [|split].
  - cbn [shared succeed]. rewrite shared_note, SH. eapply name_renamed; eauto. cbn. intuition congruence.
  - apply booked_converted. eapply noted_note, N1.
  - intros k. unfold held. cbn [records succeed]. change (held k (note_paddle api q s1) = fold_left (granted line k) [ask e p l] (held k s)). rewrite held_note. apply H1.
Qed.
End Facts.

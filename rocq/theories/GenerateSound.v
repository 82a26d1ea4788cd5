(** Every run of [generate] is an instance of a result of the symbolic execution. *)
From Verif Require Import PyStr PyDict PyDictFacts PyStrFacts UtilsFile Args Generate GenerateSym GenerateRel ArgsFacts Names.

Scheme exp_mut := Induction for exp Sort Prop
  with exps_mut := Induction for exps Sort Prop
  with stmt_mut := Induction for stmt Sort Prop
  with block_mut := Induction for block Sort Prop.
Combined Scheme program_ind from exp_mut, exps_mut, stmt_mut, block_mut.

Ltac open_run :=
  repeat match goal with
  | H : andthen ?o _ = Ret _ |- _ =>
      let E := fresh "E" in
      destruct o as [?|?] eqn:E; cbn [andthen] in H; [|discriminate H]
  | H : (let (_, _) := ?p in _) = Ret _ |- _ => let E := fresh "E" in destruct p eqn:E
  | H : match ?x with _ => _ end = Ret _ |- _ => let E := fresh "E" in destruct x eqn:E; try discriminate H
  | H : Ret _ = Ret _ |- _ => injection H; clear H; intros; subst
  end.
Ltac chain := cbn [counters upd_dict upd_vars] in *; eauto 6 using grown_refl, grown_trans.
Lemma counters_grow c :
  (forall e s v s', eval c e s = Ret (v, s') -> grown (counters s) (counters s')) /\
  (forall l s v s', evals c l s = Ret (v, s') -> grown (counters s) (counters s')) /\
  (forall t s v s', step c t s = Ret (v, s') -> grown (counters s) (counters s')) /\
  (forall b s v s', exec c b s = Ret (v, s') -> grown (counters s) (counters s')).
Proof.
  apply program_ind; intros; cbn [eval evals step exec] in *; open_run; try solve [chain].
  - cbn [counters]. replace i with (fst (unique_name (counters s) k)) by (rewrite E; reflexivity). apply grown_made.
  - exact (H _ _ _ E0).
  - subst a0. eapply grown_trans; [exact (H _ _ _ E)|]. destruct (truth v0); [eapply H0|eapply H1]; eassumption.
Qed.

Definition result_ok (kw : dict string string) (recv : option string) (fr : string -> string -> Prop)
  (r : ares agenerated) (o : outcome generated) : Prop :=
  match r, o with
  | ADone (AConverted a u) _, Ret (Converted q u') => mts kw recv fr a q /\ u = u'
  | ADone AMisidentify _, Ret Misidentify => True
  | ADone AUnchange _, Ret Unchange => True
  | ADone ARefused _, Ret Refused => True
  | AFail e, Fail e' => e = e'
  | AStuck _, _ => True
  | _, _ => False
  end.

Section Sound.
  Variable c : config.
  Variable kw : dict string string.
  Variable recv : option string.
  Hypothesis method_recv : c_method c = match recv with Some _ => true | None => false end.
  Definition context : ctx := MkCtx (c_row c) (c_name c) recv (c_convert c) (c_strict c).
  (** The names drawn: from the counters [lo] on, as long as [within] holds of the
      counters. *)
  Variable lo : ids.
  Variable within : ids -> Prop.
  Hypothesis within_grown : forall i j, grown i j -> within j -> within i.
  Definition fr (k n : string) : Prop :=
    exists i, grown lo i /\ within (fst (unique_name i k)) /\ n = snd (unique_name i k).
  Notation mts := (mts kw recv fr).
  Notation mv := (mv kw recv fr).
  Notation md := (md kw recv fr).
  Notation sat := (sat kw recv fr).
  Notation pure := (pure kw recv fr).

  Record ms (st : astate) (s : state) : Prop := MkMs {
    ms_vars : forall x, match dget String.eqb x (a_vars st), dget String.eqb x (vars s) with
                        | Some a, Some v => mv a v
                        | None, None => True
                        | _, _ => False
                        end;
    ms_dicts : forall x, match dget String.eqb x (a_dicts st), dget String.eqb x (dicts s) with
                         | Some a, Some v => md a v
                         | None, None => True
                         | _, _ => False
                         end;
    ms_api : match a_api st, self_api s with
             | Some a, Some r => mts a r
             | None, None => True
             | _, _ => False
             end;
    ms_utils : a_utils st = utils s;
    ms_counters : grown lo (counters s) }.

  Definition ok {A B} (R : A -> B -> Prop) (r : ares A) (o : outcome (B * state)) : Prop :=
    match r, o with
    | ADone a st, Ret (b, s) => R a b /\ ms st s
    | AFail e, Fail e' => e = e'
    | AStuck _, _ => True
    | _, _ => False
    end.
  Definition holds {A B} (R : A -> B -> Prop) (l : list (assume * ares A)) (o : outcome (B * state)) : Prop :=
    match o with Ret (_, s) => within (counters s) | Fail _ => forall i, within i end ->
    exists h r, In (h, r) l /\ sat h /\ ok R r o.

  Lemma holds_ret {A B} (R : A -> B -> Prop) a b h st s :
    sat h -> R a b -> ms st s -> holds R (aret a h st) (Ret (b, s)).
  Proof. intros S H M _. exists h, (ADone a st). cbn. tauto. Qed.
  Lemma holds_fail {A B} (R : A -> B -> Prop) e h st : sat h -> holds R (afail e h st) (Fail e).
  Proof. intros S _. exists h, (AFail e). cbn. tauto. Qed.
  Lemma holds_stuck {A B} (R : A -> B -> Prop) e h st o : sat h -> holds R (astuck e h st) o.
  Proof. intros S _. exists h, (AStuck e). cbn. destruct o; tauto. Qed.
  Lemma holds_bind {A B A' B'} (R : A -> B -> Prop) (Q : A' -> B' -> Prop) (m : M A) (k : A -> M A') h st o g :
    holds R (m h st) o ->
    (forall h1 a st1 b s1, sat h1 -> R a b -> ms st1 s1 -> holds Q (k a h1 st1) (g (b, s1))) ->
    (forall b s1 b' s2, g (b, s1) = Ret (b', s2) -> grown (counters s1) (counters s2)) ->
    holds Q (abind m k h st) (andthen o g).
  Proof.
    intros H K GR X.
    destruct H as (h1 & r & I & S & O).
    { destruct o as [[b s1]|e]; [|exact X]. cbn [andthen] in X.
      destruct (g (b, s1)) as [[b' s2]|e] eqn:E; [exact (within_grown _ _ (GR _ _ _ _ E) X)|apply X]. }
    destruct r as [a st1|e|e].
    - destruct o as [[b s1]|e]; [|destruct O]. destruct O as [RA MS].
      destruct (K h1 a st1 b s1 S RA MS X) as (h2 & r2 & I2 & S2 & O2).
      exists h2, r2. split; [|tauto]. apply in_flat_map. exists (h1, ADone a st1). tauto.
    - destruct o as [[b s1]|e']; [destruct O|]. cbn in O. subst e'.
      exists h1, (AFail e). split; [|cbn; tauto]. apply in_flat_map. exists (h1, AFail e). cbn. tauto.
    - exists h1, (AStuck e). split; [|split; [exact S|destruct (andthen o g); exact I0 || exact Logic.I]].
      apply in_flat_map. exists (h1, AStuck e). cbn. tauto.
  Qed.
  Lemma holds_pure {A A' B'} (P : A -> Prop) (Q : A' -> B' -> Prop) (m : M A) (k : A -> M A') h st o :
    pure (m h st) st P ->
    (forall h1 a, sat h1 -> P a -> holds Q (k a h1 st) o) ->
    holds Q (abind m k h st) o.
  Proof.
    intros (h1 & a & I & S & H) K X. destruct (K h1 a S H X) as (h2 & r2 & I2 & S2 & O2).
    exists h2, r2. split; [|tauto]. apply in_flat_map. exists (h1, ADone a st). tauto.
  Qed.
  Lemma holds_state {A' B'} (Q : A' -> B' -> Prop) (k : astate -> M A') h st o :
    holds Q (k st h st) o -> holds Q (abind aget_state k h st) o.
  Proof.
    intros H X. destruct (H X) as (h2 & r2 & I2 & S2 & O2). exists h2, r2. split; [|tauto].
    apply in_flat_map. exists (h, ADone st st). cbn. tauto.
  Qed.
  Lemma holds_put {A' B'} (Q : A' -> B' -> Prop) st' (k : unit -> M A') h st o :
    holds Q (k tt h st') o -> holds Q (abind (aput st') k h st) o.
  Proof.
    intros H X. destruct (H X) as (h2 & r2 & I2 & S2 & O2). exists h2, r2. split; [|tauto].
    apply in_flat_map. exists (h, ADone tt st'). cbn. tauto.
  Qed.
  Lemma holds_dict {A' B'} (Q : A' -> B' -> Prop) d (k : adict -> M A') h st s g :
    sat h -> ms st s ->
    (forall a v, md a v -> holds Q (k a h st) (g v)) ->
    holds Q (abind (aget_dict d) k h st) (andthen (get_dict d s) g).
  Proof.
    intros S MS K X. pose proof (ms_dicts _ _ MS d) as D. revert X. unfold abind, aget_dict, get_dict.
    destruct (dget String.eqb d (a_dicts st)) as [a|], (dget String.eqb d (dicts s)) as [v|]; try tauto; cbn [andthen]; intros X.
    - destruct (K a v D X) as (h2 & r2 & I2 & S2 & O2). exists h2, r2. cbn. rewrite app_nil_r. tauto.
    - exists h, (AFail "UnboundLocalError"). cbn. tauto.
  Qed.
  Definition put_adict d a st := MkA (a_vars st) (dset String.eqb d a (a_dicts st)) (a_api st) (a_utils st).
  Lemma ms_put d a v st s : ms st s -> md a v -> ms (put_adict d a st) (upd_dict d v s).
  Proof.
    intros [V D A U L] M. split; cbn; try assumption. intros x.
    destruct (String.eqb_spec x d) as [->|N].
    - rewrite (dget_set_same _ String.eqb_spec), (dget_set_same _ String.eqb_spec). exact M.
    - rewrite !(dget_set_other _ String.eqb_spec) by exact N. apply D.
  Qed.
  Lemma holds_set_dict {A' B'} (Q : A' -> B' -> Prop) d a (k : unit -> M A') h st o :
    holds Q (k tt h (put_adict d a st)) o -> holds Q (abind (aset_dict d a) k h st) o.
  Proof.
    intros H X. destruct (H X) as (h2 & r2 & I2 & S2 & O2). exists h2, r2. split; [|tauto].
    apply in_flat_map. exists (h, ADone tt (put_adict d a st)). cbn. tauto.
  Qed.

  Lemma row_api_ok : mv (row_api (c_row c))
    (match paddle_api (c_row c) with Some a => Text (lit a) | None => NoneV end).
  Proof. unfold row_api. destruct (paddle_api (c_row c)); [apply mts_lit|exact I]. Qed.

  Lemma api_ok h st s : sat h -> ms st s ->
    holds mv (aapi c h st) (run* v := get_paddle_api context s in Ret (v, s)).
  Proof.
    intros S MS. unfold aapi, get_paddle_api. cbn [strict row_of context].
    destruct (c_strict c && _); [apply holds_fail, S|]. cbn [andthen]. apply holds_state.
    pose proof (ms_api _ _ MS) as A. destruct (a_api st) as [a|], (self_api s) as [r|]; try tauto.
    - eapply holds_pure; [apply (atest_ok kw recv fr (Is "") a r); assumption|]. intros h1 b S1 ->.
      apply holds_ret; [exact S1| |exact MS]. cbn [run_test].
      destruct (String.eqb (render r) ""); [apply row_api_ok|exact A].
    - apply holds_ret; [exact S|apply row_api_ok|exact MS].
  Qed.

  Lemma fill_ok ps : forall args rs h st, sat h -> Forall2 mts args rs ->
    match fill ps rs with
    | Ret r => pure (afill ps args h st) st (fun a => mts a r)
    | Fail e => In (h, AFail e) (afill ps args h st)
    end.
  Proof.
    induction ps as [|p ps IH]; intros args rs h st S F; [apply pure_ret; [exact S|reflexivity]|].
    destruct ps as [|p2 ps]; [apply pure_ret; [exact S|apply mts_lit]|].
    destruct F as [|a r args rs M F]; [left; reflexivity|].
    change (fill (p :: p2 :: ps) (r :: rs)) with
      (run* q := fill (p2 :: ps) rs in Ret (MkPiece [] p :: r ++ q)%list).
    change (afill (p :: p2 :: ps) (a :: args)) with
      (do* q := afill (p2 :: ps) args in aret (ALit p :: a ++ q)%list).
    specialize (IH args rs h st S F). destruct (fill (p2 :: ps) rs) as [q|e]; cbn [andthen].
    - eapply pure_pure; [exact IH|]. intros h1 b S1 B. apply pure_ret; [exact S1|].
      apply (mts_app kw recv fr [ALit p] (a ++ b)%list (lit p) (r ++ q)%list); [apply mts_lit|].
      apply mts_app; assumption.
    - apply in_flat_map. exists (h, AFail e). cbn. tauto.
  Qed.
  Lemma format_ok t v args rs h st : sat h -> mv t v -> Forall2 mts args rs ->
    (exists e, In (h, AStuck e) (aformat t args h st)) \/
    match format v rs with
    | Ret r => pure (aformat t args h st) st (fun a => mts a r)
    | Fail e => In (h, AFail e) (aformat t args h st)
    end.
  Proof.
    intros S M F. destruct t as [l| |b], v as [r| |b']; try destruct M; cbn [aformat format];
      try (right; left; reflexivity).
    destruct (closed l) as [s|] eqn:C; [right|left; exists "template"; left; reflexivity].
    destruct (closed_ok _ _ _ _ _ _ C M) as [-> ->].
    destruct (holes s ""); [apply fill_ok; assumption|left; reflexivity].
  Qed.
  Lemma holds_format t v args rs h st s : sat h -> ms st s -> mv t v -> Forall2 mts args rs ->
    holds mv ((do* r := aformat t args in aret (AText r)) h st)
             (run* r := format v rs in Ret (Text r, s)).
  Proof.
    intros S MS M F. destruct (format_ok t v args rs h st S M F) as [[e I]|H].
    - intros _. exists h, (AStuck e). split; [apply in_flat_map; exists (h, AStuck e); cbn; tauto|].
      split; [exact S|destruct (andthen (format v rs) _); exact Logic.I].
    - destruct (format v rs) as [r|e]; cbn [andthen].
      + eapply holds_pure; [exact H|]. intros h1 a S1 A. apply holds_ret; assumption.
      + intros _. exists h, (AFail e). split; [apply in_flat_map; exists (h, AFail e); cbn; tauto|]. cbn. tauto.
  Qed.

  Definition mo (a : option avalue) (v : option value) : Prop :=
    match a, v with Some x, Some y => mv x y | None, None => True | _, _ => False end.

  Ltac dict_step := eapply holds_dict; [eassumption|eassumption|]; intros ? ? ?.
  Ltac look k := eapply holds_pure; [apply (alook_ok kw recv fr k); eassumption|]; intros ? ? ? ?.

  Ltac grow :=
    repeat match goal with
    | IH : forall h st s, _ -> _ -> holds _ _ (eval context ?e s) |- _ => pose proof (proj1 (counters_grow context) e); clear IH
    | IH : forall h st s, _ -> _ -> holds _ _ (evals context ?e s) |- _ => pose proof (proj1 (proj2 (counters_grow context)) e); clear IH
    | IH : forall h st s, _ -> _ -> holds _ _ (step context ?e s) |- _ => pose proof (proj1 (proj2 (proj2 (counters_grow context))) e); clear IH
    | IH : forall h st s, _ -> _ -> holds _ _ (exec context ?e s) |- _ => pose proof (proj2 (proj2 (proj2 (counters_grow context))) e); clear IH
    end;
    intros; open_run;
    try match goal with X : context [if truth ?v then _ else _] |- _ => destruct (truth v) end;
    repeat match goal with
    | G : forall s v s', _ = Ret (v, s') -> grown _ _, X : _ = Ret (_, _) |- _ => apply G in X
    end; chain.
  Theorem run_sound :
    (forall e h st s, sat h -> ms st s -> holds mv (aeval c e h st) (eval context e s)) /\
    (forall l h st s, sat h -> ms st s -> holds (Forall2 mts) (aevals c l h st) (evals context l s)) /\
    (forall t h st s, sat h -> ms st s -> holds mo (astep c t h st) (step context t s)) /\
    (forall b h st s, sat h -> ms st s -> holds mo (aexec c b h st) (exec context b s)).
  Proof.
    apply program_ind.
    - (* ELit *) intros t h st s S MS. apply holds_ret; [exact S|apply mts_lit|exact MS].
    - (* EVar *) intros x h st s S MS. cbn [aeval eval]. apply holds_state.
      pose proof (ms_vars _ _ MS x) as V.
      destruct (dget String.eqb x (a_vars st)), (dget String.eqb x (vars s)); try tauto.
      + apply holds_ret; assumption.
      + apply holds_fail, S.
    - (* EClass *) intros h st s S MS. cbn [aeval eval receiver context]. rewrite method_recv.
      assert (C : (exists v, recv = Some v /\
                     match recv with Some r => Ret (Text (receiver_piece r), s) | None => Fail "AttributeError" end
                     = Ret (Text (receiver_piece v), s) /\
                     match recv with Some _ => true | None => false end = true) \/
                  (match recv with Some r => Ret (Text (receiver_piece r), s) | None => Fail "AttributeError" end
                   = Fail "AttributeError" /\
                   match recv with Some _ => true | None => false end = false)).
      { destruct recv as [v|]; [left; exists v; repeat split|right; split; reflexivity]. }
      destruct C as [(v & Q & -> & ->)|(-> & ->)]; [|apply holds_fail, S].
      apply holds_ret; [exact S| |exact MS]. apply mts_one. exists v. split; [exact Q|reflexivity].
    - (* EApi *) intros h st s S MS. apply api_ok; assumption.
    - (* ETorch *) intros h st s S MS. apply holds_ret; [exact S|apply mts_lit|exact MS].
    - (* EGet *) intros d k h st s S MS. cbn [aeval eval]. dict_step. look k.
      destruct a0, (dget String.eqb k v); try tauto; [apply holds_ret|apply holds_fail]; assumption.
    - (* EPop *) intros d k h st s S MS. cbn [aeval eval]. dict_step. look k.
      destruct a0, (dget String.eqb k v); try tauto; [|apply holds_fail; assumption].
      apply holds_set_dict, holds_ret; [assumption|assumption|]. apply ms_put; [exact MS|].
      apply adel_ok. assumption.
    - (* EGetOr *) intros d k e IH h st s S MS. cbn [aeval eval]. eapply holds_bind; [apply IH; assumption| |grow].
      intros h1 a st1 b s1 S1 R1 MS1. dict_step. look k.
      destruct a1, (dget String.eqb k v); try tauto; apply holds_ret; assumption.
    - (* EPopOr *) intros d k e IH h st s S MS. cbn [aeval eval]. eapply holds_bind; [apply IH; assumption| |grow].
      intros h1 a st1 b s1 S1 R1 MS1. dict_step. look k.
      destruct a1, (dget String.eqb k v); try tauto; [|apply holds_ret; assumption].
      apply holds_set_dict, holds_ret; [assumption|assumption|]. apply ms_put; [exact MS1|].
      apply adel_ok. assumption.
    - (* EFormat *) intros t IHt l IHl h st s S MS. cbn [aeval eval].
      eapply holds_bind; [apply IHt; assumption| |grow]. intros h1 a st1 b s1 S1 R1 MS1.
      eapply holds_bind; [apply IHl; assumption| |grow]. intros h2 vs st2 rs s2 S2 R2 MS2.
      apply holds_format; assumption.
    - (* ECat *) intros a IHa b IHb h st s S MS. cbn [aeval eval].
      eapply holds_bind; [apply IHa; assumption| |grow]. intros h1 x st1 x' s1 S1 R1 MS1.
      eapply holds_bind; [apply IHb; assumption| |grow]. intros h2 y st2 y' s2 S2 R2 MS2.
      destruct x, x'; try destruct R1; try (apply holds_fail; assumption);
      destruct y, y'; try destruct R2; try (apply holds_fail; assumption).
      apply holds_ret; [assumption|apply mts_app; assumption|assumption].
    - (* EStr *) intros f a IH h st s S MS. cbn [aeval eval].
      eapply holds_bind; [apply IH; assumption| |grow]. intros h1 x st1 x' s1 S1 R1 MS1.
      destruct x, x'; try destruct R1; try (apply holds_fail; assumption).
      apply holds_ret; [assumption|apply aedit_ok; assumption|assumption].
    - (* EKwargs *) intros d h st s S MS. cbn [aeval eval]. dict_step.
      apply holds_ret; [assumption| |assumption]. apply mts_one, mp_join. exists v. tauto.
    - (* EUnique *) intros k h st s S MS. cbn [aeval eval].
      destruct (unique_name (counters s) k) as [i n] eqn:U.
      intros X. apply (fun r m => holds_ret mv (AText [AFresh k]) (Text (lit n)) h st (MkState (vars s) (dicts s) (self_api s) i (utils s)) S r m X).
      + apply mts_one. exists n. split; [|reflexivity]. exists (counters s). rewrite U. split; [apply MS|]. split; [exact X|reflexivity].
      + destruct MS as [V D A T L]. split; cbn; try assumption. apply (grown_trans _ _ _ L).
        replace i with (fst (unique_name (counters s) k)) by (rewrite U; reflexivity). apply grown_made.
    - (* EIf *) intros x IHx a IHa b IHb h st s S MS. cbn [aeval eval].
      eapply holds_bind; [apply IHx; assumption| |grow]. intros h1 v st1 v' s1 S1 R1 MS1.
      eapply holds_pure; [apply (atruth_ok kw recv fr v v'); assumption|]. intros h2 t S2 ->.
      destruct (truth v'); [apply IHa|apply IHb]; assumption.
    - (* ENone *) intros h st s S MS. apply holds_ret; [exact S|exact I|exact MS].
    - (* EBool *) intros b h st s S MS. apply holds_ret; [exact S|reflexivity|exact MS].
    - (* EIn *) intros k d h st s S MS. cbn [aeval eval]. dict_step. look k.
      unfold dmem. destruct a0, (dget String.eqb k v); try tauto;
        (apply holds_ret; [assumption|reflexivity|assumption]).
    - (* EEmpty *) intros d h st s S MS. cbn [aeval eval]. dict_step.
      eapply holds_pure; [apply aempty_ok; eassumption|]. intros h1 b S1 ->.
      apply holds_ret; [assumption| |assumption]. apply (empty_ok kw recv fr), H.
    - (* ETest *) intros t a IH h st s S MS. cbn [aeval eval].
      eapply holds_bind; [apply IH; assumption| |grow]. intros h1 x st1 x' s1 S1 R1 MS1.
      destruct x, x'; try destruct R1.
      + eapply holds_pure; [eapply atest_ok; eassumption|]. intros h2 b S2 ->.
        apply holds_ret; [assumption|reflexivity|assumption].
      + destruct t; try (apply holds_fail; assumption). apply holds_ret; [assumption|reflexivity|assumption].
      + destruct t; try (apply holds_fail; assumption). apply holds_ret; [assumption|reflexivity|assumption].
    - (* EIsNone *) intros a IH h st s S MS. cbn [aeval eval].
      eapply holds_bind; [apply IH; assumption| |grow]. intros h1 x st1 x' s1 S1 R1 MS1.
      apply holds_ret; [assumption| |assumption]. destruct x, x'; try destruct R1; reflexivity.
    - (* ENot *) intros a IH h st s S MS. cbn [aeval eval].
      eapply holds_bind; [apply IH; assumption| |grow]. intros h1 x st1 x' s1 S1 R1 MS1.
      eapply holds_pure; [apply (atruth_ok kw recv fr x x'); assumption|]. intros h2 b S2 ->.
      apply holds_ret; [assumption|reflexivity|assumption].
    - (* EAnd *) intros a IHa b IHb h st s S MS. cbn [aeval eval].
      eapply holds_bind; [apply IHa; assumption| |grow]. intros h1 x st1 x' s1 S1 R1 MS1.
      eapply holds_pure; [apply (atruth_ok kw recv fr x x'); assumption|]. intros h2 t S2 ->.
      destruct (truth x'); [apply IHb|apply holds_ret]; assumption.
    - (* EOr *) intros a IHa b IHb h st s S MS. cbn [aeval eval].
      eapply holds_bind; [apply IHa; assumption| |grow]. intros h1 x st1 x' s1 S1 R1 MS1.
      eapply holds_pure; [apply (atruth_ok kw recv fr x x'); assumption|]. intros h2 t S2 ->.
      destruct (truth x'); [apply holds_ret|apply IHb]; assumption.
    - (* ETarget *) intros k h st s S MS. apply holds_ret; [exact S|reflexivity|exact MS].
    - (* EConvert *) intros k h st s S MS. apply holds_ret; [exact S|reflexivity|exact MS].
    - (* EGenerate *) intros b IH d h st s S MS. cbn [aeval eval]. dict_step.
      apply holds_state, holds_put. eapply holds_bind.
      + apply IH; [assumption|]. destruct MS as [V D A T L]. split; cbn; try assumption.
        * intros x. exact I.
        * intros x. destruct (String.eqb x "kwargs"); [assumption|exact I].
      + intros h1 w st1 w' s1 S1 R1 MS1. apply holds_state, holds_put, holds_ret; [assumption| |].
        * destruct w, w'; try destruct R1; [assumption|exact I].
        * destruct MS as [V D A T L], MS1 as [V1 D1 A1 T1 L1]. split; cbn; assumption.
      + grow.
    - (* Nil *) intros h st s S MS. apply holds_ret; [exact S|constructor|exact MS].
    - (* Cons *) intros e IHe l IHl h st s S MS. cbn [aevals evals].
      eapply holds_bind; [apply IHe; assumption| |grow]. intros h1 a st1 b s1 S1 R1 MS1.
      eapply holds_bind; [apply IHl; assumption| |grow]. intros h2 vs st2 rs s2 S2 R2 MS2.
      apply holds_ret; [assumption| |assumption]. constructor; [apply show_ok|]; assumption.
    - (* SLet *) intros x e IH h st s S MS. cbn [astep step].
      eapply holds_bind; [apply IH; assumption| |grow]. intros h1 a st1 b s1 S1 R1 MS1.
      apply holds_state, holds_put, holds_ret; [assumption|exact I|].
      destruct MS1 as [V D A T L]. split; cbn; try assumption. intros y.
      destruct (String.eqb_spec y x) as [->|N].
      + rewrite !(dget_set_same _ String.eqb_spec). exact R1.
      + rewrite !(dget_set_other _ String.eqb_spec) by exact N. apply V.
    - (* SSet *) intros d k e IH h st s S MS. cbn [astep step].
      eapply holds_bind; [apply IH; assumption| |grow]. intros h1 a st1 b s1 S1 R1 MS1. dict_step.
      apply holds_set_dict, holds_ret; [assumption|exact I|]. apply ms_put; [assumption|].
      apply aset_ok; [assumption|apply show_ok; assumption].
    - (* SDo *) intros e IH h st s S MS. cbn [astep step].
      eapply holds_bind; [apply IH; assumption| |grow]. intros h1 a st1 b s1 S1 R1 MS1.
      apply holds_ret; [assumption|exact I|assumption].
    - (* SNew *) intros d h st s S MS. cbn [astep step].
      apply holds_set_dict, holds_ret; [assumption|exact I|]. apply ms_put; [assumption|apply md_nil].
    - (* SCopy *) intros d e h st s S MS. cbn [astep step]. dict_step.
      apply holds_set_dict, holds_ret; [assumption|exact I|]. apply ms_put; assumption.
    - (* SUpdate *) intros d e h st s S MS. cbn [astep step]. dict_step. dict_step.
      destruct (nodup (map fst a0)) eqn:N; [|apply holds_stuck; assumption].
      eapply holds_pure; [apply (aupdate_ok kw recv fr a0 v0 a v); assumption|]. intros h1 u S1 U.
      apply holds_set_dict, holds_ret; [assumption|exact I|]. apply ms_put; assumption.
    - (* SMissing *) intros d e h st s S MS. cbn [astep step]. dict_step. dict_step.
      destruct (nodup (map fst a0)) eqn:N; [|apply holds_stuck; assumption].
      eapply holds_pure; [apply (amissing_ok kw recv fr a0 v0 a v); assumption|]. intros h1 u S1 U.
      apply holds_set_dict, holds_ret; [assumption|exact I|]. apply ms_put; assumption.
    - (* SRename *) intros d e r h st s S MS. cbn [astep step]. dict_step. dict_step.
      destruct (nodup _) eqn:N; [|apply holds_stuck; assumption].
      eapply holds_pure.
      + apply (aupdate_ok kw recv fr _ (map (fun kv => (rename_key r (fst kv), snd kv)) v0) a v); [assumption|apply rename_ok; [eassumption|exact N]|assumption|].
        rewrite map_map. exact N.
      + intros h1 u S1 U. apply holds_set_dict, holds_set_dict, holds_ret; [assumption|exact I|].
        apply ms_put; [|apply md_nil]. apply ms_put; [assumption|]. rewrite rename_into_update. exact U.
    - (* SChange *) intros d e unuse h st s S MS. cbn [astep step]. dict_step.
      eapply holds_pure with (P := fun a' => md a' v).
      + destruct (collides (c_row c) unuse a); [|apply pure_ret; assumption].
        destruct (aresolve_ok kw recv fr a h st S) as (h1 & r & I1 & S1 & ->).
        exists h1, (resolved kw a). split; [exact I1|]. split; [exact S1|]. apply resolved_ok. assumption.
      + intros h1 a' S1 H1. destruct (achange (c_row c) unuse a') as [u|] eqn:U; [|apply holds_stuck; assumption].
        apply holds_set_dict, holds_ret; [assumption|exact I|]. apply ms_put; [assumption|].
        apply (achange_ok kw recv fr _ _ _ _ _ H1 U).
    - (* SDefaults *) intros d h st s S MS. cbn [astep step]. dict_step.
      destruct (nodup _) eqn:N; [|apply holds_stuck; assumption].
      eapply holds_pure.
      + apply amissing_ok with (w := default_ropes (c_row c)); [assumption| |eassumption|exact N].
        apply defaults_ok. rewrite map_map in N. exact N.
      + intros h1 u S1 U. apply holds_set_dict, holds_ret; [assumption|exact I|]. apply ms_put; assumption.
    - (* SUtils *) intros h st s S MS. cbn [astep step]. apply holds_state, holds_put, holds_ret; [assumption|exact I|].
      destruct MS as [V D A T L]. split; cbn; try assumption. reflexivity.
    - (* SApi *) intros e IH h st s S MS. cbn [astep step].
      eapply holds_bind; [apply IH; assumption| |grow]. intros h1 a st1 b s1 S1 R1 MS1.
      destruct a, b; try destruct R1; try (apply holds_stuck; assumption).
      apply holds_state, holds_put, holds_ret; [assumption|exact I|].
      destruct MS1 as [V D A T L]. split; cbn; assumption.
    - (* SIf *) intros x IHx a IHa b IHb h st s S MS. cbn [astep step].
      eapply holds_bind; [apply IHx; assumption| |grow]. intros h1 v st1 v' s1 S1 R1 MS1.
      eapply holds_pure; [apply (atruth_ok kw recv fr v v'); assumption|]. intros h2 t S2 ->.
      destruct (truth v'); [apply IHa|apply IHb]; assumption.
    - (* SReturn *) intros e IH h st s S MS. cbn [astep step].
      eapply holds_bind; [apply IH; assumption| |grow]. intros h1 a st1 b s1 S1 R1 MS1.
      apply holds_ret; assumption.
    - (* Done *) intros h st s S MS. apply holds_ret; [exact S|exact I|exact MS].
    - (* Seq *) intros t IHt b IHb h st s S MS. cbn [aexec exec].
      eapply holds_bind; [apply IHt; assumption| |grow]. intros h1 a st1 w s1 S1 R1 MS1.
      destruct a, w; try destruct R1; [apply holds_ret; assumption|apply IHb; assumption].
  Qed.

  (** The texts of a call, by name. *)
  Lemma start_ok (t : table) :
    NoDup (dkeys t) ->
    (forall k, In k (dkeys t) -> exists n, k = Some n /\ In n (args_list (c_row c) ++ overload_args_list (c_row c))%list) ->
    (forall k, dget key_eqb (Some k) t = dget String.eqb k kw) ->
    md (astart c) (start t).
  Proof.
    intros N K G.
    assert (J : forall k, In k (nodup_str (args_list (c_row c) ++ overload_args_list (c_row c))%list) <->
                          In k (args_list (c_row c) ++ overload_args_list (c_row c))%list).
    { intros k. generalize (args_list (c_row c) ++ overload_args_list (c_row c))%list. intros l.
      induction l as [|x l IH]; [reflexivity|]. cbn. destruct (mem_str x l) eqn:B.
      - apply mem_str_In in B. rewrite IH. split; [tauto|]. intros [->|H]; assumption.
      - cbn. rewrite IH. reflexivity. }
    assert (GS : forall k, dget String.eqb k (start t) =
                 match dget key_eqb (Some k) t with Some v => Some [MkPiece [Argument k] v] | None => None end).
    { intros k. clear N G. induction t as [|[[x|] v] t IH]; cbn; [reflexivity| |].
      - destruct (String.eqb_spec k x) as [->|X]; [reflexivity|].
        apply IH. intros y I. apply K. cbn. tauto.
      - destruct (K None) as (n & Q & _); [cbn; tauto|discriminate]. }
    split; [|split].
    - clear G GS. induction t as [|[[x|] v] t IH]; [constructor| |].
      + inversion_clear N as [|? ? N1 N2]. change (NoDup (x :: dkeys (start t))). constructor.
        * intros I. apply N1. unfold dkeys in *. apply in_map_iff in I. destruct I as ([y r] & Q & I). cbn in Q. subst y.
          unfold start in I. apply in_map_iff in I. destruct I as ([[z|] u] & Q & I); cbn in Q.
          -- injection Q as -> _. apply in_map_iff. exists (Some x, u). tauto.
          -- destruct (K None) as (n & Q' & _); [|discriminate].
             right. apply in_map_iff. exists (None, u). tauto.
        * apply IH; [exact N2|]. intros y I. apply K. right. exact I.
      + destruct (K None) as (n & Q & _); [cbn; tauto|discriminate].
    - intros k I. unfold astart. rewrite map_map. cbn. rewrite map_id. apply J.
      destruct (dget key_eqb (Some k) t) as [v|] eqn:Q.
      + assert (S : In (Some k) (dkeys t)).
        { apply (dget_some_in _ key_eqb_spec) in Q. apply in_map_iff. exists (Some k, v). tauto. }
        destruct (K _ S) as (n & Q' & I'). congruence.
      + specialize (GS k). rewrite Q in GS. apply none_iff in GS. tauto.
    - intros en I. apply in_map_iff in I. destruct I as (k & <- & I). unfold entry_ok. cbn [fst snd].
      rewrite GS, G. unfold on, dmem. destruct (dget String.eqb k kw) as [v|] eqn:Q; [|reflexivity].
      split; [reflexivity|]. apply mts_one. exists v. tauto.
  Qed.

  Lemma initial_api_ok :
    match ainitial_api c, initial_api context with
    | Some a, Some r => mts a r
    | None, None => True
    | _, _ => False
    end.
  Proof.
    unfold ainitial_api, initial_api. cbn [receiver row_of context]. rewrite method_recv.
    destruct (paddle_api (c_row c)) as [a|]; [|destruct recv; exact I].
    generalize (segments 0 "" a). intros l.
    assert (H : forall v, recv = Some v ->
      mts (flat_map (fun x => match x with Some s => [ALit s] | None => [AEdit Through [ARecv]] end) l)
          (flat_map (fun x => match x with Some s => lit s | None => receiver_piece (through_re v) end) l)).
    { intros v Q. induction l as [|[s|] l IH]; [reflexivity| |]; cbn [flat_map].
      - apply mts_app; [apply mts_lit|exact IH].
      - apply mts_app; [|exact IH]. apply mts_one, mp_edit. exists (receiver_piece v).
        split; [apply mts_one; exists v; tauto|]. cbn. rewrite app_nil_r_s. reflexivity. }
    destruct (String.eqb a ""); [destruct recv; exact I|].
    destruct recv as [v|]; cbn [andb negb]; [apply (H v eq_refl)|exact I].
  Qed.

  Notation result_ok := (result_ok kw recv fr).
  Theorem generate_sound must b (t : table) i :
    NoDup (dkeys t) ->
    (forall k, In k (dkeys t) -> exists n, k = Some n /\ In n (args_list (c_row c) ++ overload_args_list (c_row c))%list) ->
    (forall k, dget key_eqb (Some k) t = dget String.eqb k kw) ->
    (forall k, In k must -> dmem String.eqb k kw = true) ->
    grown lo i ->
    match exec context b (MkState [] [("kwargs", start t)] (initial_api context) i false) with
    | Ret (_, s) => within (counters s)
    | Fail _ => forall i, within i
    end ->
    exists h r, In (h, r) (paths c must b) /\ sat h /\ result_ok r (generate context b t i).
  Proof.
    intros N K G U LO WI.
    set (s0 := MkState [] [("kwargs", start t)] (initial_api context) i false).
    set (st0 := MkA [] [("kwargs", astart c)] (ainitial_api c) false).
    assert (M0 : ms st0 s0).
    { split; cbn.
      - intros x. exact I.
      - intros x. destruct (String.eqb x "kwargs"); [apply start_ok; assumption|exact I].
      - apply initial_api_ok.
      - reflexivity.
      - exact LO. }
    set (h0 := MkAssume (map (fun k => (k, true)) must) []).
    assert (S0 : sat h0).
    { split; cbn; [|tauto]. intros k b' I. apply in_map_iff in I. destruct I as (k' & Q & I).
      injection Q as -> <-. apply U, I. }
    destruct (proj2 (proj2 (proj2 run_sound)) b h0 st0 s0 S0 M0 WI) as (h & r & I & S & O).
    set (fin := fun w : option avalue => match w with
      | Some (AText r) =>
          do* x := atest (Is "misidentify") r in
          if (x : bool) then aret AMisidentify else
          do* y := atest (Is "unchange") r in
          if (y : bool) then aret AUnchange else
          do* z := atest (Is "") r in
          if (z : bool) then aret ARefused else
          do* s := aget_state in aret (AConverted r (a_utils s))
      | Some (ABool true) => afail "TypeError"
      | _ => aret ARefused
      end : M agenerated).
    assert (P : forall h' r', In (h', r') (match r with
              | ADone a s' => fin a h s'
              | AFail e => [(h, AFail e)]
              | AStuck e => [(h, AStuck e)] end) -> In (h', r') (paths c must b)).
    { intros h' r' I'. unfold paths, agenerate. unfold abind at 1. apply in_flat_map.
      exists (h0, ADone tt st0). split; [left; reflexivity|]. cbn [fst snd]. unfold abind at 1.
      apply in_flat_map. exists (h, r). split; [exact I|]. exact I'. }
    unfold generate. fold s0.
    destruct r as [w st|e|e].
    - destruct (exec context b s0) as [[w' s]|e]; [|destruct O]. destruct O as [W MS]. cbn [andthen].
      destruct w as [[a| |bb]|], w' as [[q| |bb']|]; try destruct W;
        try (exists h, (ADone ARefused st); split; [apply P; left; reflexivity|split; [exact S|exact Logic.I]]).
      + assert (F : pure (fin (Some (AText a)) h st) st (fun g => result_ok (ADone g st)
            (if String.eqb (render q) "misidentify" then Ret Misidentify
             else if String.eqb (render q) "unchange" then Ret Unchange
             else if String.eqb (render q) "" then Ret Refused
             else Ret (Converted q (utils s))))).
        { unfold fin. eapply pure_pure; [apply (atest_ok kw recv fr (Is "misidentify") a q); assumption|].
          intros h1 x S1 ->. cbn [run_test].
          destruct (String.eqb (render q) "misidentify"); [apply pure_ret; [exact S1|exact Logic.I]|].
          eapply pure_pure; [apply (atest_ok kw recv fr (Is "unchange") a q); assumption|].
          intros h2 x S2 ->. cbn [run_test].
          destruct (String.eqb (render q) "unchange"); [apply pure_ret; [exact S2|exact Logic.I]|].
          eapply pure_pure; [apply (atest_ok kw recv fr (Is "") a q); assumption|].
          intros h3 x S3 ->. cbn [run_test].
          destruct (String.eqb (render q) ""); [apply pure_ret; [exact S3|exact Logic.I]|].
          exists h3, (AConverted a (a_utils st)). split; [left; reflexivity|]. split; [exact S3|].
          split; [assumption|apply MS]. }
        destruct F as (h1 & g & I1 & S1 & R1). exists h1, (ADone g st). split; [apply P, I1|]. split; assumption.
      + destruct bb.
        * exists h, (AFail "TypeError"). split; [apply P; left; reflexivity|]. split; [exact S|reflexivity].
        * exists h, (ADone ARefused st). split; [apply P; left; reflexivity|split; [exact S|exact Logic.I]].
    - destruct (exec context b s0) as [[w' s]|e']; [destruct O|]. cbn in O. subst e'.
      exists h, (AFail e). split; [apply P; left; reflexivity|]. split; [exact S|reflexivity].
    - exists h, (AStuck e). split; [apply P; left; reflexivity|]. split; [exact S|exact Logic.I].
  Qed.
End Sound.

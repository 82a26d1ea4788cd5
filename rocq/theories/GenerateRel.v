(** When a text, a dictionary or a state is an instance of a symbolic one, and the
    steps of the symbolic execution on texts and dictionaries. *)
From Coq Require Import Lia.
From Verif Require Import PyStr PyDict PyDictFacts PyStrFacts UtilsFile Args Generate GenerateSym.

Notation get_same := (dget_set_same _ String.eqb_spec).
Notation get_other := (dget_set_other _ String.eqb_spec).
Notation none_iff := (dget_none_iff _ String.eqb_spec).

Section Rel.
  (** The argument texts of the call, and the receiver. *)
  Variable kw : dict string string.
  Variable recv : option string.
  (** [fr k n]: [n] may be a name [get_unique_name] made for [k]. *)
  Variable fr : string -> string -> Prop.

  Definition on (g : option string) : bool :=
    match g with None => true | Some k => dmem String.eqb k kw end.

  Fixpoint mp (p : apiece) (r : rope) {struct p} : Prop :=
    match p with
    | ALit s => r = [MkPiece [] s]
    | AArg k => exists v, dget String.eqb k kw = Some v /\ r = [MkPiece [Argument k] v]
    | ARecv => exists v, recv = Some v /\ r = [MkPiece [Receiver] v]
    | AFresh k => exists n, fr k n /\ r = [MkPiece [] n]
    | AEdit f l =>
        exists q,
          (fix mts l r := match l with
                          | [] => r = []
                          | x :: l' => exists r1 r2, r = (r1 ++ r2)%list /\ mp x r1 /\ mts l' r2
                          end) l q
          /\ r = [MkPiece (origins q) (edit_text f (render q))]
    | AJoin es =>
        exists d : kwdict,
          NoDup (dkeys d) /\ (forall k, In k (dkeys d) -> In k (map fst es)) /\
          (fix go es := match es with
                        | [] => True
                        | (k, (g, l)) :: es' =>
                            match dget String.eqb k d with
                            | Some v => on g = true /\
                                (fix mts l r := match l with
                                                | [] => r = []
                                                | x :: l' => exists r1 r2, r = (r1 ++ r2)%list /\ mp x r1 /\ mts l' r2
                                                end) l v
                            | None => on g = false
                            end /\ go es'
                        end) es
          /\ r = join_kwargs d
    end.
  Fixpoint mts (l : atext) (r : rope) : Prop :=
    match l with
    | [] => r = []
    | x :: l' => exists r1 r2, r = (r1 ++ r2)%list /\ mp x r1 /\ mts l' r2
    end.
  Definition entry_ok (d : kwdict) (en : string * (option string * atext)) : Prop :=
    match dget String.eqb (fst en) d with
    | Some v => on (fst (snd en)) = true /\ mts (snd (snd en)) v
    | None => on (fst (snd en)) = false
    end.
  Definition md (es : adict) (d : kwdict) : Prop :=
    NoDup (dkeys d) /\ (forall k, In k (dkeys d) -> In k (map fst es)) /\
    (forall en, In en es -> entry_ok d en).

  Lemma mp_edit f l r : mp (AEdit f l) r <-> exists q, mts l q /\ r = [MkPiece (origins q) (edit_text f (render q))].
  Proof. reflexivity. Qed.
  Lemma mp_join es r : mp (AJoin es) r <-> exists d, md es d /\ r = join_kwargs d.
  Proof.
    pose (go := fun d : kwdict => fix go (es : adict) : Prop :=
           match es with
           | [] => True
           | (k, (g, l)) :: es' =>
               match dget String.eqb k d with
               | Some v => on g = true /\ mts l v
               | None => on g = false
               end /\ go es'
           end).
    assert (G : forall d es, go d es <-> forall en, In en es -> entry_ok d en).
    { intros d. clear es. induction es as [|[k [g l]] es IH]; [split; [intros _ ? []|intros; exact I]|].
      change (go d ((k, (g, l)) :: es)) with (entry_ok d (k, (g, l)) /\ go d es).
      rewrite IH. split.
      - intros [A B] en [<-|I]; [exact A|apply B, I].
      - intros H. split; [apply (H (k, (g, l))); left; reflexivity|intros en I; apply H; right; exact I]. }
    transitivity (exists d, NoDup (dkeys d) /\ (forall k, In k (dkeys d) -> In k (map fst es)) /\ go d es /\ r = join_kwargs d).
    - reflexivity.
    - split; intros [d H]; exists d.
      + destruct H as (A & B & C & D). rewrite G in C. unfold md. tauto.
      + destruct H as ((A & B & C) & D). rewrite G. tauto.
  Qed.
  Global Opaque mp.

  Lemma mts_app l m r s : mts l r -> mts m s -> mts (l ++ m)%list (r ++ s)%list.
  Proof.
    revert r. induction l as [|x l IH]; cbn; intros r H1 H2; [subst; exact H2|].
    destruct H1 as (r1 & r2 & -> & A & B). exists r1, (r2 ++ s)%list.
    rewrite <- app_assoc. split; [reflexivity|]. split; [exact A|apply IH; assumption].
  Qed.
  Lemma mts_one p r : mp p r -> mts [p] r.
  Proof. intros H. exists r, []. rewrite app_nil_r. cbn. tauto. Qed.
  Lemma mts_lit s : mts [ALit s] (lit s).
  Proof. apply mts_one. reflexivity. Qed.

  (** Literals. *)
  Lemma render_app r s : render (r ++ s)%list = (render r ++ render s)%string.
  Proof. induction r as [|p r IH]; cbn; [reflexivity|]. rewrite IH, app_assoc_s. reflexivity. Qed.
  Lemma origins_app r s : origins (r ++ s)%list = (origins r ++ origins s)%list.
  Proof. apply flat_map_app. Qed.
  Lemma closed_ok l : forall s r, closed l = Some s -> mts l r -> render r = s /\ origins r = [].
  Proof.
    induction l as [|p l IH]; cbn; intros s r H M.
    - injection H as <-. subst. split; reflexivity.
    - destruct p; try discriminate. destruct (closed l) as [t|] eqn:C; [|discriminate].
      injection H as <-. destruct M as (r1 & r2 & -> & A & B).
      change (r1 = [MkPiece [] s0]) in A. subst r1. destruct (IH t r2 eq_refl B) as [R O].
      cbn [app render content]. change (origins (MkPiece [] s0 :: r2)) with (origins r2).
      rewrite R, O. split; reflexivity.
  Qed.
  Lemma lit_length_ok l : forall r, mts l r -> (lit_length l <= String.length (render r))%nat.
  Proof.
    induction l as [|p l IH]; cbn; intros r H; [lia|].
    destruct H as (r1 & r2 & -> & A & B). rewrite render_app, length_app_s. specialize (IH r2 B).
    destruct p; try lia. change (r1 = [MkPiece [] s]) in A. subst r1. cbn. rewrite length_app_s. cbn. lia.
  Qed.
  Lemma decide_ok t l r b : decide_test t l = Some b -> mts l r -> run_test t (render r) = b.
  Proof.
    intros H M. unfold decide_test in H. destruct (closed l) as [s|] eqn:C.
    - destruct (closed_ok _ _ _ C M) as [-> _]. congruence.
    - destruct t as [c|c| |]; try discriminate.
      + cbn. destruct (Nat.ltb_spec (String.length c) (lit_length l)).
        * injection H as <-. destruct (String.eqb_spec (render r) c); [|reflexivity].
          pose proof (lit_length_ok _ _ M). subst c. lia.
        * destruct l as [|p l]; [discriminate|]. destruct p; try discriminate.
          destruct (prefix s c) eqn:P; [discriminate|]. injection H as <-.
          destruct M as (r1 & r2 & -> & A & B). change (r1 = [MkPiece [] s]) in A. subst r1.
          destruct (String.eqb_spec (render ([MkPiece [] s] ++ r2)%list) c) as [<-|]; [|reflexivity].
          cbn in P. rewrite prefix_app in P. discriminate.
      + destruct (existsb _ l) eqn:E; [|discriminate]. injection H as <-. cbn.
        clear C. revert r M. induction l as [|p l IH]; [discriminate|]. intros r (r1 & r2 & -> & A & B).
        rewrite render_app. cbn [existsb] in E. apply Bool.orb_true_iff in E. destruct E as [E|E].
        * destruct p; try discriminate. change (r1 = [MkPiece [] s]) in A. subst r1.
          apply contains_spec in E. destruct E as (x & y & ->). apply contains_spec. cbn.
          exists x, (y ++ "" ++ render r2). rewrite !app_assoc_s. reflexivity.
        * specialize (IH E r2 B). apply contains_spec in IH. destruct IH as (x & y & ->).
          apply contains_spec. exists (render r1 ++ x), y. rewrite !app_assoc_s. reflexivity.
  Qed.

  (** Determined texts. *)
  Lemma edit_eqb_eq f g : edit_eqb f g = true -> f = g.
  Proof.
    destruct f, g; cbn; try discriminate; try reflexivity; intros H.
    all: try (apply String.eqb_eq in H; congruence).
    apply Bool.andb_true_iff in H. destruct H as [A B]. apply String.eqb_eq in A, B. congruence.
  Qed.
  Lemma test_eqb_eq f g : test_eqb f g = true -> f = g.
  Proof.
    destruct f, g; cbn; try discriminate; try reflexivity; intros H; apply String.eqb_eq in H; congruence.
  Qed.
  Lemma piece_eqb_eq : forall p q, piece_eqb p q = true -> p = q.
  Proof.
    fix IH 1. intros [s|k| |k|f l|es] q; destruct q; cbn; try discriminate; intros H.
    - apply String.eqb_eq in H. congruence.
    - apply String.eqb_eq in H. congruence.
    - reflexivity.
    - apply Bool.andb_true_iff in H. destruct H as [A B]. apply edit_eqb_eq in A. subst f0.
      f_equal. revert l0 B. induction l as [|x l IHl]; intros [|y m] B; try discriminate; [reflexivity|].
      apply Bool.andb_true_iff in B. destruct B as [B1 B2].
      rewrite (IH x y B1), (IHl m B2). reflexivity.
  Qed.
  Lemma text_eqb_eq : forall l m, text_eqb l m = true -> l = m.
  Proof.
    induction l as [|x l IHl]; intros [|y m] B; try discriminate; [reflexivity|].
    cbn in B. apply Bool.andb_true_iff in B. destruct B as [B1 B2].
    rewrite (piece_eqb_eq x y B1), (IHl m B2). reflexivity.
  Qed.
  Lemma piece_det : forall p, piece_eqb p p = true -> forall r s, mp p r -> mp p s -> r = s.
  Proof.
    fix IH 1. intros [t|k| |k|f l|es]; cbn [piece_eqb]; try discriminate; intros H r s A B.
    - change (r = [MkPiece [] t]) in A. change (s = [MkPiece [] t]) in B. congruence.
    - destruct A as (v & A1 & ->). destruct B as (w & B1 & ->). congruence.
    - destruct A as (v & A1 & ->). destruct B as (w & B1 & ->). congruence.
    - rewrite mp_edit in A, B. destruct A as (q & A & ->). destruct B as (q' & B & ->).
      apply Bool.andb_true_iff in H. destruct H as [_ H].
      assert (q = q') as ->; [|reflexivity].
      revert q q' A B H. induction l as [|x l IHl]; intros q q' A B H.
      + cbn in A, B. congruence.
      + apply Bool.andb_true_iff in H. destruct H as [H1 H2].
        destruct A as (r1 & r2 & -> & A1 & A2). destruct B as (s1 & s2 & -> & B1 & B2).
        rewrite (IH x H1 r1 s1 A1 B1), (IHl r2 s2 A2 B2 H2). reflexivity.
  Qed.
  Lemma text_det : forall l, text_eqb l l = true -> forall r s, mts l r -> mts l s -> r = s.
  Proof.
    induction l as [|x l IHl]; intros H q q' A B.
    - cbn in A, B. congruence.
    - cbn in H. apply Bool.andb_true_iff in H. destruct H as [H1 H2].
      destruct A as (r1 & r2 & -> & A1 & A2). destruct B as (s1 & s2 & -> & B1 & B2).
      rewrite (piece_det x H1 r1 s1 A1 B1), (IHl H2 r2 s2 A2 B2). reflexivity.
  Qed.

  (** Assumptions of a path that hold of the call. *)
  Record sat (h : assume) : Prop := MkSat {
    sat_known : forall k b, In (k, b) (known h) -> dmem String.eqb k kw = b;
    sat_facts : forall a t b, In (a, t, b) (facts h) -> forall r, mts a r -> run_test t (render r) = b }.

  (** A symbolic action without effect on the state that ends in a value with [P]. *)
  Definition pure {A} (l : list (assume * ares A)) (st : astate) (P : A -> Prop) : Prop :=
    exists h a, In (h, ADone a st) l /\ sat h /\ P a.

  Lemma pure_ret {A} (a : A) h st (P : A -> Prop) : sat h -> P a -> pure (aret a h st) st P.
  Proof. intros S H. exists h, a. cbn. tauto. Qed.
  Lemma pure_pure {A B} (m : M A) (k : A -> M B) h st P Q :
    pure (m h st) st P -> (forall h a, sat h -> P a -> pure (k a h st) st Q) ->
    pure (abind m k h st) st Q.
  Proof.
    intros (h1 & a & I & S & H) K. destruct (K h1 a S H) as (h2 & b & I2 & S2 & H2).
    exists h2, b. split; [|tauto]. unfold abind. apply in_flat_map. exists (h1, ADone a st). tauto.
  Qed.

  Lemma agiven_ok k h st : sat h -> pure (agiven k h st) st (fun b => b = dmem String.eqb k kw).
  Proof.
    intros S. unfold agiven. destruct (dget String.eqb k (known h)) as [b|] eqn:G.
    - apply (dget_some_in _ String.eqb_spec) in G. apply (sat_known _ S) in G.
      exists h, b. cbn. subst b. tauto.
    - exists (MkAssume ((k, dmem String.eqb k kw) :: known h) (facts h)), (dmem String.eqb k kw).
      split; [destruct (dmem String.eqb k kw); cbn; tauto|]. split; [|reflexivity].
      split; cbn.
      + intros k' b [E|I]; [congruence|apply (sat_known _ S), I].
      + apply (sat_facts _ S).
  Qed.
  Lemma aguard_ok g h st : sat h -> pure (aguard g h st) st (fun b => b = on g).
  Proof. intros S. destruct g; [apply agiven_ok, S|apply pure_ret; [exact S|reflexivity]]. Qed.

  Lemma find_fact_in a t b l : find_fact a t l = Some b -> In (a, t, b) l.
  Proof.
    induction l as [|[[x u] v] l IH]; cbn; [discriminate|].
    destruct (text_eqb a x && test_eqb t u) eqn:E.
    - apply Bool.andb_true_iff in E. destruct E as [E1 E2].
      apply text_eqb_eq in E1. apply test_eqb_eq in E2. intros H. left. congruence.
    - intros H. right. apply IH, H.
  Qed.
  Lemma atest_ok t a r h st : sat h -> mts a r -> pure (atest t a h st) st (fun b => b = run_test t (render r)).
  Proof.
    intros S M. unfold atest. destruct (decide_test t a) as [b|] eqn:D.
    - exists h, b. rewrite (decide_ok _ _ _ _ D M). cbn. tauto.
    - destruct (find_fact a t (facts h)) as [b|] eqn:F.
      + apply find_fact_in in F. pose proof (sat_facts _ S _ _ _ F r M). exists h, b. cbn. intuition congruence.
      + destruct (text_eqb a a) eqn:E.
        * exists (MkAssume (known h) ((a, t, run_test t (render r)) :: facts h)), (run_test t (render r)).
          split; [destruct (run_test t (render r)); cbn; tauto|]. split; [|reflexivity].
          split; cbn; [apply (sat_known _ S)|]. intros a' t' b [Q|I]; [|apply (sat_facts _ S), I].
          injection Q as <- <- <-. intros r' M'. rewrite (text_det a E r' r M' M). reflexivity.
        * exists h, (run_test t (render r)). destruct (run_test t (render r)); cbn; tauto.
  Qed.

  (** Values. *)
  Definition mv (a : avalue) (v : value) : Prop :=
    match a, v with
    | AText l, Text r => mts l r
    | ANone, NoneV => True
    | ABool b, Bool c => b = c
    | _, _ => False
    end.
  Lemma atruth_ok a v h st : sat h -> mv a v -> pure (atruth a h st) st (fun b => b = truth v).
  Proof.
    intros S M. destruct a, v; try destruct M; cbn [atruth truth].
    - eapply pure_pure; [apply atest_ok; [exact S|exact M]|]. intros h1 b S1 ->.
      apply pure_ret; [exact S1|reflexivity].
    - apply pure_ret; [exact S|reflexivity].
    - apply pure_ret; [exact S|reflexivity].
  Qed.
  Lemma show_ok a v : mv a v -> mts (ashow a) (show v).
  Proof.
    destruct a as [l| |b], v as [r| |c]; cbn [mv]; try tauto; cbn [ashow show].
    - intros _. apply mts_lit.
    - intros ->. destruct c; apply mts_lit.
  Qed.
  Lemma aedit_ok f l r : mts l r -> mts (aedit f l) [MkPiece (origins r) (edit_text f (render r))].
  Proof.
    intros M. unfold aedit. destruct (closed l) as [s|] eqn:C.
    - destruct (closed_ok _ _ _ C M) as [-> ->]. apply mts_lit.
    - apply mts_one, mp_edit. exists r. tauto.
  Qed.

  (** Dictionaries. *)
  Lemma md_nil : md [] [].
  Proof. split; [constructor|]. split; cbn; tauto. Qed.
  Lemma md_get es d k g a : md es d -> dget String.eqb k es = Some (g, a) -> entry_ok d (k, (g, a)).
  Proof. intros (_ & _ & H) G. apply H, (dget_some_in _ String.eqb_spec), G. Qed.
  Lemma md_get_none es d k : md es d -> dget String.eqb k es = None -> dget String.eqb k d = None.
  Proof.
    intros (_ & H & _) G. apply none_iff. intros I. apply H in I. apply none_iff in G. tauto.
  Qed.
  Lemma alook_ok k es d h st : sat h -> md es d ->
    pure (alook k es h st) st (fun o => match o, dget String.eqb k d with
                                        | Some a, Some v => mts a v
                                        | None, None => True
                                        | _, _ => False
                                        end).
  Proof.
    intros S M. unfold alook. destruct (dget String.eqb k es) as [[g a]|] eqn:G.
    - eapply pure_pure; [apply aguard_ok, S|]. intros h1 b S1 ->. apply pure_ret; [exact S1|].
      pose proof (md_get _ _ _ _ _ M G) as E. unfold entry_ok in E. cbn in E.
      destruct (dget String.eqb k d); [destruct E as [-> E]; exact E|rewrite E; exact I].
    - apply pure_ret; [exact S|]. rewrite (md_get_none _ _ _ M G). exact I.
  Qed.
  Lemma adel_in k es en : In en (adel k es) <-> In en es /\ fst en <> k.
  Proof.
    unfold adel. rewrite filter_In, Bool.negb_true_iff, String.eqb_neq. reflexivity.
  Qed.
  Lemma adel_keys k es x : In x (map fst es) -> x <> k -> In x (map fst (adel k es)).
  Proof.
    intros I N. apply in_map_iff in I. destruct I as (en & <- & I). apply in_map, adel_in. tauto.
  Qed.
  Lemma adel_ok k es d : md es d -> md (adel k es) (ddel String.eqb k d).
  Proof.
    intros (N & K & E). split; [apply (ddel_nodup _ String.eqb_spec), N|]. split.
    - intros x I. apply adel_keys; [apply K, (ddel_keys_sub _ String.eqb_spec _ _ _ I)|].
      intros ->. apply (none_iff k (ddel String.eqb k d)); [apply (ddel_get_same _ String.eqb_spec), N|exact I].
    - intros en I. apply adel_in in I. destruct I as [I X]. specialize (E en I). unfold entry_ok in *.
      rewrite (ddel_get_other _ String.eqb_spec) by exact X. exact E.
  Qed.
  Lemma aset_ok k es d a v : md es d -> mts a v -> md (aset k None a es) (dset String.eqb k v d).
  Proof.
    intros (N & K & E) M. split; [apply (dset_nodup _ String.eqb_spec), N|]. split.
    - intros x I. apply (dset_keys_iff _ String.eqb_spec) in I. cbn.
      destruct (String.eqb_spec k x) as [->|X]; [left; reflexivity|right].
      apply adel_keys; [apply K; intuition congruence|congruence].
    - intros en [<-|I]; unfold entry_ok in *; cbn [fst snd].
      + rewrite get_same. split; [reflexivity|exact M].
      + apply adel_in in I. destruct I as [I X]. rewrite get_other by exact X. apply E, I.
  Qed.
  (** An entry whose key is not there yet. *)
  Lemma aset_off k g es d a : md es d -> on g = false -> dget String.eqb k d = None -> md (aset k g a es) d.
  Proof.
    intros (N & K & E) O G. split; [exact N|]. split.
    - intros x I. cbn. destruct (String.eqb_spec k x) as [->|X]; [left; reflexivity|right].
      apply adel_keys; [apply K, I|congruence].
    - intros en [<-|I]; unfold entry_ok in *; cbn [fst snd].
      + rewrite G. exact O.
      + apply adel_in in I. apply E. tauto.
  Qed.
  Lemma aset_on k g es d a v : md es d -> on g = true -> mts a v -> md (aset k g a es) (dset String.eqb k v d).
  Proof.
    intros D O M. pose proof (aset_ok k es d a v D M) as (N & K & E). split; [exact N|]. split; [exact K|].
    intros en [<-|I]; [|apply E; right; exact I].
    unfold entry_ok. cbn [fst snd]. rewrite get_same. tauto.
  Qed.
  Lemma amerge_ok k g a es d o h st : sat h -> md es d ->
    match o with Some v => on g = true /\ mts a v | None => on g = false end ->
    pure (amerge k g a es h st) st
      (fun es' => md es' (match o with Some v => dset String.eqb k v d | None => d end)).
  Proof.
    intros S D O. unfold amerge. destruct (mem_str k (map fst es)) eqn:I.
    - eapply pure_pure; [apply aguard_ok, S|]. intros h1 b S1 ->. apply pure_ret; [exact S1|].
      destruct o as [v|]; [destruct O as [-> M]; apply aset_ok; assumption|rewrite O; exact D].
    - apply pure_ret; [exact S|]. apply mem_str_false in I.
      assert (dget String.eqb k d = None).
      { apply none_iff. intros J. apply I. destruct D as (_ & K & _). apply K, J. }
      destruct o as [v|]; [destruct O as [G M]; apply aset_on; assumption|apply aset_off; assumption].
  Qed.

  Lemma md_ext es d d' : md es d -> NoDup (dkeys d') ->
    (forall k, dget String.eqb k d' = dget String.eqb k d) -> md es d'.
  Proof.
    intros (N & K & E) N' X. split; [exact N'|]. split.
    - intros k I. apply K. destruct (dkeys_dec _ String.eqb_spec k d) as [J|J]; [exact J|].
      apply none_iff in J. rewrite <- X in J. apply none_iff in J. tauto.
    - intros en I. unfold entry_ok. rewrite X. apply E, I.
  Qed.

  (** [d.update(w)] *)
  Lemma update_get (w d : kwdict) k : NoDup (dkeys w) ->
    dget String.eqb k (dupdate String.eqb d w) =
    match dget String.eqb k w with Some v => Some v | None => dget String.eqb k d end.
  Proof.
    unfold dupdate. revert d. induction w as [|[x v] w IH]; intros d N; [reflexivity|].
    inversion_clear N as [|? ? N1 N2]. cbn [fold_left fst snd dget]. rewrite IH by exact N2.
    destruct (String.eqb_spec k x) as [->|X].
    - apply none_iff in N1. rewrite N1, get_same. reflexivity.
    - rewrite get_other by exact X. reflexivity.
  Qed.
  Lemma update_nodup (w d : kwdict) : NoDup (dkeys d) -> NoDup (dkeys (dupdate String.eqb d w)).
  Proof.
    unfold dupdate. revert d. induction w as [|[x v] w IH]; intros d N; [exact N|].
    cbn. apply IH, (dset_nodup _ String.eqb_spec), N.
  Qed.
  (** The same, in the order of the symbolic entries. *)
  Fixpoint update_along (es : adict) (w d : kwdict) : kwdict :=
    match es with
    | [] => d
    | (k, _) :: r =>
        update_along r w (match dget String.eqb k w with Some v => dset String.eqb k v d | None => d end)
    end.
  Lemma update_along_get es w : forall d k, nodup (map fst es) = true ->
    dget String.eqb k (update_along es w d) =
    if mem_str k (map fst es)
    then match dget String.eqb k w with Some v => Some v | None => dget String.eqb k d end
    else dget String.eqb k d.
  Proof.
    induction es as [|[x ga] es IH]; intros d k N; [reflexivity|].
    cbn [map fst nodup] in N. apply Bool.andb_true_iff in N. destruct N as [N1 N2].
    apply Bool.negb_true_iff in N1. cbn [update_along map fst mem_str existsb]. rewrite IH by exact N2.
    change (existsb (String.eqb k) (map fst es)) with (mem_str k (map fst es)).
    destruct (String.eqb_spec k x) as [->|X]; cbn [orb].
    - rewrite N1. destruct (dget String.eqb x w); [apply get_same|reflexivity].
    - destruct (dget String.eqb x w); [rewrite get_other by exact X|]; reflexivity.
  Qed.
  Lemma update_along_nodup es w : forall d, NoDup (dkeys d) -> NoDup (dkeys (update_along es w d)).
  Proof.
    induction es as [|[x ga] es IH]; intros d N; [exact N|]. cbn. apply IH.
    destruct (dget String.eqb x w); [apply (dset_nodup _ String.eqb_spec), N|exact N].
  Qed.
  Lemma aupdate_along es w : (forall en, In en es -> entry_ok w en) ->
    forall ds d h st, sat h -> md ds d ->
    pure (aupdate es ds h st) st (fun r => md r (update_along es w d)).
  Proof.
    induction es as [|[k [g a]] es IH]; intros E ds d h st S D; [apply pure_ret; assumption|].
    cbn [aupdate update_along]. eapply pure_pure.
    - apply (amerge_ok k g a ds d (dget String.eqb k w)); [exact S|exact D|].
      apply (E (k, (g, a))). left. reflexivity.
    - intros h1 es' S1 D1. apply IH; [intros en I; apply E; right; exact I|exact S1|exact D1].
  Qed.
  Lemma aupdate_ok es w ds d h st : sat h -> md es w -> md ds d -> nodup (map fst es) = true ->
    pure (aupdate es ds h st) st (fun r => md r (dupdate String.eqb d w)).
  Proof.
    intros S W D N. destruct (aupdate_along es w (proj2 (proj2 W)) ds d h st S D) as (h1 & r & I & S1 & R).
    exists h1, r. split; [exact I|]. split; [exact S1|]. apply (md_ext _ _ _ R).
    - apply update_nodup, D.
    - intros k. rewrite update_along_get by exact N. rewrite update_get by apply W.
      destruct (mem_str k (map fst es)) eqn:B; [reflexivity|]. apply mem_str_false in B.
      rewrite (proj2 (none_iff k w)); [reflexivity|]. intros J. apply B. destruct W as (_ & K & _). apply K, J.
  Qed.

  (** [for k in w: if k not in d: d[k] = w[k]] *)
  Lemma missing_get (w d : kwdict) k : NoDup (dkeys w) ->
    dget String.eqb k (add_missing d w) =
    match dget String.eqb k d with Some v => Some v | None => dget String.eqb k w end.
  Proof.
    unfold add_missing. revert d. induction w as [|[x v] w IH]; intros d N.
    - cbn. destruct (dget String.eqb k d); reflexivity.
    - inversion_clear N as [|? ? N1 N2]. cbn [fold_left fst snd dget]. rewrite IH by exact N2.
      unfold dmem. destruct (dget String.eqb x d) as [u|] eqn:G.
      + destruct (String.eqb_spec k x) as [->|X]; [rewrite G|]; reflexivity.
      + destruct (String.eqb_spec k x) as [->|X].
        * rewrite get_same, G. reflexivity.
        * rewrite get_other by exact X. reflexivity.
  Qed.
  Lemma missing_nodup (w d : kwdict) : NoDup (dkeys d) -> NoDup (dkeys (add_missing d w)).
  Proof.
    unfold add_missing. revert d. induction w as [|[x v] w IH]; intros d N; [exact N|].
    cbn [fold_left fst snd]. apply IH. destruct (dmem String.eqb x d); [exact N|].
    apply (dset_nodup _ String.eqb_spec), N.
  Qed.
  Fixpoint missing_along (es : adict) (w d : kwdict) : kwdict :=
    match es with
    | [] => d
    | (k, _) :: r =>
        missing_along r w (match dget String.eqb k d, dget String.eqb k w with
                           | None, Some v => dset String.eqb k v d
                           | _, _ => d
                           end)
    end.
  Lemma missing_along_get es w : forall d k, nodup (map fst es) = true ->
    dget String.eqb k (missing_along es w d) =
    if mem_str k (map fst es)
    then match dget String.eqb k d with Some v => Some v | None => dget String.eqb k w end
    else dget String.eqb k d.
  Proof.
    induction es as [|[x ga] es IH]; intros d k N; [reflexivity|].
    cbn [map fst nodup] in N. apply Bool.andb_true_iff in N. destruct N as [N1 N2].
    apply Bool.negb_true_iff in N1. cbn [missing_along map fst mem_str existsb]. rewrite IH by exact N2.
    change (existsb (String.eqb k) (map fst es)) with (mem_str k (map fst es)).
    destruct (String.eqb_spec k x) as [->|X]; cbn [orb].
    - rewrite N1. destruct (dget String.eqb x d) eqn:G; [rewrite G; reflexivity|].
      destruct (dget String.eqb x w); [apply get_same|exact G].
    - destruct (dget String.eqb x d); [reflexivity|].
      destruct (dget String.eqb x w); [rewrite get_other by exact X|]; reflexivity.
  Qed.
  Lemma amissing_along es w : (forall en, In en es -> entry_ok w en) ->
    forall ds d h st, sat h -> md ds d ->
    pure (amissing es ds h st) st (fun r => md r (missing_along es w d)).
  Proof.
    induction es as [|[k [g a]] es IH]; intros E ds d h st S D; [apply pure_ret; assumption|].
    cbn [amissing missing_along]. eapply pure_pure; [apply (alook_ok k ds d); assumption|].
    intros h1 o S1 O. apply IH; [intros en I; apply E; right; exact I|exact S1|].
    pose proof (E (k, (g, a)) (or_introl eq_refl)) as X. unfold entry_ok in X. cbn [fst snd] in X.
    destruct o as [a'|], (dget String.eqb k d) as [v|] eqn:G; try tauto.
    destruct (dget String.eqb k w) as [u|].
    - destruct X as [X1 X2]. apply aset_on; assumption.
    - apply aset_off; assumption.
  Qed.
  Lemma amissing_ok es w ds d h st : sat h -> md es w -> md ds d -> nodup (map fst es) = true ->
    pure (amissing es ds h st) st (fun r => md r (add_missing d w)).
  Proof.
    intros S W D N. destruct (amissing_along es w (proj2 (proj2 W)) ds d h st S D) as (h1 & r & I & S1 & R).
    exists h1, r. split; [exact I|]. split; [exact S1|]. apply (md_ext _ _ _ R).
    - apply missing_nodup, D.
    - intros k. rewrite missing_along_get by exact N. rewrite missing_get by apply W.
      destruct (mem_str k (map fst es)) eqn:B; [reflexivity|]. apply mem_str_false in B.
      rewrite (proj2 (none_iff k w)); [destruct (dget String.eqb k d); reflexivity|].
      intros J. apply B. destruct W as (_ & K & _). apply K, J.
  Qed.

  Lemma nodup_NoDup l : nodup l = true -> NoDup l.
  Proof.
    induction l as [|x l IH]; intros H; [constructor|]. cbn in H. apply Bool.andb_true_iff in H.
    destruct H as [A B]. apply Bool.negb_true_iff, mem_str_false in A. constructor; [exact A|apply IH, B].
  Qed.
  Lemma defaults_ok (l : dict string string) : nodup (map fst l) = true ->
    md (map (fun kv => (fst kv, (None, [ALit (snd kv)]))) l) (map (fun kv => (fst kv, lit (snd kv))) l).
  Proof.
    intros N. apply nodup_NoDup in N.
    assert (K : dkeys (map (fun kv : string * string => (fst kv, lit (snd kv))) l) = map fst l).
    { unfold dkeys. rewrite map_map. reflexivity. }
    split; [rewrite K; exact N|]. split.
    - rewrite K, map_map. cbn. tauto.
    - intros en I. apply in_map_iff in I. destruct I as ([k v] & <- & I). unfold entry_ok. cbn [fst snd].
      rewrite (dget_in_nodup _ String.eqb_spec k (lit v)).
      + split; [reflexivity|apply mts_lit].
      + rewrite K. exact N.
      + apply in_map_iff. exists (k, v). tauto.
  Qed.

  (** Renaming. *)
  Lemma rename_ok r es w : md es w -> nodup (map (fun en => rename_key r (fst en)) es) = true ->
    md (map (fun en => (rename_key r (fst en), snd en)) es)
       (map (fun kv => (rename_key r (fst kv), snd kv)) w).
  Proof.
    intros (N & K & E) D. apply nodup_NoDup in D.
    assert (J : forall x y, In x (map fst es) -> In y (map fst es) -> rename_key r x = rename_key r y -> x = y).
    { clear -D. induction es as [|en es IH]; [intros x y []|]. cbn in D. inversion_clear D as [|? ? D1 D2].
      assert (X : forall y, In y (map fst es) -> rename_key r (fst en) <> rename_key r y).
      { intros y I Q. apply D1. rewrite Q. apply in_map_iff in I. destruct I as (z & <- & I).
        apply in_map_iff. exists z. tauto. }
      intros x y [<-|I1] [<-|I2] Q; [reflexivity|destruct (X _ I2 Q)|symmetry in Q; destruct (X _ I1 Q)|].
      apply (IH D2); assumption. }
    assert (NW : NoDup (dkeys (map (fun kv : string * rope => (rename_key r (fst kv), snd kv)) w))).
    { clear E. unfold dkeys. rewrite map_map. cbn. induction w as [|[k v] w IH]; [constructor|].
      cbn in N. inversion_clear N as [|? ? N1 N2]. cbn. constructor.
      - intros I. apply in_map_iff in I. destruct I as ([k' v'] & Q & I). cbn in Q.
        apply J in Q.
        + subst k'. apply N1, in_map_iff. exists (k, v'). tauto.
        + apply K. cbn. right. apply in_map_iff. exists (k', v'). tauto.
        + apply K. cbn. tauto.
      - apply IH; [exact N2|]. intros x I. apply K. cbn. tauto. }
    split; [exact NW|]. split.
    - intros x I. unfold dkeys in I. rewrite map_map in I. apply in_map_iff in I.
      destruct I as ([k v] & <- & I). cbn. rewrite map_map. cbn.
      assert (I' : In k (dkeys w)) by (apply in_map_iff; exists (k, v); tauto).
      apply K, in_map_iff in I'. destruct I' as (en & <- & I'). apply in_map_iff. exists en. tauto.
    - intros en I. apply in_map_iff in I. destruct I as ([k [g a]] & <- & I). unfold entry_ok. cbn [fst snd].
      specialize (E _ I) as E'. unfold entry_ok in E'. cbn [fst snd] in E'.
      destruct (dget String.eqb k w) as [v|] eqn:G.
      + rewrite (dget_in_nodup _ String.eqb_spec (rename_key r k) v); [exact E'|exact NW|].
        apply in_map_iff. exists (k, v). split; [reflexivity|]. apply (dget_some_in _ String.eqb_spec), G.
      + rewrite (proj2 (none_iff _ _)); [exact E'|]. intros Q. unfold dkeys in Q. rewrite map_map in Q.
        apply in_map_iff in Q. destruct Q as ([k' v'] & Q & I'). cbn in Q.
        assert (I2 : In k' (dkeys w)) by (apply in_map_iff; exists (k', v'); tauto).
        apply J in Q.
        * subst k'. apply none_iff in G. tauto.
        * apply K, I2.
        * apply in_map_iff. exists (k, (g, a)). tauto.
  Qed.
  Lemma rename_into_update r d w :
    rename_into r d w = dupdate String.eqb d (map (fun kv => (rename_key r (fst kv), snd kv)) w).
  Proof.
    unfold rename_into, dupdate. revert d. induction w as [|[k v] w IH]; intros d; [reflexivity|].
    cbn. apply IH.
  Qed.

  (** [change_kwargs] *)
  Section Change.
    Variable e : entry.
    Variable unuse : list string.
    Definition change_step (acc : kwdict) (kv : string * rope) : kwdict :=
      match change_names e (fst kv) with
      | Some ns => fold_left (fun a n => dset String.eqb n (snd kv) a) ns acc
      | None =>
          let acc' := dset String.eqb (fst kv) (snd kv) acc in
          if mem_str (fst kv) unuse then ddel String.eqb (fst kv) acc' else acc'
      end.
    Lemma sets_get (ns : list string) (v : rope) n : forall acc,
      dget String.eqb n (fold_left (fun a n => dset String.eqb n v a) ns acc) =
      if mem_str n ns then Some v else dget String.eqb n acc.
    Proof.
      induction ns as [|x ns IH]; intros acc; [reflexivity|]. cbn [fold_left mem_str existsb]. rewrite IH.
      change (existsb (String.eqb n) ns) with (mem_str n ns).
      destruct (mem_str n ns); [rewrite Bool.orb_true_r; reflexivity|]. rewrite Bool.orb_false_r.
      destruct (String.eqb_spec n x) as [->|X]; [apply get_same|apply get_other, X].
    Qed.
    Lemma sets_nodup (ns : list string) (v : rope) : forall acc, NoDup (dkeys acc) ->
      NoDup (dkeys (fold_left (fun a n => dset String.eqb n v a) ns acc)).
    Proof.
      induction ns as [|x ns IH]; intros acc N; [exact N|]. cbn. apply IH, (dset_nodup _ String.eqb_spec), N.
    Qed.
    Lemma step_get acc k v n : NoDup (dkeys acc) ->
      dget String.eqb n (change_step acc (k, v)) =
      if mem_str n (outputs e unuse k) then Some v
      else if mem_str n (claims e unuse k) then None else dget String.eqb n acc.
    Proof.
      intros N. unfold change_step, outputs, claims. cbn [fst snd]. destruct (change_names e k) as [ns|].
      - rewrite sets_get. destruct (mem_str n ns); reflexivity.
      - destruct (mem_str k unuse); cbn [mem_str existsb]; rewrite Bool.orb_false_r.
        + destruct (String.eqb_spec n k) as [->|X].
          * apply (ddel_get_same _ String.eqb_spec), (dset_nodup _ String.eqb_spec), N.
          * rewrite (ddel_get_other _ String.eqb_spec) by exact X. apply get_other, X.
        + destruct (String.eqb_spec n k) as [->|X]; [apply get_same|apply get_other, X].
    Qed.
    Lemma step_nodup acc kv : NoDup (dkeys acc) -> NoDup (dkeys (change_step acc kv)).
    Proof.
      intros N. unfold change_step. destruct (change_names e (fst kv)); [apply sets_nodup, N|].
      pose proof (dset_nodup _ String.eqb_spec (fst kv) (snd kv) acc N) as N'.
      cbv zeta. destruct (mem_str (fst kv) unuse); [apply (ddel_nodup _ String.eqb_spec), N'|exact N'].
    Qed.
    Lemma fold_nodup d : forall acc, NoDup (dkeys acc) -> NoDup (dkeys (fold_left change_step d acc)).
    Proof. induction d as [|kv d IH]; intros acc N; [exact N|]. cbn. apply IH, step_nodup, N. Qed.
    Lemma change_nodup d : NoDup (dkeys (change_rope e unuse d)).
    Proof. apply fold_nodup. constructor. Qed.
    Lemma outputs_claims k n : In n (outputs e unuse k) -> In n (claims e unuse k).
    Proof.
      unfold outputs, claims. destruct (change_names e k); [tauto|]. destruct (mem_str k unuse); [intros []|tauto].
    Qed.
    Lemma change_get (d : kwdict) n v :
      NoDup (dkeys d) ->
      (forall x y, In x (dkeys d) -> In y (dkeys d) -> In n (claims e unuse x) -> In n (claims e unuse y) -> x = y) ->
      dget String.eqb n (change_rope e unuse d) = Some v <->
      exists k, dget String.eqb k d = Some v /\ In n (outputs e unuse k).
    Proof.
      change (change_rope e unuse d) with (fold_left change_step d []).
      induction d as [|[k u] d IH] using rev_ind; intros N J.
      - cbn. split; [discriminate|]. intros (k & H & _). discriminate.
      - rewrite fold_left_app. cbn [fold_left].
        unfold dkeys in N. rewrite map_app in N. cbn in N.
        assert (Nk : ~ In k (dkeys d)). { intros I. apply NoDup_remove_2 in N. rewrite app_nil_r in N. tauto. }
        assert (Nd : NoDup (dkeys d)). { apply NoDup_remove_1 in N. rewrite app_nil_r in N. exact N. }
        assert (Ik : In k (dkeys (d ++ [(k, u)])%list)).
        { unfold dkeys. rewrite map_app. apply in_or_app. right. cbn. tauto. }
        assert (Id : forall x, In x (dkeys d) -> In x (dkeys (d ++ [(k, u)])%list)).
        { intros x I. unfold dkeys. rewrite map_app. apply in_or_app. left. exact I. }
        assert (Gk : dget String.eqb k (d ++ [(k, u)])%list = Some u).
        { apply (dget_in_nodup _ String.eqb_spec).
          - unfold dkeys. rewrite map_app. exact N.
          - apply in_or_app. right. left. reflexivity. }
        assert (Go : forall x, x <> k -> dget String.eqb x (d ++ [(k, u)])%list = dget String.eqb x d).
        { intros x X. clear -X. induction d as [|[a b] d IH]; cbn.
          - destruct (String.eqb_spec x k); [tauto|reflexivity].
          - destruct (String.eqb x a); [reflexivity|exact IH]. }
        rewrite step_get by (apply fold_nodup; constructor).
        destruct (mem_str n (outputs e unuse k)) eqn:O.
        + apply mem_str_In in O. split.
          * intros Q. injection Q as <-. exists k. tauto.
          * intros (x & G & I). f_equal. assert (x = k) as ->; [|congruence].
            apply J; [|exact Ik|apply outputs_claims, I|apply outputs_claims, O].
            apply (dget_some_in _ String.eqb_spec) in G. apply in_map_iff. exists (x, v). tauto.
        + apply mem_str_false in O. destruct (mem_str n (claims e unuse k)) eqn:C.
          * apply mem_str_In in C. split; [discriminate|]. intros (x & G & I). exfalso.
            assert (x = k) as ->; [|tauto]. apply J; [|exact Ik|apply outputs_claims, I|exact C].
            apply (dget_some_in _ String.eqb_spec) in G. apply in_map_iff. exists (x, v). tauto.
          * apply mem_str_false in C. rewrite IH.
            -- split; intros (x & G & I); exists x; (split; [|exact I]).
               ++ rewrite Go; [exact G|]. intros ->. tauto.
               ++ rewrite Go in G; [exact G|]. intros ->. tauto.
            -- exact Nd.
            -- intros x y I1 I2. apply J; apply Id; assumption.
    Qed.
    Lemma flat_disjoint {A} (f : A -> list string) (l : list A) :
      NoDup (flat_map f l) -> NoDup l -> forall x y n, In x l -> In y l -> In n (f x) -> In n (f y) -> x = y.
    Proof.
      induction l as [|a l IH]; cbn; intros N L x y n; [intros []|].
      inversion_clear L as [|? ? L1 L2].
      assert (X : forall y, In y l -> In n (f a) -> In n (f y) -> False).
      { intros z I A1 A2. clear -N I A1 A2.
        assert (In n (flat_map f l)) by (apply in_flat_map; exists z; tauto).
        induction (f a) as [|b m IHm]; [destruct A1|]. cbn in N. inversion_clear N as [|? ? N1 N2].
        destruct A1 as [->|A1]; [apply N1, in_or_app; right; assumption|apply IHm; assumption]. }
      assert (N' : NoDup (flat_map f l)).
      { clear -N. induction (f a); [exact N|]. cbn in N. inversion_clear N. auto. }
      intros [->|I1] [->|I2] HA HB; [reflexivity|destruct (X y I2 HA HB)|destruct (X x I1 HB HA)|].
      apply (IH N' L2 x y n); assumption.
    Qed.
    Lemma achange_ok es d u : md es d -> achange e unuse es = Some u -> md u (change_rope e unuse d).
    Proof.
      intros (N & K & E) H. unfold achange in H. destruct (nodup (map fst es) && _) eqn:C; [|discriminate].
      injection H as <-. apply Bool.andb_true_iff in C. destruct C as [C1 C2].
      apply nodup_NoDup in C1, C2.
      assert (J : forall n x y, In x (map fst es) -> In y (map fst es) -> In n (claims e unuse x) ->
                  In n (claims e unuse y) -> x = y).
      { intros n x y. apply (flat_disjoint _ _ C2 C1). }
      assert (G : forall n v, dget String.eqb n (change_rope e unuse d) = Some v <->
                  exists k, dget String.eqb k d = Some v /\ In n (outputs e unuse k)).
      { intros n v. apply change_get; [exact N|]. intros x y I1 I2. apply J; apply K; assumption. }
      split; [apply change_nodup|]. split.
      - intros n I. destruct (dget String.eqb n (change_rope e unuse d)) as [v|] eqn:Q.
        + apply G in Q. destruct Q as (k & Q & O).
          assert (I' : In k (dkeys d)).
          { apply (dget_some_in _ String.eqb_spec) in Q. apply in_map_iff. exists (k, v). tauto. }
          apply K, in_map_iff in I'. destruct I' as (en & <- & I').
          apply in_map_iff. exists (n, snd en). split; [reflexivity|]. apply in_flat_map.
          exists en. split; [exact I'|]. apply in_map_iff. exists n. tauto.
        + apply none_iff in Q. tauto.
      - intros en I. apply in_flat_map in I. destruct I as (en0 & I & I2). apply in_map_iff in I2.
        destruct I2 as (n & <- & O). specialize (E en0 I) as E0. unfold entry_ok in *. cbn [fst snd].
        destruct (dget String.eqb (fst en0) d) as [v|] eqn:Q.
        + rewrite (proj2 (G n v)); [exact E0|]. exists (fst en0). tauto.
        + destruct (dget String.eqb n (change_rope e unuse d)) as [v|] eqn:Q'; [|exact E0].
          apply G in Q'. destruct Q' as (k & Q' & O').
          assert (k = fst en0) as ->; [|congruence].
          apply (J n); [|apply in_map, I|apply outputs_claims, O'|apply outputs_claims, O].
          apply K. apply (dget_some_in _ String.eqb_spec) in Q'. apply in_map_iff. exists (k, v). tauto.
    Qed.
  End Change.

  Definition resolved (es : adict) : adict :=
    flat_map (fun en => if on (fst (snd en)) then [(fst en, (None, snd (snd en)))] else []) es.
  Lemma aresolve_ok es : forall h st, sat h -> pure (aresolve es h st) st (fun r => r = resolved es).
  Proof.
    induction es as [|[k [g a]] es IH]; intros h st S; [apply pure_ret; [exact S|reflexivity]|].
    cbn [aresolve]. eapply pure_pure; [apply aguard_ok, S|]. intros h1 b S1 ->.
    eapply pure_pure; [apply IH, S1|]. intros h2 r S2 ->. apply pure_ret; [exact S2|].
    unfold resolved. cbn [flat_map fst snd]. destruct (on g); reflexivity.
  Qed.
  Lemma resolved_ok es d : md es d -> md (resolved es) d.
  Proof.
    intros (N & K & E). split; [exact N|]. split.
    - intros k I. pose proof (K k I) as J. apply in_map_iff in J. destruct J as ([k' [g a]] & Q & J).
      cbn in Q. subst k'. specialize (E _ J). unfold entry_ok in E. cbn [fst snd] in E.
      destruct (dget String.eqb k d) eqn:G; [|apply none_iff in G; tauto].
      apply in_map_iff. exists (k, (None, a)). split; [reflexivity|]. apply in_flat_map.
      exists (k, (g, a)). split; [exact J|]. cbn [fst snd]. destruct E as [-> _]. left. reflexivity.
    - intros en I. apply in_flat_map in I. destruct I as ([k [g a]] & J & I). cbn [fst snd] in I.
      specialize (E _ J). unfold entry_ok in *. cbn [fst snd] in *.
      destruct (on g) eqn:O; [|destruct I]. destruct I as [<-|[]]. cbn [fst snd].
      destruct (dget String.eqb k d); [split; [reflexivity|apply E]|discriminate].
  Qed.
  Lemma aempty_ok es : forall h st, sat h ->
    pure (aempty es h st) st (fun b => b = forallb (fun en => negb (on (fst (snd en)))) es).
  Proof.
    induction es as [|[k [g a]] es IH]; intros h st S; [apply pure_ret; [exact S|reflexivity]|].
    cbn [aempty forallb fst snd]. eapply pure_pure; [apply aguard_ok, S|]. intros h1 b S1 ->.
    destruct (on g); [apply pure_ret; [exact S1|reflexivity]|apply IH, S1].
  Qed.
  Lemma empty_ok es d : md es d ->
    forallb (fun en => negb (on (fst (snd en)))) es = match d with [] => true | _ => false end.
  Proof.
    intros (N & K & E). destruct d as [|[k v] d].
    - apply forallb_forall. intros en I. specialize (E en I). unfold entry_ok in E. cbn in E.
      rewrite E. reflexivity.
    - destruct (forallb _ es) eqn:F; [|reflexivity]. exfalso. rewrite forallb_forall in F.
      assert (I : In k (map fst es)) by (apply K; cbn; tauto).
      apply in_map_iff in I. destruct I as ([k' [g a]] & Q & I). cbn in Q. subst k'.
      specialize (F _ I). specialize (E _ I). unfold entry_ok in E. cbn [fst snd dget] in *.
      rewrite String.eqb_refl in E. destruct E as [E _]. rewrite E in F. discriminate.
  Qed.
End Rel.

(** Instances of a symbolic expression have its symbolic value and do its symbolic stores. *)
From Coq Require Import QArith.
From Verif Require Import PyStr PyDict PyDictFacts UtilsFile Args ArgsSpec
  Generate GenerateSym GenerateRel GenerateSpec MeaningSpec MeaningCheck MeaningSound.
Close Scope Q_scope.
Open Scope string_scope.

Lemma function_ext W f ps ks ks' : (forall k, ks k = ks' k) -> function W f ps ks = function W f ps ks'.
Proof.
  intros E. unfold function. rewrite (other_ext W f ps ks ks' E). f_equal. unfold library. cbn [dget].
  repeat match goal with |- context [if String.eqb ?a ?b then _ else _] => destruct (String.eqb a b); [rewrite ?E; reflexivity|] end.
  reflexivity.
Qed.
Lemma method_ext W m x ps ks ks' : (forall k, ks k = ks' k) -> method W m x ps ks = method W m x ps ks'.
Proof.
  intros E. unfold method. rewrite (other_ext W ("." ++ m) (x :: ps) ks ks' E). f_equal. unfold methods. cbn [dget].
  repeat match goal with |- context [if String.eqb ?a ?b then _ else _] => destruct (String.eqb a b); [rewrite ?E; reflexivity|] end.
  reflexivity.
Qed.

Section Values.
  Variable W : algebra.
  Variables (kw : dict string string) (recv : option string).
  Variable rho : string -> V W.
  Variable a : string -> option (V W).
  Variable x : V W.
  Hypothesis receiver : forall v, recv = Some v -> x = rho v.
  Definition agree (l : list string) : Prop := forall k, In k l -> a k = option_map rho (dget String.eqb k kw).
  Lemma agree_app l m : agree (l ++ m) -> agree l /\ agree m.
  Proof. intros A. split; intros k I; apply A, in_app_iff; tauto. Qed.
  Notation inst := (inst kw recv). Notation inst_args := (inst_args kw recv). Notation inst_entries := (inst_entries kw recv).
  Notation value := (value W rho). Notation svalue := (svalue W a x).

  Lemma inst_path e : forall p, inst e p -> path p = spath e.
  Proof.
    induction e; intros p I; cbn in I;
      repeat match goal with H : exists _, _ |- _ => destruct H | H : _ /\ _ |- _ => destruct H end; subst; try reflexivity.
    cbn. match goal with H : inst _ _ |- _ => rewrite (IHe _ H) end. reflexivity.
  Qed.
  Definition evaluated (ks : list (string * pexp)) : list (string * V W) := map (fun kv => (fst kv, value (snd kv))) ks.
  Lemma dget_evaluated k ks : dget String.eqb k (evaluated ks) = option_map value (dget String.eqb k ks).
  Proof. induction ks as [|[j p] ks IH]; [reflexivity|]. cbn. destruct (String.eqb k j); [reflexivity|exact IH]. Qed.

  Definition inner (e : sexp) (p : pexp) : Prop :=
    match e, p with EMember e' _, Member b _ => value b = svalue e' | _, _ => True end.
  Lemma values_agree_both :
    (forall e p, inst e p -> agree (uses e) -> value p = svalue e /\ inner e p) /\
    (forall l ps ks, inst_args l ps ks -> agree (uses_args l) ->
       map value ps = spositional W a x l /\ forall k, dget String.eqb k (evaluated ks) = skeys W a x l k) /\
    (forall es ks, inst_entries es ks -> agree (uses_entries es) ->
       forall k, In k (ent_keys es) -> option_map value (dget String.eqb k ks) = sentries W a x es k).
  Proof.
    apply sexp_induction.
    - intros k p (v & G & ->) A. split; [|exact I]. cbn. rewrite (A k); [|left; reflexivity]. rewrite G. reflexivity.
    - intros p (v & G & ->) A. split; [|exact I]. cbn. symmetry. apply receiver, G.
    - intros w p -> A. split; [reflexivity|exact I].
    - intros w p -> A. split; [reflexivity|exact I].
    - intros w p -> A. split; [reflexivity|exact I].
    - intros e IH p (b & -> & J) A. split; [|exact I]. destruct (IH _ J A) as [E _]. cbn. rewrite E. reflexivity.
    - intros e IH p (b & -> & J) A. split; [|exact I]. destruct (IH _ J A) as [E _]. cbn. rewrite E. reflexivity.
    - intros o e IH f IH' p (b & c & -> & J & K) A. split; [|exact I]. apply agree_app in A. destruct A as [A B].
      destruct (IH _ J A) as [E _], (IH' _ K B) as [F _]. cbn. rewrite E, F. reflexivity.
    - intros e IH w p (b & -> & J) A. destruct (IH _ J A) as [E _]. split; [|exact E]. cbn. rewrite (inst_path _ _ J), E. reflexivity.
    - intros e IH f IH' p (b & c & -> & J & K) A. split; [|exact I]. apply agree_app in A. destruct A as [A B].
      destruct (IH _ J A) as [E _], (IH' _ K B) as [F _]. cbn. rewrite E, F. reflexivity.
    - intros l IH p (ps & -> & J) A. split; [|exact I]. cbn. destruct (IH _ _ J A) as [-> _]. reflexivity.
    - intros f IH l IH' p (b & ps & ks & -> & J & J') A. split; [|exact I]. apply agree_app in A. destruct A as [A B].
      destruct (IH' _ _ J' B) as [P K]. pose proof (inst_path _ _ J) as PA. destruct (IH _ J A) as [E F].
      cbn [MeaningSpec.value MeaningCheck.svalue]. fold (evaluated ks). rewrite PA, P. destruct (spath f) as [n|] eqn:S.
      + apply function_ext, K.
      + destruct f; cbn in J; repeat match goal with H : exists _, _ |- _ => destruct H | H : _ /\ _ |- _ => destruct H end; subst;
          try (rewrite <- E; apply other_ext, K).
        cbn in F. rewrite F. apply method_ext, K.
    - intros ps ks [-> ->] _. split; reflexivity.
    - intros e IH r IH' ps ks (p & ps' & -> & I & J) A. apply agree_app in A. destruct A as [A B]. destruct (IH' _ _ J B) as [P K].
      destruct (IH _ I A) as [E _]. cbn. rewrite E, P. split; [reflexivity|exact K].
    - intros k e IH r IH' ps ks (p & ks' & -> & -> & I & J) A. apply agree_app in A. destruct A as [A B]. destruct (IH' _ _ J B) as [P K].
      split; [reflexivity|]. intros j. cbn. destruct (String.eqb j k); [destruct (IH _ I A) as [-> _]; reflexivity|apply K].
    - intros es IH ps ks (-> & N & S & I) A. split; [reflexivity|]. intros k. rewrite dget_evaluated. cbn [skeys].
      destruct (in_dec string_dec k (ent_keys es)) as [J|J]; [apply IH; assumption|].
      replace (dget String.eqb k ks) with (@None pexp).
      + clear -J. induction es as [|j g e r IH]; [reflexivity|]. cbn in *. destruct (String.eqb_spec k j); [subst; tauto|apply IH; tauto].
      + symmetry. apply (dget_none_iff _ String.eqb_spec). intros X. apply J, S, X.
    - intros ks _ _ k [].
    - intros k g e IH r IH' ks [I J] A j M. cbn [uses_entries] in A. apply agree_app in A. destruct A as [A0 A]. apply agree_app in A. destruct A as [A B].
      cbn [sentries]. destruct (String.eqb_spec j k) as [->|N].
      + assert (T : there W a g = on kw g).
        { destruct g as [g|]; [|reflexivity]. cbn. rewrite (A0 g); [|left; reflexivity]. unfold dmem. destruct (dget String.eqb g kw); reflexivity. }
        rewrite T. destruct (dget String.eqb k ks) as [p|]; [destruct I as [-> I]; cbn; destruct (IH _ I A) as [-> _]; reflexivity|rewrite I; reflexivity].
      + apply (IH' _ J B). destruct M as [M|M]; [congruence|exact M].
  Qed.
  Theorem value_agrees e p : inst e p -> agree (uses e) -> value p = svalue e.
  Proof. intros I A. exact (proj1 (proj1 values_agree_both e p I A)). Qed.

  (** ** Stores *)
  Definition spot_text (s : spot) : option string :=
    match s with AtArg k => dget String.eqb k kw | AtRecv => recv | Elsewhere => None end.
  Ltac splits := repeat match goal with H : exists _, _ |- _ => destruct H | H : _ /\ _ |- _ => destruct H end; subst.
  Lemma place_agrees_both :
    (forall e p, inst e p -> place p = spot_text (splace e) /\
        match e, p with EMember e' _, Member b _ => place b = spot_text (splace e') | _, _ => True end) /\
    (forall l ps ks, inst_args l ps ks ->
       match ps with q :: _ => place q | [] => None end = spot_text (match l with APos e _ => splace e | _ => Elsewhere end)) /\
    (forall es : sents, True).
  Proof.
    apply sexp_induction; try (intros; exact I).
    - intros k p (v & G & ->). split; [symmetry; exact G|exact I].
    - intros p (v & G & ->). split; [symmetry; exact G|exact I].
    - intros w p ->. split; [reflexivity|exact I].
    - intros w p ->. split; [reflexivity|exact I].
    - intros w p ->. split; [reflexivity|exact I].
    - intros e IH p (b & -> & J). split; [reflexivity|exact I].
    - intros e IH p (b & -> & J). split; [reflexivity|exact I].
    - intros o e IH f IH' p (b & c & -> & J & K). split; [reflexivity|exact I].
    - intros e IH w p (b & -> & J). split; [reflexivity|exact (proj1 (IH _ J))].
    - intros e IH f IH' p (b & c & -> & J & K). split; [reflexivity|exact I].
    - intros l IH p (ps & -> & J). split; [reflexivity|exact I].
    - intros f IH l IH' p (b & ps & ks & -> & J & J'). split; [|exact I].
      destruct (IH _ J) as [E F'].
      cbn [place splace]. rewrite (inst_path _ _ J). destruct (spath f) as [n|].
      + destruct (ends_with_underscore n); [|reflexivity]. exact (IH' _ _ J').
      + destruct f; cbn in J; splits; try reflexivity. destruct (ends_with_underscore _); [exact F'|reflexivity].
    - intros ps ks [-> ->]. reflexivity.
    - intros e IH r IH' ps ks (p & ps' & -> & J & J'). exact (proj1 (IH _ J)).
    - intros k e IH r IH' ps ks (p & ks' & -> & -> & J & J'). reflexivity.
    - intros es IH ps ks (-> & N & S & J). reflexivity.
  Qed.
  Lemma calm_stores :
    (forall e p, inst e p -> calm e = true -> stores W rho p = []) /\
    (forall l ps ks, inst_args l ps ks -> calm_args l = true ->
       flat_map (stores W rho) ps = [] /\ flat_map (fun kv => stores W rho (snd kv)) ks = []) /\
    (forall es ks, inst_entries es ks -> calm_entries es = true ->
       (forall k p, In k (ent_keys es) -> dget String.eqb k ks = Some p -> stores W rho p = []) /\ ~ In "output" (ent_keys es)).
  Proof.
    apply sexp_induction.
    - intros k p (v & G & ->) A. reflexivity.
    - intros p (v & G & ->) A. reflexivity.
    - intros w p -> A. reflexivity.
    - intros w p -> A. reflexivity.
    - intros w p -> A. reflexivity.
    - intros e IH p (b & -> & J) A. exact (IH _ J A).
    - intros e IH p (b & -> & J) A. exact (IH _ J A).
    - intros o e IH f IH' p (b & c & -> & J & K) A. cbn in A. apply Bool.andb_true_iff in A. destruct A as [A B].
      cbn. rewrite (IH _ J A), (IH' _ K B). reflexivity.
    - intros e IH w p (b & -> & J) A. exact (IH _ J A).
    - intros e IH f IH' p (b & c & -> & J & K) A. cbn in A. apply Bool.andb_true_iff in A. destruct A as [A B].
      cbn. rewrite (IH _ J A), (IH' _ K B). reflexivity.
    - intros l IH p (ps & -> & J) A. exact (proj1 (IH _ _ J A)).
    - intros f IH l IH' p (b & ps & ks & -> & J & J') A. cbn [calm] in A. apply Bool.andb_true_iff in A. destruct A as [A C].
      apply Bool.andb_true_iff in A. destruct A as [A B]. destruct (IH' _ _ J' B) as [P K].
      cbn [stores]. rewrite (IH _ J A), P, K, (inst_path _ _ J). cbn [app].
      destruct (spath f) as [n|] eqn:S.
      + apply Bool.andb_true_iff in C. destruct C as [C D]. apply Bool.negb_true_iff in C, D. rewrite C, D. reflexivity.
      + destruct f; cbn in J; splits; try reflexivity. apply Bool.negb_true_iff in C. rewrite C. reflexivity.
    - intros ps ks [-> ->] _. split; reflexivity.
    - intros e IH r IH' ps ks (p & ps' & -> & J & J') A. cbn in A. apply Bool.andb_true_iff in A. destruct A as [A B].
      destruct (IH' _ _ J' B) as [P K]. cbn. rewrite (IH _ J A), P. split; [reflexivity|exact K].
    - intros k e IH r IH' ps ks (p & ks' & -> & -> & J & J') A. cbn in A. apply Bool.andb_true_iff in A. destruct A as [A B].
      destruct (IH' _ _ J' B) as [P K]. split; [reflexivity|]. cbn. rewrite (IH _ J A), K. reflexivity.
    - intros es IH ps ks (-> & N & S & J) A. split; [reflexivity|]. destruct (IH _ J A) as [F _].
      assert (G : forall kv, In kv ks -> stores W rho (snd kv) = []).
      { intros [k p] I. apply (F k p); [apply S, in_map_iff; exists (k, p); split; [reflexivity|exact I]|].
        apply (dget_in_nodup _ String.eqb_spec); [exact N|exact I]. }
      clear -G. induction ks as [|kv ks IH]; [reflexivity|]. cbn. rewrite (G kv); [|left; reflexivity]. apply IH.
      intros kv' I. apply G. right. exact I.
    - intros ks _ _. split; [intros k p []|intros []].
    - intros k g e IH r IH' ks [J J'] A. cbn in A. apply Bool.andb_true_iff in A. destruct A as [A B].
      apply Bool.andb_true_iff in A. destruct A as [A C]. apply Bool.negb_true_iff in A. destruct (IH' _ J' B) as [F O]. split.
      + intros j p I G. destruct (string_dec j k) as [->|N].
        * rewrite G in J. destruct J as [_ J]. exact (IH _ J C).
        * apply (F j p); [|exact G]. destruct I as [I|I]; [congruence|exact I].
      + intros [I|I]; [subst; discriminate|exact (O I)].
  Qed.
  Definition concrete (l : list (spot * V W)) : list (option string * V W) := map (fun sv => (spot_text (fst sv), snd sv)) l.
  Lemma concrete_app l m : concrete (l ++ m) = (concrete l ++ concrete m)%list.
  Proof. apply map_app. Qed.
  Lemma output_agrees l : forall ps ks, inst_args l ps ks -> settled_args l = true ->
    match soutput l, dget String.eqb "output" ks with
    | Some e, Some p => inst e p
    | None, None => True
    | _, _ => False
    end.
  Proof.
    induction l as [|e r IH|k e r IH|es]; intros ps ks J S.
    - destruct J as [_ ->]. exact I.
    - destruct J as (p & ps' & -> & _ & J). cbn in S. apply Bool.andb_true_iff in S. apply (IH _ _ J), S.
    - destruct J as (p & ks' & -> & -> & J & J'). cbn in S. apply Bool.andb_true_iff in S. cbn [soutput dget].
      rewrite String.eqb_sym. destruct (String.eqb "output" k); [exact J|]. apply (IH _ _ J'), S.
    - destruct J as (-> & N & F & J). cbn. replace (dget String.eqb "output" ks) with (@None pexp); [exact I|]. symmetry.
      apply (dget_none_iff _ String.eqb_spec). intros X. apply F in X. exact (proj2 (proj2 (proj2 calm_stores) _ _ J S) X).
  Qed.
  Lemma sstores_call f l : sstores W a x (ECall f l) =
    (sstores W a x f ++ sstores_args W a x l ++
     match spath f with
     | Some n =>
         if ends_with_underscore n then [(match l with APos e _ => splace e | _ => Elsewhere end, svalue (ECall f l))]
         else if String.eqb n "paddle.assign"
              then match soutput l with Some o => [(splace o, svalue (ECall f l))] | None => [] end
              else []
     | None => match f with EMember b m => if ends_with_underscore m then [(splace b, svalue (ECall f l))] else [] | _ => [] end
     end)%list.
  Proof. reflexivity. Qed.
  Lemma stores_agree_both :
    (forall e p, inst e p -> agree (uses e) -> settled e = true -> stores W rho p = concrete (sstores W a x e)) /\
    (forall l ps ks, inst_args l ps ks -> agree (uses_args l) -> settled_args l = true ->
       (flat_map (stores W rho) ps ++ flat_map (fun kv => stores W rho (snd kv)) ks)%list = concrete (sstores_args W a x l)) /\
    (forall es : sents, True).
  Proof.
    apply sexp_induction; try (intros; exact I).
    - intros k p (v & G & ->) A. reflexivity.
    - intros p (v & G & ->) A. reflexivity.
    - intros w p -> A. reflexivity.
    - intros w p -> A. reflexivity.
    - intros w p -> A. reflexivity.
    - intros e IH p (b & -> & J) A. exact (IH _ J A).
    - intros e IH p (b & -> & J) A. exact (IH _ J A).
    - intros o e IH f IH' p (b & c & -> & J & K) A S. cbn in A, S. apply Bool.andb_true_iff in S. destruct S as [S T].
      apply agree_app in A. destruct A as [A B].
      cbn. rewrite (IH _ J A S), (IH' _ K B T), concrete_app. reflexivity.
    - intros e IH w p (b & -> & J) A. exact (IH _ J A).
    - intros e IH f IH' p (b & c & -> & J & K) A S. cbn in A, S. apply Bool.andb_true_iff in S. destruct S as [S T].
      apply agree_app in A. destruct A as [A B].
      cbn. rewrite (IH _ J A S), (IH' _ K B T), concrete_app. reflexivity.
    - intros l IH p (ps & -> & J) A S. change (sstores W a x (EList l)) with (sstores_args W a x l). rewrite <- (IH _ _ J A S). cbn. symmetry. apply app_nil_r.
    - intros f IH l IH' p (b & ps & ks & -> & J & J') A S. pose proof A as AA. cbn in A, S. apply Bool.andb_true_iff in S. destruct S as [S T].
      apply agree_app in A. destruct A as [A B].
      assert (VA : value (Apply b ps ks) = svalue (ECall f l)).
      { apply value_agrees; [exists b, ps, ks; tauto|exact AA]. }
      rewrite sstores_call. cbn [stores]. rewrite !concrete_app, <- (IH _ J A S), <- (IH' _ _ J' B T), <- app_assoc, <- !VA, (inst_path _ _ J).
      f_equal. f_equal. f_equal.
      destruct (spath f) as [n|] eqn:SP.
      + destruct (ends_with_underscore n); [cbn; rewrite (proj1 (proj2 place_agrees_both) _ _ _ J'); reflexivity|].
        destruct (String.eqb n "paddle.assign"); [|reflexivity]. pose proof (output_agrees _ _ _ J' T) as O.
        destruct (soutput l) as [o|], (dget String.eqb "output" ks) as [q|]; try contradiction; [|reflexivity].
        cbn. rewrite (proj1 (proj1 place_agrees_both _ _ O)). reflexivity.
      + pose proof (proj2 (proj1 place_agrees_both _ _ J)) as F.
        destruct f; cbn in J; splits; try reflexivity. destruct (ends_with_underscore _); [|reflexivity]. cbn. rewrite F. reflexivity.
    - intros ps ks [-> ->] _ _. reflexivity.
    - intros e IH r IH' ps ks (p & ps' & -> & J & J') A S. cbn in A, S. apply Bool.andb_true_iff in S. destruct S as [S T].
      apply agree_app in A. destruct A as [A B]. cbn. rewrite (IH _ J A S), concrete_app, <- (IH' _ _ J' B T), app_assoc. reflexivity.
    - intros k e IH r IH' ps ks (p & ks' & -> & -> & J & J') A S. cbn in A, S. apply Bool.andb_true_iff in S. destruct S as [S T].
      apply agree_app in A. destruct A as [A B]. cbn. rewrite (IH _ J A S), concrete_app, <- (IH' _ _ J' B T). reflexivity.
    - intros es _ ps ks J A S. destruct (proj1 (proj2 calm_stores) (AJn es) _ _ J S) as [-> ->]. reflexivity.
  Qed.
  Theorem stores_agree e p : inst e p -> agree (uses e) -> settled e = true -> stores W rho p = concrete (sstores W a x e).
  Proof. exact (proj1 stores_agree_both e p). Qed.

  (** ** The call to one function *)
  Lemma calls_agree f e p : inst e p -> calls f p = scalls f e.
  Proof.
    intros J. unfold calls, scalls. rewrite (inst_path _ _ J). destruct (spath e); [reflexivity|].
    destruct e; cbn in J; splits; reflexivity.
  Qed.
  Definition same_keywords (s : option sargs) (c : option (list (string * pexp))) : Prop :=
    match s, c with Some l, Some ks => exists ps, inst_args l ps ks | None, None => True | _, _ => False end.
  Lemma keywords_agree_both :
    (forall e f p, inst e p -> same_keywords (skeywords_to f e) (keywords_to f p)) /\
    (forall m f ps ks, inst_args m ps ks ->
       same_keywords (match m with APos y _ => skeywords_to f y | _ => None end) (match ps with y :: _ => keywords_to f y | [] => None end)) /\
    (forall es : sents, True).
  Proof.
    apply sexp_induction; try (intros; exact I).
    - intros k f p (v & G & ->). exact I.
    - intros f p (v & G & ->). exact I.
    - intros w f p ->. exact I.
    - intros w f p ->. exact I.
    - intros w f p ->. exact I.
    - intros e IH f p (b & -> & J). exact I.
    - intros e IH f p (b & -> & J). exact I.
    - intros o e IH e' IH' f p (b & c & -> & J & K). exact I.
    - intros e IH w f p (b & -> & J). exact (IH _ _ J).
    - intros e IH e' _ f p (b & c & -> & J & _). exact (IH _ _ J).
    - intros l IH f p (ps & -> & J). exact I.
    - intros g IH m IH' f p (b & ps & ks & -> & J & J'). cbn. rewrite (calls_agree f _ _ J). destruct (scalls f g).
      + exists ps. exact J'.
      + specialize (IH f _ J). specialize (IH' f _ _ J').
        destruct (skeywords_to f g), (keywords_to f b); try contradiction; [exact IH|exact IH'].
    - intros f ps ks [-> ->]. exact I.
    - intros e IH r _ f ps ks (p & ps' & -> & J & _). exact (IH _ _ J).
    - intros k e IH r _ f ps ks (p & ks' & -> & -> & J & J'). exact I.
    - intros es _ f ps ks (-> & _). exact I.
  Qed.
  Lemma keywords_uses_both f :
    (forall e l, skeywords_to f e = Some l -> incl (uses_args l) (uses e)) /\
    (forall m l, match m with APos y _ => skeywords_to f y | _ => None end = Some l -> incl (uses_args l) (uses_args m)) /\
    (forall es : sents, True).
  Proof.
    apply sexp_induction; try (intros; exact I); try discriminate.
    - intros e IH w l E. exact (IH _ E).
    - intros e IH e' _ l E. cbn. apply incl_appl, (IH _ E).
    - intros g IH m IH' l E. cbn [skeywords_to] in E. cbn [uses]. destruct (scalls f g); [injection E as ->; apply incl_appr, incl_refl|].
      destruct (skeywords_to f g); [apply incl_appl, IH, E|apply incl_appr, IH', E].
    - intros e IH r _ l E. cbn. apply incl_appl, (IH _ E).
  Qed.
  Theorem keywords_agree e p f l : inst e p -> agree (uses e) -> skeywords_to f e = Some l ->
    exists ks, keywords_to f p = Some ks /\ forall k d, receives W rho k d ks = match skeys W a x l k with Some v => Some v | None => d end.
  Proof.
    intros J A E. pose proof (proj1 keywords_agree_both e f p J) as K. rewrite E in K. destruct (keywords_to f p) as [ks|]; [|contradiction].
    destruct K as [ps K]. exists ks. split; [reflexivity|]. intros k d.
    assert (B : agree (uses_args l)) by (intros j I; apply A, (proj1 (keywords_uses_both f) _ _ E), I).
    destruct (proj1 (proj2 values_agree_both) _ _ _ K B) as [_ V]. rewrite <- V, dget_evaluated. unfold receives.
    destruct (dget String.eqb k ks); reflexivity.
  Qed.
End Values.

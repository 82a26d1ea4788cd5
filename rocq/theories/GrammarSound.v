(** What the parser of GrammarCheck.v accepts is in the grammar. *)
From Coq Require Import Lia Permutation.
From Verif Require Import PyStr PyDict PyDictFacts PyStrFacts UtilsFile RegistryFacts Args ArgsSpec
  Generate GenerateSym GenerateRel GenerateSpec GenerateCheck GenerateMarks Grammar GrammarCheck.

Lemma all_chars_app f a b : all_chars f (a ++ b) = all_chars f a && all_chars f b.
Proof. induction a as [|c a IH]; [reflexivity|]. cbn. rewrite IH. apply Bool.andb_assoc. Qed.
Lemma gap_nil b : gap b "".
Proof. reflexivity. Qed.
Lemma gap_app b x y : gap b x -> gap b y -> gap b (x ++ y).
Proof. unfold gap. intros X Y. rewrite all_chars_app, X, Y. reflexivity. Qed.

(** A receiver is found again after its detour through [re] if it has no backslash and
    no line break. *)
Lemma special_backslash c : special c = false -> Ascii.eqb c "\" = false.
Proof. destruct (Ascii.eqb_spec c "\") as [->|]; [discriminate|reflexivity]. Qed.
Lemma template_cons c s : Ascii.eqb c "\" = false -> re_template (String c s) = String c (re_template s).
Proof. intros H. cbn [re_template]. rewrite H. reflexivity. Qed.
Lemma unescape_cons c s : Ascii.eqb c "\" = false -> re_unescape (String c s) = String c (re_unescape s).
Proof. intros H. cbn [re_unescape]. rewrite H. reflexivity. Qed.
Lemma through_plain s : undisturbed s -> through_re s = s.
Proof.
  unfold undisturbed, through_re. induction s as [|c s IH]; [reflexivity|]. cbn [all_chars]. intros U.
  apply Bool.andb_true_iff in U. destruct U as [U1 U2]. apply Bool.negb_true_iff, Bool.orb_false_iff in U1.
  destruct U1 as [B N]. specialize (IH U2). cbn [re_escape]. destruct (special c) eqn:S.
  - cbn [re_template]. rewrite B. change (Ascii.eqb "\" "\") with true. cbv iota.
    cbn [re_unescape]. change (Ascii.eqb "\" "\") with true. cbv iota. rewrite N. f_equal. exact IH.
  - rewrite template_cons, unescape_cons by exact B. f_equal. exact IH.
Qed.

(** Texts that may replace each hole. *)
Section Sound.
  Variables (kw : dict string string) (recv : option string) (fr : string -> string -> Prop) (operand expression : string -> Prop).
  Hypothesis made : forall k n, fr k n -> exists i, n = snd (unique_name i k).
  Variable gone : option string -> bool.
  Variable joins : string -> bool.
  Hypothesis absent : forall g, gone g = true -> on kw g = false.
  Hypothesis arguments_operands : forall k v, dget String.eqb k kw = Some v ->
    py_strip v = v /\ (if joins k then operand v else expression v).
  Hypothesis receiver_operand : forall v, recv = Some v -> operand v /\ undisturbed v.

  Notation primary := (primary operand expression). Notation arith := (arith operand expression).
  Notation condition := (condition operand expression). Notation negation := (negation operand expression).
  Notation test := (test operand expression). Notation tests := (tests operand expression).
  Notation subscript := (subscript operand expression). Notation arguments := (arguments operand expression).
  Notation keywords := (keywords operand expression).

  Fixpoint real (l : list sym) (t : string) : Prop :=
    match l with
    | [] => t = ""
    | C c :: l => exists t', t = String c t' /\ real l t'
    | H p :: l => exists q t', t = render q ++ t' /\ mp kw recv fr p q /\ real l t'
    end.
  Lemma real_app a b t : real (a ++ b) t -> exists x y, t = x ++ y /\ real a x /\ real b y.
  Proof.
    revert t. induction a as [|[c|p] a IH]; intros t R.
    - exists "", t. repeat split. exact R.
    - destruct R as (t' & -> & R). destruct (IH _ R) as (x & y & -> & A & B).
      exists (String c x), y. split; [reflexivity|]. split; [exists x; split; [reflexivity|exact A]|exact B].
    - destruct R as (q & t' & -> & M & R). destruct (IH _ R) as (x & y & -> & A & B).
      exists (render q ++ x), y. split; [symmetry; apply app_assoc_s|]. split; [|exact B]. exists q, x. tauto.
  Qed.
  Lemma app_real a b x y : real a x -> real b y -> real (a ++ b) (x ++ y).
  Proof.
    revert x. induction a as [|[c|p] a IH]; intros x A B.
    - cbn in A. subst x. exact B.
    - destruct A as (t & -> & A). exists (t ++ y). split; [reflexivity|apply IH; assumption].
    - destruct A as (q & t & -> & M & A). exists q, (t ++ y). split; [apply app_assoc_s|]. split; [exact M|apply IH; assumption].
  Qed.
  Lemma chars_real s : real (chars s) s.
  Proof. induction s as [|c s IH]; [reflexivity|]. exists s. split; [reflexivity|exact IH]. Qed.
  Lemma flat_ok l : forall q, mts kw recv fr l q -> real (flat l) (render q).
  Proof.
    induction l as [|p l IH]; intros q M.
    - cbn in M. subst q. reflexivity.
    - destruct M as (q1 & q2 & -> & A & B). rewrite render_app. cbn [flat flat_map]. apply app_real; [|apply IH, B].
      assert (Z : real [H p] (render q1)).
      { exists q1, "". split; [symmetry; apply app_nil_r_s|]. split; [exact A|reflexivity]. }
      destruct p as [t|k| |k|f x|es]; try exact Z.
      change (q1 = [MkPiece [] t]) in A. subst q1. rewrite render_one. apply chars_real.
  Qed.

  (** ** Parsers *)
  Definition sound {A} (p : parser A) (Q : A -> string -> Prop) : Prop :=
    forall l a r, p l = Some (a, r) -> exists l1, l = (l1 ++ r)%list /\ forall t, real l1 t -> Q a t.
  Lemma sound_weaken {A} (p : parser A) (Q R : A -> string -> Prop) :
    sound p Q -> (forall a t, Q a t -> R a t) -> sound p R.
  Proof. intros S W l a r E. destruct (S l a r E) as (l1 & -> & F). exists l1. split; [reflexivity|]. intros t T. apply W, F, T. Qed.
  Lemma sound_ret {A} (a : A) : sound (pret a) (fun b t => b = a /\ t = "").
  Proof. intros l b r E. injection E as <- <-. exists []. split; [reflexivity|]. intros t ->. split; reflexivity. Qed.
  Lemma sound_fail {A} Q : sound (@pfail A) Q.
  Proof. intros l a r E. discriminate. Qed.
  Lemma sound_bind {A B} (p : parser A) (f : A -> parser B) P Q :
    sound p P -> (forall a, sound (f a) (Q a)) ->
    sound (pbind p f) (fun b t => exists a x y, t = x ++ y /\ P a x /\ Q a b y).
  Proof.
    intros SP SF l b r E. unfold pbind in E. destruct (p l) as [[a r']|] eqn:X; [|discriminate].
    destruct (SP _ _ _ X) as (l1 & -> & F1). destruct (SF a _ _ _ E) as (l2 & -> & F2).
    exists (l1 ++ l2)%list. split; [apply app_assoc|]. intros t T.
    destruct (real_app _ _ _ T) as (x & y & -> & A1 & A2). exists a, x, y. split; [reflexivity|]. split; [apply F1, A1|apply F2, A2].
  Qed.
  Lemma sound_or {A} (p q : parser A) P : sound p P -> sound q P -> sound (por p q) P.
  Proof.
    intros SP SQ l a r E. unfold por in E. destruct (p l) as [[b r']|] eqn:X.
    - injection E as -> ->. exact (SP _ _ _ X).
    - exact (SQ _ _ _ E).
  Qed.
  Lemma sound_char f : sound (char_of f) (fun c t => f c = true /\ t = String c "").
  Proof.
    intros l c r E. destruct l as [|[d|p] l]; try discriminate. cbn in E. destruct (f d) eqn:F; [|discriminate].
    injection E as <- <-. exists [C d]. split; [reflexivity|]. intros t (t' & -> & ->). split; [exact F|reflexivity].
  Qed.
  Lemma sound_many f : sound (many_of f) (fun s t => t = s /\ all_chars f s = true).
  Proof.
    intros l s r E. unfold many_of in E. injection E as E. revert s r E. induction l as [|[c|p] l IH]; intros s r E; cbn in E.
    - injection E as <- <-. exists []. split; [reflexivity|]. intros t ->. split; reflexivity.
    - destruct (f c) eqn:F.
      + destruct (span f l) as [s' r'] eqn:G. injection E as <- <-. destruct (IH _ _ eq_refl) as (l1 & -> & X).
        exists (C c :: l1). split; [reflexivity|]. intros t (t' & -> & R). destruct (X _ R) as [-> A].
        split; [reflexivity|]. cbn. rewrite F. exact A.
      + injection E as <- <-. exists []. split; [reflexivity|]. intros t ->. split; reflexivity.
    - injection E as <- <-. exists []. split; [reflexivity|]. intros t ->. split; reflexivity.
  Qed.
  Lemma sound_text s : sound (text s) (fun _ t => t = s).
  Proof.
    induction s as [|c s IH].
    - eapply sound_weaken; [apply sound_ret|]. intros a t [_ E]. exact E.
    - eapply sound_weaken; [apply sound_bind; [apply sound_char|intros ?; exact IH]|].
      intros a t (d & x & y & -> & (E & ->) & Y). rewrite Y. apply Ascii.eqb_eq in E. subst d. reflexivity.
  Qed.
  Lemma sound_any ss : sound (any_text ss) (fun _ t => In t ss).
  Proof.
    induction ss as [|s ss IH]; [apply sound_fail|]. apply sound_or.
    - eapply sound_weaken; [apply sound_text|]. intros ? t ->. left. reflexivity.
    - eapply sound_weaken; [exact IH|]. intros ? t I. right. exact I.
  Qed.
  Lemma sound_repeat {A} n (step : A -> parser A) (I : A -> string -> Prop) :
    (forall a, sound (step a) (fun b t => forall t0, I a t0 -> I b (t0 ++ t))) ->
    forall a, sound (repeat_ n step a) (fun b t => forall t0, I a t0 -> I b (t0 ++ t)).
  Proof.
    intros S. induction n as [|n IH]; intros a; cbn [repeat_].
    - eapply sound_weaken; [apply sound_ret|]. intros b t [-> ->] t0. rewrite app_nil_r_s. exact (fun h => h).
    - apply sound_or.
      + eapply sound_weaken; [apply sound_bind; [apply S|intros b; apply IH]|].
        intros b t (c & x & y & -> & X & Y) t0 T. rewrite <- app_assoc_s. apply Y, X, T.
      + eapply sound_weaken; [apply sound_ret|]. intros b t [-> ->] t0. rewrite app_nil_r_s. exact (fun h => h).
  Qed.
  Lemma sound_skip b : sound (skip b) (fun _ t => gap b t).
  Proof.
    eapply sound_weaken; [apply sound_bind; [apply sound_many|intros; apply sound_ret]|].
    intros ? t (s & x & y & -> & [-> G] & [_ ->]). rewrite app_nil_r_s. exact G.
  Qed.
  Lemma sound_word : sound word (fun w t => t = w /\ wordb w = true).
  Proof.
    eapply sound_weaken.
    { apply sound_bind; [apply sound_char|]. intros c. apply sound_bind; [apply sound_many|]. intros s. apply sound_ret. }
    intros w t (c & x & y & -> & [F ->] & s & x' & y' & -> & [-> G] & [-> ->]). rewrite app_nil_r_s.
    split; [reflexivity|]. cbn. rewrite F. exact G.
  Qed.
  Lemma sound_name : sound a_name (fun w t => t = w /\ name w).
  Proof.
    eapply sound_weaken.
    { apply sound_bind; [apply sound_word|]. intros w.
      instantiate (1 := fun w b t => b = w /\ t = "" /\ ~ In w keywords_of_python).
      destruct (mem_str w keywords_of_python) eqn:M; [apply sound_fail|].
      eapply sound_weaken; [apply sound_ret|]. intros a t [-> ->]. split; [reflexivity|]. split; [reflexivity|]. intros I. apply mem_str_In in I. congruence. }
    intros w t (v & x & y & -> & [-> W] & -> & -> & K). rewrite app_nil_r_s. split; [reflexivity|split; assumption].
  Qed.
  Lemma sound_variable : sound a_variable (fun w t => t = w /\ variable w).
  Proof.
    eapply sound_weaken.
    { apply sound_bind; [apply sound_name|]. intros w.
      instantiate (1 := fun w b t => b = w /\ t = "" /\ ~ In w constants_of_python).
      destruct (mem_str w constants_of_python) eqn:M; [apply sound_fail|].
      eapply sound_weaken; [apply sound_ret|]. intros a t [-> ->]. split; [reflexivity|]. split; [reflexivity|]. intros I. apply mem_str_In in I. congruence. }
    intros w t (v & x & y & -> & [-> W] & -> & -> & K). rewrite app_nil_r_s. split; [reflexivity|split; assumption].
  Qed.
  Lemma sound_digits : sound some_digits (fun _ t => t <> "" /\ digits t).
  Proof.
    eapply sound_weaken.
    { apply sound_bind; [apply sound_char|]. intros c. apply sound_bind; [apply sound_many|]. intros s. apply sound_ret. }
    intros ? t (c & x & y & -> & [F ->] & s & x' & y' & -> & [-> G] & [_ ->]). rewrite app_nil_r_s.
    split; [discriminate|]. unfold digits. cbn. unfold digit in F. rewrite F. exact G.
  Qed.
  Lemma sound_number : sound a_number_ (fun _ t => number t).
  Proof.
    eapply sound_weaken.
    { apply sound_bind; [apply sound_digits|]. intros ?. apply sound_bind; [|intros ?].
      - instantiate (1 := fun _ f => f = "" \/ exists g, f = "." ++ g /\ digits g). apply sound_or.
        + eapply sound_weaken.
          { apply sound_bind; [apply sound_text|]. intros ?. apply sound_bind; [apply sound_many|]. intros s. apply sound_ret. }
          intros ? t (_ & x & y & -> & -> & s & x' & y' & -> & [-> G] & [_ ->]). rewrite app_nil_r_s. right. exists s. split; [reflexivity|exact G].
        + eapply sound_weaken; [apply sound_ret|]. intros ? t [_ ->]. left. reflexivity.
      - instantiate (1 := fun _ _ e => e = "" \/ exists g, g <> "" /\ digits g /\ (e = "e" ++ g \/ e = "e-" ++ g)). apply sound_or.
        + eapply sound_weaken.
          { apply sound_bind; [apply sound_text|]. intros ?.
            instantiate (1 := fun _ _ e => exists g, g <> "" /\ digits g /\ (e = g \/ e = "-" ++ g)). apply sound_or.
            - eapply sound_weaken; [apply sound_bind; [apply sound_text|intros ?; apply sound_digits]|].
              intros ? t (_ & x & y & -> & -> & N & D). exists y. tauto.
            - eapply sound_weaken; [apply sound_digits|]. intros ? t [N D]. exists t. tauto. }
          intros ? t (_ & x & y & -> & -> & g & N & D & [-> | ->]); right; exists g; tauto.
        + eapply sound_weaken; [apply sound_ret|]. intros ? t [_ ->]. left. reflexivity. }
    intros ? t (_ & d & y & -> & [N D] & _ & f & e & -> & F & E). exists d, f, e. tauto.
  Qed.
  Lemma sound_quoted q : In (String q "") ["'"; """"] -> sound (quoted q) (fun _ t => string_literal t).
  Proof.
    intros Q. eapply sound_weaken.
    { apply sound_bind; [apply sound_char|]. intros ?. apply sound_bind; [apply sound_many|]. intros s.
      apply sound_bind; [apply sound_char|]. intros ?. apply sound_ret. }
    intros ? t (c & x & y & -> & [E ->] & s & x' & y' & -> & [-> G] & d & x'' & y'' & -> & [E' ->] & [_ ->]).
    apply Ascii.eqb_eq in E, E'. subst c d. exists (String q ""), s. split; [exact Q|]. split; [|exact G].
    reflexivity.
  Qed.
  Lemma sound_string : sound a_string (fun _ t => string_literal t).
  Proof. apply sound_or; apply sound_quoted; cbn; tauto. Qed.

  (** A generated name is a variable. *)
  Lemma nat_to_str_nonempty m : nat_to_str m <> "".
  Proof.
    unfold nat_to_str. cbn [nat_to_str_aux]. destruct (m <? 10)%nat; [discriminate|].
    assert (X : forall f k acc, acc <> "" -> nat_to_str_aux f k acc <> "").
    { induction f as [|f IH]; intros k acc A; [exact A|]. cbn [nat_to_str_aux]. destruct (k <? 10)%nat; [discriminate|]. apply IH. discriminate. }
    apply X. discriminate.
  Qed.
  Lemma fresh_variable i k : wordb k = true -> variable (snd (unique_name i k)).
  Proof.
    intros W. unfold unique_name. cbn [snd]. unfold join. cbn [String.concat].
    set (m := nat_to_str _). pose proof (nat_to_str_digits _ : all_chars is_digit m = true) as D.
    assert (N : m <> "") by apply nat_to_str_nonempty.
    clearbody m.
    assert (L : exists a c, k ++ "_" ++ m = a ++ String c "" /\ is_digit c = true).
    { clear W. assert (X : exists a c, m = a ++ String c "" /\ is_digit c = true).
      { induction m as [|c m IH]; [contradiction|]. cbn in D. apply Bool.andb_true_iff in D. destruct D as [D1 D2].
        destruct m as [|d m]; [exists "", c; split; [reflexivity|exact D1]|].
        destruct IH as (a & e & E & F); [exact D2|discriminate|]. exists (String c a), e. rewrite E. split; [reflexivity|exact F]. }
      destruct X as (a & c & -> & F). exists (k ++ "_" ++ a), c. rewrite !app_assoc_s. split; [reflexivity|exact F]. }
    assert (O : forall l, (forall w, In w l -> match rev (list_ascii_of_string w) with c :: _ => is_digit c = false | [] => True end) ->
                ~ In (k ++ "_" ++ m) l).
    { intros l F I. apply F in I. destruct L as (a & c & E & G). rewrite E in I.
      assert (Z : forall x, list_ascii_of_string (x ++ String c "") = (list_ascii_of_string x ++ [c])%list).
      { induction x as [|d x IHx]; [reflexivity|]. cbn. rewrite IHx. reflexivity. }
      rewrite Z, rev_app_distr in I. cbn in I. congruence. }
    split; [split|].
    - destruct k as [|c k]; [discriminate|]. cbn in W |- *. apply Bool.andb_true_iff in W. destruct W as [W1 W2].
      rewrite W1, all_chars_app, W2. cbn. change (word_char "_") with true. cbn. clear -D. induction m as [|d m IH]; [reflexivity|]. cbn in *.
      apply Bool.andb_true_iff in D. destruct D as [D1 D2]. rewrite (IH D2), Bool.andb_true_r. unfold word_char.
      unfold is_digit in D1. rewrite D1. apply Bool.orb_true_r.
    - apply O. intros w I. repeat (destruct I as [<-|I]; [reflexivity|]). destruct I.
    - apply O. intros w I. repeat (destruct I as [<-|I]; [reflexivity|]). destruct I.
  Qed.

  Lemma sound_or' {A} (p q : parser A) P Q : sound p P -> sound q Q -> sound (por p q) (fun a t => P a t \/ Q a t).
  Proof. intros SP SQ. apply sound_or; [eapply sound_weaken; [exact SP|]|eapply sound_weaken; [exact SQ|]]; cbv beta; intros; tauto. Qed.

  Definition shaped (s : shape) (t : string) : Prop :=
    primary t /\
    match s with
    | Name (Some w) => t = w /\ variable w
    | Name None => (exists k, fr k t) /\ variable t
    | Place => target operand expression [] t
    | Plain => True
    end.
  Lemma sound_hole : sound (hole joins) shaped.
  Proof.
    intros l s r E. destruct l as [|[c|p] l]; try discriminate. cbn [hole] in E.
    assert (Z : forall p (s0 : shape), (forall q, mp kw recv fr p q -> shaped s0 (render q)) -> Some (s0, l) = Some (s, r) ->
                exists l1, H p :: l = (l1 ++ r)%list /\ forall t, real l1 t -> shaped s t).
    { intros p0 s0 F X. injection X as -> ->. exists [H p0]. split; [reflexivity|]. intros t (q & t' & -> & M & ->).
      rewrite app_nil_r_s. apply F, M. }
    destruct p as [t|k| |k|f x|es]; try discriminate.
    - destruct (joins k) eqn:J; [|discriminate]. refine (Z _ _ _ E). intros q M. destruct M as (v & G & ->). rewrite render_one.
      split; [|exact I]. constructor. apply arguments_operands in G. rewrite J in G. apply G.
    - refine (Z _ _ _ E). intros q M. destruct M as (v & G & ->). rewrite render_one.
      split; [|exact I]. constructor. apply (receiver_operand _ G).
    - destruct (wordb k) eqn:W; [|discriminate].
      refine (Z _ _ _ E). intros q M. destruct M as (n & M & ->). rewrite render_one.
      assert (V : variable n) by (destruct (made _ _ M) as (i & ->); apply fresh_variable, W).
      split; [apply p_name, V|]. split; [exists k; exact M|exact V].
    - destruct f; try discriminate; destruct x as [|[| | | | |] [|]]; try discriminate.
      + destruct (joins k) eqn:J; [|discriminate]. refine (Z _ _ _ E). intros q M. apply mp_edit in M.
        destruct M as (q0 & (r1 & r2 & -> & M & R) & ->). cbn in R. subst r2.
        destruct M as (v & G & ->). rewrite app_nil_r, !render_one. cbn [edit_text content].
        split; [|exact I]. constructor. apply arguments_operands in G. rewrite J in G. destruct G as [-> G]. exact G.
      + refine (Z _ _ _ E). intros q M. apply mp_edit in M.
        destruct M as (q0 & (r1 & r2 & -> & M & R) & ->). cbn in R. subst r2.
        destruct M as (v & G & ->). rewrite app_nil_r, !render_one. cbn [edit_text content].
        split; [|exact I]. constructor. destruct (receiver_operand _ G) as [O U]. rewrite (through_plain _ U). exact O.
  Qed.
  Lemma sound_given : sound (given joins) (fun _ => test).
  Proof.
    intros l u r E. destruct l as [|[c|p] l]; try discriminate. cbn [given] in E.
    destruct p as [t|k| |k|f x|es]; try discriminate.
    - destruct (joins k) eqn:J; [discriminate|]. injection E as <- <-. exists [H (AArg k)]. split; [reflexivity|].
      intros t (q & t' & -> & (v & G & ->) & R). cbn in R. subst t'. rewrite app_nil_r_s, render_one.
      apply arguments_operands in G. rewrite J in G. apply t_given, G.
    - destruct f; try discriminate. destruct x as [|[| | | | |] [|]]; try discriminate.
      destruct (joins k) eqn:J; [discriminate|]. injection E as <- <-. exists [H (AEdit StripSpace [AArg k])]. split; [reflexivity|].
      intros t (q & t' & -> & M & R). cbn in R. subst t'. rewrite app_nil_r_s.
      apply mp_edit in M. destruct M as (q0 & (r1 & r2 & -> & M & R) & ->). cbn in R. subst r2.
      destruct M as (v & G & ->). rewrite app_nil_r, !render_one. cbn [edit_text content].
      apply arguments_operands in G. rewrite J in G. destruct G as [-> G]. apply t_given, G.
  Qed.

  Section Levels.
    Variable sub : kind -> parser unit.
    Variable n : nat.
    Definition meaning (k : kind) : string -> Prop :=
      match k with KTest => test | KNegation => negation | KArith => arith end.
    Hypothesis sub_sound : forall k, sound (sub k) (fun _ => meaning k).

    Lemma sub_test : sound (sub KTest) (fun _ => test). Proof. exact (sub_sound KTest). Qed.
    Lemma sub_negation : sound (sub KNegation) (fun _ => negation). Proof. exact (sub_sound KNegation). Qed.
    Lemma sub_arith : sound (sub KArith) (fun _ => arith). Proof. exact (sub_sound KArith). Qed.
    Ltac go := match goal with
      | |- sound (pret _) _ => apply sound_ret
      | |- sound pfail _ => apply sound_fail
      | |- sound (pbind _ _) _ => eapply sound_bind; [go | intros ?; go]
      | |- sound (por _ _) _ => eapply sound_or'; [go | go]
      | |- sound (sub KTest) _ => apply sub_test
      | |- sound (sub KNegation) _ => apply sub_negation
      | |- sound (sub KArith) _ => apply sub_arith
      | |- sound (char_of _) _ => apply sound_char
      | |- sound (many_of _) _ => apply sound_many
      | |- sound (text _) _ => apply sound_text
      | |- sound (any_text _) _ => apply sound_any
      | |- sound (skip _) _ => apply sound_skip
      | |- sound a_name _ => apply sound_name
      | |- sound a_variable _ => apply sound_variable
      | |- sound a_number_ _ => apply sound_number
      | |- sound a_string _ => apply sound_string
      | |- sound (hole _) _ => apply sound_hole
      | X : sound ?p _ |- sound ?p _ => exact X
      | X : forall _, sound _ _ |- _ => apply X
      end.
    Ltac open := repeat match goal with
      | H : exists _, _ |- _ => destruct H
      | H : _ /\ _ |- _ => destruct H
      | H : _ \/ _ |- _ => destruct H
      | H : ?x = ?x |- _ => clear H
      | H : _ = "" |- _ => subst
      | H : _ = _ :> string |- _ => subst
      | H : _ = _ :> unit |- _ => subst
      end.
    Ltac auto_sound := eapply sound_weaken; [go|]; cbv beta; intros.

    Lemma sound_comma b : sound (comma b) (fun _ t => exists x y, t = x ++ "," ++ y /\ gap b x /\ gap b y).
    Proof. unfold comma. auto_sound. open. eauto. Qed.

    Lemma sound_tests b : sound (tests_ sub n b) (fun _ => tests b).
    Proof.
      pose proof sound_comma as SC. unfold tests_. eapply sound_weaken.
      { eapply sound_bind; [go|intros ?]. apply (sound_repeat n _ (fun _ => tests b)). intros ?. auto_sound. open.
        rewrite !app_assoc_s. apply l_more; assumption. }
      cbv beta. intros ? t (u & x & y & -> & T & R). apply R. constructor. exact T.
    Qed.
    Lemma sound_keyword : sound (keyword_ sub) (fun k t => exists v, t = k ++ "=" ++ v /\ variable k /\ test v).
    Proof. unfold keyword_. auto_sound. open. rewrite app_nil_r_s. eauto. Qed.
    Lemma sound_keywords : sound (keywords_ sub n) (fun ks t => keywords ks t /\ NoDup ks).
    Proof.
      pose proof sound_comma as SC. pose proof sound_keyword as SK.
      unfold keywords_. eapply sound_weaken.
      { eapply sound_bind; [go|intros k]. apply (sound_repeat n _ (fun ks t => keywords ks t /\ NoDup ks)). intros ks.
        eapply sound_weaken.
        { eapply sound_bind; [go|intros ?]. eapply sound_bind; [go|intros k'].
          instantiate (1 := fun k' ks' t => ks' = k' :: ks /\ t = "" /\ ~ In k' ks).
          cbv beta. destruct (mem_str k' ks) eqn:M; [apply sound_fail|].
          eapply sound_weaken; [apply sound_ret|]. intros b t [-> ->]. split; [reflexivity|]. split; [reflexivity|].
          apply mem_str_false, M. }
        cbv beta. intros. open. rewrite !app_assoc_s, app_nil_r_s. split; [|constructor; assumption].
        apply k_more; assumption. }
      cbv beta. intros ? t (u & x & y & -> & (v & -> & V & T) & R). apply R. split; [constructor; assumption|].
      constructor; [intros []|constructor].
    Qed.

    Lemma whole_ok l q : whole sub l = true -> mts kw recv fr l q -> test (render q).
    Proof.
      unfold whole. destruct (sub KTest (flat l)) as [[u r]|] eqn:E; [|discriminate]. destruct r; [|discriminate]. intros _ M.
      destruct (sub_test _ _ _ E) as (l1 & F & T). rewrite app_nil_r in F. apply T. rewrite <- F. apply flat_ok, M.
    Qed.
    Lemma variableb_ok k : variableb k = true -> variable k.
    Proof.
      unfold variableb. destruct (wordb k) eqn:W; [|discriminate]. destruct (mem_str k keywords_of_python) eqn:K; [discriminate|].
      intros N. apply Bool.negb_true_iff in N. apply mem_str_false in K, N. split; [split; assumption|exact N].
    Qed.
    Lemma keywords_more d : forall ks a, keywords ks a -> NoDup (rev (dkeys d) ++ ks) ->
      (forall k v, In (k, v) d -> variable k /\ test (render v)) ->
      exists ks', keywords ks' (a ++ render (match d with [] => [] | _ => MkPiece [] ", " :: join_kwargs d end)) /\ NoDup ks'.
    Proof.
      induction d as [|[k v] d IH]; intros ks a K N F.
      - cbn. rewrite app_nil_r_s. exists ks. split; assumption.
      - cbn [dkeys map fst rev] in N. rewrite <- app_assoc in N. cbn [app] in N.
        destruct (F k v) as [V T]; [left; reflexivity|].
        destruct (IH (k :: ks) (a ++ "" ++ "," ++ " " ++ k ++ "=" ++ render v)) as (ks' & K' & N').
        + apply k_more; try assumption; reflexivity.
        + exact N.
        + intros k' v' I. apply F. right. exact I.
        + exists ks'. split; [|exact N']. revert K'. cbn [join_kwargs]. cbn [render content]. rewrite render_app.
          cbn. rewrite !app_assoc_s. cbn. rewrite ?app_assoc_s. exact (fun z => z).
    Qed.
    Lemma joined_real d : NoDup (dkeys d) -> (forall k v, In (k, v) d -> variable k /\ test (render v)) ->
      render (join_kwargs d) = "" \/ exists ks, keywords ks (render (join_kwargs d)) /\ NoDup ks.
    Proof.
      destruct d as [|[k v] d]; intros N F; [left; reflexivity|]. right.
      destruct (F k v) as [V T]; [left; reflexivity|].
      destruct (keywords_more d [k] (k ++ "=" ++ render v)) as (ks & K & N').
      - constructor; assumption.
      - cbn in N. apply NoDup_cons_iff in N. destruct N as [N1 N2]. apply (Permutation.Permutation_NoDup (l := k :: dkeys d)).
        + rewrite Permutation.Permutation_app_comm. cbn. constructor. apply Permutation.Permutation_rev.
        + constructor; assumption.
      - intros k' v' I. apply F. right. exact I.
      - exists ks. split; [|exact N']. cbn [join_kwargs]. cbn [render content]. rewrite render_app.
        revert K. rewrite !app_assoc_s. exact (fun z => z).
    Qed.
    Lemma sound_joined : sound (joined sub gone) (fun _ t => t = "" \/ exists ks, keywords ks t /\ NoDup ks).
    Proof.
      intros l u r E. destruct l as [|[c|p] l]; try discriminate. destruct p as [t|k| |k|f x|es]; try discriminate.
      cbn [joined] in E. match type of E with (if ?b then _ else _) = _ => destruct b eqn:F end; [|discriminate]. injection E as <- <-.
      exists [H (AJoin es)]. split; [reflexivity|]. intros t (q & t' & -> & M & R). cbn in R. subst t'. rewrite app_nil_r_s.
      apply mp_join in M. destruct M as (d & (N & K & O) & ->). apply joined_real; [exact N|]. intros k v I.
      assert (IK : In k (dkeys d)) by (apply in_map_iff; exists (k, v); split; [reflexivity|exact I]).
      apply K, in_map_iff in IK. destruct IK as (en & <- & IE). rewrite forallb_forall in F. specialize (F _ IE).
      specialize (O _ IE). unfold entry_ok in O.
      rewrite (dget_in_nodup _ String.eqb_spec (fst en) v d N I) in O. destruct O as [O1 O2].
      destruct (gone (fst (snd en))) eqn:G; [apply absent in G; congruence|].
      destruct (variableb (fst en)) eqn:V; [|discriminate]. split; [apply variableb_ok, V|apply (whole_ok _ _ F O2)].
    Qed.

    Lemma sound_no_equals : sound no_equals (fun _ t => t = "").
    Proof.
      intros l u r E. exists []. cbn. split; [|auto]. destruct l as [|[c|p] l]; cbn in E; try congruence.
      destruct (Ascii.eqb c "="); congruence.
    Qed.
    Lemma sound_positional : sound (positional_ sub n) (fun _ => tests true).
    Proof.
      pose proof sound_comma as SC. pose proof sound_no_equals as SE. unfold positional_. eapply sound_weaken.
      { eapply sound_bind; [go|intros ?]. eapply sound_bind; [go|intros ?].
        apply (sound_repeat n _ (fun _ => tests true)). intros ?. auto_sound. open.
        rewrite !app_assoc_s, app_nil_r_s. apply l_more; assumption. }
      cbv beta. intros ? t (u & x & y & -> & T & v & x' & y' & -> & -> & R). apply R. constructor. exact T.
    Qed.
    Lemma sound_arguments : sound (arguments_ sub n gone)
      (fun _ t => exists l y, t = l ++ y /\ arguments l /\ gap true y).
    Proof.
      pose proof sound_comma as SC. pose proof sound_positional as SP. pose proof sound_joined as SJ.
      pose proof sound_keywords as SK. unfold arguments_. auto_sound. open; cbn [append]; rewrite ?app_nil_r_s, ?app_assoc_s; cbn [append].
      all: try (eexists; exists ""; rewrite app_nil_r_s; split; [reflexivity|]; split; [|reflexivity];
                solve [ eapply r_both; eassumption | apply r_positional; assumption
                      | apply r_trailing_comma; assumption | eapply r_keywords; eassumption | apply r_none]).
      match goal with |- exists l y, ?a ++ ?x ++ String "," ?z = _ /\ _ => exists (a ++ x ++ ","), z end.
      split; [rewrite !app_assoc_s; reflexivity|]. split; [apply r_trailing_comma|]; assumption.
    Qed.
    Lemma sound_subscript : sound (subscript_ sub) (fun _ => subscript).
    Proof.
      unfold subscript_. auto_sound. open; cbn [append]; rewrite ?app_nil_r_s.
      - apply s_to. assumption.
      - apply s_all.
      - apply s_range; assumption.
      - apply s_from; assumption.
      - apply s_index; assumption.
    Qed.
    Lemma sound_group : sound (group_ sub n) (fun _ => primary).
    Proof. pose proof sound_tests as ST. unfold group_. auto_sound. open. apply p_group; assumption. Qed.
    Lemma sound_list : sound (list_ sub n) (fun _ => primary).
    Proof.
      pose proof sound_tests as ST. unfold list_. auto_sound. open.
      - apply p_empty_list.
      - apply p_comprehension; assumption.
      - apply p_list; assumption.
    Qed.
    Lemma sound_atom : sound (atom sub n joins) shaped.
    Proof.
      pose proof sound_group as SG. pose proof sound_list as SL. unfold atom. auto_sound.
      destruct H as [S|[X|X]]; [exact S| |].
      - destruct X as (w & x & y & -> & [-> W] & -> & ->). rewrite app_nil_r_s. split; [apply p_name, W|].
        destruct (mem_str w constants_of_python) eqn:M; [exact I|]. split; [reflexivity|]. split; [exact W|]. apply mem_str_false, M.
      - open; rewrite app_nil_r_s; (split; [|exact I]); try assumption. apply p_string; assumption.
    Qed.
    Lemma sound_trailer : sound (trailer sub n gone) (fun s t => forall t0, primary t0 -> shaped s (t0 ++ t)).
    Proof.
      pose proof sound_arguments as SA. pose proof sound_subscript as SS. unfold trailer. auto_sound. open; subst; rewrite ?app_nil_r_s.
      - split; [apply p_attribute; assumption|apply t_attribute; assumption].
      - split; [|exact I]. match goal with |- primary (?f ++ "(" ++ ?x ++ (?l ++ ?y) ++ ?z ++ ")") =>
          replace (f ++ "(" ++ x ++ (l ++ y) ++ z ++ ")") with (f ++ "(" ++ x ++ l ++ (y ++ z) ++ ")") by (rewrite !app_assoc_s; reflexivity) end.
        apply p_call; try assumption. apply gap_app; assumption.
      - split; [apply p_item; assumption|apply t_item; assumption].
    Qed.
    Lemma sound_primary : sound (primary_ sub n gone joins) shaped.
    Proof.
      unfold primary_. eapply sound_weaken.
      { eapply sound_bind; [apply sound_atom|]. intros s. apply (sound_repeat n (fun _ => trailer sub n gone) shaped).
        intros a. eapply sound_weaken; [apply sound_trailer|]. cbv beta. intros b t F t0 S. apply F, S. }
      cbv beta. intros s t (s0 & x & y & -> & S & R). apply R, S.
    Qed.
    Lemma sound_arith1 : sound (arith1 sub n gone joins) (fun _ => arith).
    Proof.
      pose proof sound_primary as SP. unfold arith1. auto_sound. open; rewrite ?app_nil_r_s.
      - apply a_primary. match goal with X : shaped _ _ |- _ => apply X end.
      - apply a_number; assumption.
      - apply a_minus; assumption.
    Qed.
    Lemma sound_arith : sound (arith_ sub n gone joins) (fun _ => arith).
    Proof.
      pose proof sound_arith1 as SA. unfold arith_. eapply sound_weaken.
      { eapply sound_bind; [go|intros ?]. apply (sound_repeat n _ (fun _ => arith)). intros ?. auto_sound. open.
        apply a_binary; try assumption. unfold operators. cbn in *. tauto. }
      cbv beta. intros ? t (u & x & y & -> & T & R). apply R, T.
    Qed.
    Lemma sound_condition : sound (condition_ sub n gone joins) (fun _ => condition).
    Proof.
      pose proof sound_arith as SA. unfold condition_. eapply sound_weaken.
      { eapply sound_bind; [go|intros ?]. apply (sound_repeat n _ (fun _ => condition)). intros ?. auto_sound.
        match goal with X : _ \/ _ |- _ => destruct X as [X|X] end; open.
        - apply c_compare; assumption.
        - apply c_compare_word; assumption. }
      cbv beta. intros ? t (u & x & y & -> & T & R). apply R, c_arith, T.
    Qed.
    Lemma sound_negation : sound (negation_ sub n gone joins) (fun _ => negation).
    Proof.
      pose proof sound_condition as SC. unfold negation_. auto_sound. open.
      - apply n_not; assumption.
      - apply n_condition; assumption.
    Qed.
    Lemma sound_test : sound (test_ sub n gone joins) (fun _ => test).
    Proof.
      pose proof sound_negation as SN. pose proof sound_given as SG. unfold test_. auto_sound. open; rewrite ?app_nil_r_s.
      - apply t_choice; assumption.
      - apply t_negation; assumption.
      - assumption.
    Qed.
    Definition bound (b : list (option string)) (ns : list string) : Prop :=
      Forall2 (fun o x => match o with Some w => x = w | None => exists k, fr k x end) b ns.
    Lemma sound_target : sound (target_ sub n gone joins) (fun b t => exists ns, bound b ns /\ target operand expression ns t).
    Proof.
      unfold target_. eapply sound_weaken.
      { eapply sound_bind; [apply sound_primary|]. intros s.
        instantiate (1 := fun s b t => t = "" /\ match s with Name w => b = [w] | Place => b = [] | Plain => False end).
        destruct s as [w| |]; [| |apply sound_fail]; (eapply sound_weaken; [apply sound_ret|]); intros b t [-> ->]; split; reflexivity. }
      cbv beta. intros b t (s & x & y & -> & S & -> & B). rewrite app_nil_r_s. destruct S as [_ S].
      destruct s as [[w|]| |]; [| | |contradiction]; subst b.
      - destruct S as [-> V]. exists [w]. split; [repeat constructor|constructor; exact V].
      - destruct S as [G V]. exists [x]. split; [constructor; [exact G|constructor]|constructor; exact V].
      - exists []. split; [constructor|exact S].
    Qed.
    Lemma sound_targets : sound (targets_ sub n gone joins) (fun b t => exists ns, bound b ns /\ targets operand expression ns t).
    Proof.
      pose proof sound_target as ST. pose proof sound_comma as SC. unfold targets_. eapply sound_weaken.
      { eapply sound_bind; [go|intros b]. apply (sound_repeat n _ (fun b t => exists ns, bound b ns /\ targets operand expression ns t)).
        intros b'. auto_sound. open. subst. rewrite app_nil_r_s, !app_assoc_s.
        eexists. split; [|apply ts_more; eassumption]. apply Forall2_app; assumption. }
      cbv beta. intros ? t (b & x & y & -> & (ns & B & T) & R). apply R. exists ns. split; [exact B|constructor; exact T].
    Qed.
    Lemma sound_simple : sound (simple_ sub n gone joins) (fun b t => exists ns, bound b ns /\ simple operand expression ns t).
    Proof.
      pose proof sound_targets as ST. pose proof sound_tests as SS. unfold simple_. auto_sound. open; subst; rewrite ?app_nil_r_s.
      - eexists. split; [|rewrite !app_assoc_s; apply s_import_as; eassumption]. repeat constructor.
      - eexists. split; [|apply s_import; eassumption]. repeat constructor.
      - exists []. split; [constructor|]. apply s_assert; assumption.
      - eexists. split; [eassumption|]. apply s_assign; assumption.
      - exists []. split; [constructor|]. apply s_value; assumption.
    Qed.
    Lemma sound_statement : sound (statement_ sub n gone joins) (fun b t => exists ns, bound b ns /\ statement operand expression ns t).
    Proof.
      pose proof sound_simple as SS. unfold statement_. auto_sound. open; subst; rewrite ?app_nil_r_s.
      - eexists. split; [eassumption|]. apply s_if; assumption.
      - eexists. split; [constructor; [reflexivity|eassumption]|]. apply s_for; assumption.
      - eexists. split; [eassumption|]. apply s_simple; assumption.
    Qed.
  End Levels.

  Lemma sound_level n : forall k, sound (level gone joins n k) (fun _ => meaning k).
  Proof.
    induction n as [|n IH]; intros k; [apply sound_fail|]. destruct k; cbn [level meaning].
    - apply sound_test, IH.
    - apply sound_negation, IH.
    - apply sound_arith, IH.
  Qed.
  Lemma sound_program m n : sound (program_ gone joins m n) (fun b t => exists ns, bound b ns /\ program operand expression ns t).
  Proof.
    induction m as [|m IH]; [apply sound_fail|]. cbn [program_].
    pose proof (sound_statement _ n (sound_level n)) as SS. pose proof (sound_tests _ n (sound_level n) false) as ST.
    eapply sound_weaken.
    { eapply sound_or'; [|eapply sound_or'].
      - eapply sound_bind; [apply sound_text|intros ?; exact IH].
      - eapply sound_bind; [exact SS|intros b]. eapply sound_bind; [apply sound_text|intros ?].
        eapply sound_bind; [exact IH|intros c; apply sound_ret].
      - eapply sound_bind; [exact ST|intros ?]. eapply sound_bind; [|intros ?; apply sound_ret].
        apply (sound_repeat n _ (fun _ t => program operand expression [] t)). intros ?. eapply sound_weaken; [apply sound_text|].
        cbv beta. intros ? t -> t0 P. apply g_end, P. }
    cbv beta. intros b t [X|[X|X]].
    - destruct X as (u & x & y & -> & -> & ns & B & P). exists ns. split; [exact B|apply g_blank, P].
    - destruct X as (b0 & x & y & -> & (ns & B & S) & u & x' & y' & -> & -> & c & x'' & y'' & -> & (ms & B' & P) & -> & ->).
      rewrite app_nil_r_s. exists (ns ++ ms)%list. split; [apply Forall2_app; assumption|apply g_statement; assumption].
    - destruct X as (u & x & y & -> & T & u' & x' & y' & -> & R & -> & ->). rewrite app_nil_r_s. exists []. split; [constructor|].
      apply R, g_value, T.
  Qed.
  Theorem bound_names_ok a b q : bound_names gone joins a = Some b -> mts kw recv fr a q ->
    exists ns, bound b ns /\ program operand expression ns (render q).
  Proof.
    unfold bound_names. destruct (program_ gone joins 20 20 (flat a)) as [[b' r]|] eqn:E; [|discriminate]. destruct r; [|discriminate].
    intros X M. injection X as ->. destruct (sound_program 20 20 _ _ _ E) as (l1 & F & T). rewrite app_nil_r in F. apply T.
    rewrite <- F. apply flat_ok, M.
  Qed.
End Sound.

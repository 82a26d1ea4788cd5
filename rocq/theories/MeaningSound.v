(** What the parser of MeaningCheck.v reads is a reading in the sense of MeaningSpec.v. *)
From Coq Require Import Lia.
From Verif Require Import PyStr PyDict PyDictFacts PyStrFacts UtilsFile RegistryFacts Args ArgsSpec
  Generate GenerateSym GenerateRel GenerateSpec GenerateCheck GenerateMarks Grammar GrammarCheck GrammarSound
  MeaningSpec MeaningCheck.

Scheme sexp_mut := Induction for sexp Sort Prop
  with sargs_mut := Induction for sargs Sort Prop
  with sents_mut := Induction for sents Sort Prop.
Combined Scheme sexp_induction from sexp_mut, sargs_mut, sents_mut.

Lemma distinct_NoDup l : distinct l = true -> NoDup l.
Proof.
  induction l as [|x l IH]; intros D; [constructor|]. cbn in D. apply Bool.andb_true_iff in D. destruct D as [D1 D2].
  constructor; [|apply IH, D2]. intros I. apply mem_str_In in I. rewrite I in D1. discriminate.
Qed.

Section Sound.
  Variables (kw : dict string string) (recv : option string) (fr : string -> string -> Prop) (operand expression : string -> Prop).
  Hypothesis made : forall k n, fr k n -> exists i, n = snd (unique_name i k).
  Variable gone : option string -> bool.
  Variable joins : string -> bool.
  Hypothesis absent : forall g, gone g = true -> on kw g = false.
  Hypothesis arguments_operands : forall k v, dget String.eqb k kw = Some v ->
    py_strip v = v /\ (if joins k then operand v else expression v).
  Hypothesis receiver_operand : forall v, recv = Some v -> operand v /\ undisturbed v.
  Notation reads := (reads operand expression). Notation items := (items operand expression).
  Notation sound := (sound kw recv fr). Notation real := (real kw recv fr).

  (** ** Instances of symbolic expressions *)
  Fixpoint inst (e : sexp) (p : pexp) : Prop :=
    match e with
    | EArg k => exists v, dget String.eqb k kw = Some v /\ p = Given v
    | ERecv => exists v, recv = Some v /\ p = Given v
    | EWord w => p = Word w
    | ENum s => p = Number s
    | EQuote s => p = Quoted s
    | EMinus e => exists a, p = Minus a /\ inst e a
    | ENot e => exists a, p = Not a /\ inst e a
    | EBin o e f => exists a b, p = Binary o a b /\ inst e a /\ inst f b
    | EMember e x => exists a, p = Member a x /\ inst e a
    | EIndex e f => exists a b, p = Index a b /\ inst e a /\ inst f b
    | EList l => exists ps, p = Listed ps /\ inst_args l ps []
    | ECall f l => exists a ps ks, p = Apply a ps ks /\ inst f a /\ inst_args l ps ks
    end
  with inst_args (l : sargs) (ps : list pexp) (ks : list (string * pexp)) : Prop :=
    match l with
    | ANil => ps = [] /\ ks = []
    | APos e r => exists p ps', ps = p :: ps' /\ inst e p /\ inst_args r ps' ks
    | AKey k e r => exists p ks', ps = [] /\ ks = (k, p) :: ks' /\ inst e p /\ inst_args r [] ks'
    | AJn es => ps = [] /\ NoDup (map fst ks) /\ (forall k, In k (map fst ks) -> In k (ent_keys es)) /\ inst_entries es ks
    end
  with inst_entries (es : sents) (ks : list (string * pexp)) : Prop :=
    match es with
    | SNil => True
    | SCons k g e r =>
        match dget String.eqb k ks with
        | Some p => on kw g = true /\ inst e p
        | None => on kw g = false
        end /\ inst_entries r ks
    end.

  Lemma reads_le n m s p : n <= m -> reads m s p -> reads n s p.
  Proof. intros L R. induction L as [|m L IH]; [exact R|]. apply IH. constructor. exact R. Qed.
  Lemma inst_positional l : no_positional l = true -> forall ps ks, inst_args l ps ks -> ps = [].
  Proof.
    induction l as [|e r IH|k e r IH|es]; intros N ps ks I; try discriminate.
    - apply I.
    - destruct I as (p & ks' & -> & _). reflexivity.
    - apply I.
  Qed.
  Lemma inst_only_positional l : only_positional l = true -> forall ps ks, inst_args l ps ks -> ks = [].
  Proof.
    induction l as [|e r IH|k e r IH|es]; intros N ps ks I; try discriminate.
    - apply I.
    - destruct I as (p & ps' & -> & _ & I). exact (IH N _ _ I).
  Qed.
  Lemma inst_keys l : forall ps ks, inst_args l ps ks -> forall k, In k (map fst ks) -> In k (arg_keys l).
  Proof.
    induction l as [|e r IH|k e r IH|es]; intros ps ks I j J; cbn [arg_keys].
    - destruct I as [_ ->]. destruct J.
    - destruct I as (p & ps' & -> & _ & I). exact (IH _ _ I _ J).
    - destruct I as (p & ks' & -> & -> & _ & I). destruct J as [<-|J]; [left; reflexivity|right; exact (IH _ _ I _ J)].
    - destruct I as (_ & _ & F & _). apply F, J.
  Qed.
  Lemma inst_nodup l : distinct (arg_keys l) = true -> forall ps ks, inst_args l ps ks -> NoDup (map fst ks).
  Proof.
    induction l as [|e r IH|k e r IH|es]; intros N ps ks I; cbn [arg_keys] in N.
    - destruct I as [_ ->]. constructor.
    - destruct I as (p & ps' & -> & _ & I). exact (IH N _ _ I).
    - destruct I as (p & ks' & -> & -> & _ & I). cbn in N. apply Bool.andb_true_iff in N. destruct N as [N1 N2].
      cbn. constructor; [|exact (IH N2 _ _ I)]. intros J. apply (inst_keys _ _ _ I) in J. apply mem_str_In in J.
      rewrite J in N1. discriminate.
    - apply I.
  Qed.

  Definition at_level (n : nat) (e : sexp) (t : string) : Prop := exists p, reads n t p /\ inst e p.
  Definition as_items (l : sargs) (t : string) : Prop := exists ps ks, items t ps ks /\ inst_args l ps ks.
  Lemma level_le n m e t : n <= m -> at_level m e t -> at_level n e t.
  Proof. intros L (p & R & I). exists p. split; [exact (reads_le _ _ _ _ L R)|exact I]. Qed.

  Lemma one_hole p0 l e r (E : sexp) n :
    (forall q, mp kw recv fr p0 q -> at_level n e (render q)) -> Some (e, l) = Some (E, r) ->
    exists l1, H p0 :: l = (l1 ++ r)%list /\ forall t, real l1 t -> at_level n E t.
  Proof.
    intros F X. injection X as -> ->. exists [H p0]. split; [reflexivity|]. intros t (q & t' & -> & M & ->).
    rewrite app_nil_r_s. apply F, M.
  Qed.
  Lemma sound_tight : sound (tight_hole joins) (at_level 5).
  Proof.
    intros l s r E. destruct l as [|[c|p] l]; try discriminate. cbn [tight_hole] in E.
    destruct p as [t|k| |k|f x|es]; try discriminate.
    - destruct (joins k) eqn:J; [|discriminate]. refine (one_hole _ _ _ _ _ _ _ E). intros q M. destruct M as (v & G & ->).
      rewrite render_one. exists (Given v). split; [|exists v; tauto]. constructor. apply arguments_operands in G. rewrite J in G. apply G.
    - refine (one_hole _ _ _ _ _ _ _ E). intros q M. destruct M as (v & G & ->). rewrite render_one.
      exists (Given v). split; [|exists v; tauto]. constructor. apply (receiver_operand _ G).
    - destruct f; try discriminate; destruct x as [|[| | | | |] [|]]; try discriminate.
      + destruct (joins k) eqn:J; [|discriminate]. refine (one_hole _ _ _ _ _ _ _ E). intros q M. apply mp_edit in M.
        destruct M as (q0 & (r1 & r2 & -> & M & R) & ->). cbn in R. subst r2.
        destruct M as (v & G & ->). rewrite app_nil_r, !render_one. cbn [edit_text content].
        pose proof (arguments_operands _ _ G) as A. rewrite J in A. destruct A as [-> A].
        exists (Given v). split; [constructor; exact A|exists v; tauto].
      + refine (one_hole _ _ _ _ _ _ _ E). intros q M. apply mp_edit in M.
        destruct M as (q0 & (r1 & r2 & -> & M & R) & ->). cbn in R. subst r2.
        destruct M as (v & G & ->). rewrite app_nil_r, !render_one. cbn [edit_text content].
        destruct (receiver_operand _ G) as [O U]. rewrite (through_plain _ U).
        exists (Given v). split; [constructor; exact O|exists v; tauto].
  Qed.
  Lemma sound_any_hole : sound (any_hole joins) (at_level 0).
  Proof.
    intros l s r E. destruct l as [|[c|p] l]; try discriminate. cbn [any_hole] in E.
    destruct p as [t|k| |k|f x|es]; try discriminate.
    - destruct (joins k) eqn:J; [discriminate|]. refine (one_hole _ _ _ _ _ _ _ E). intros q M. destruct M as (v & G & ->).
      rewrite render_one. exists (Given v). split; [|exists v; tauto]. apply r_expression. apply arguments_operands in G. rewrite J in G. apply G.
    - destruct f; try discriminate. destruct x as [|[| | | | |] [|]]; try discriminate.
      destruct (joins k) eqn:J; [discriminate|]. refine (one_hole _ _ _ _ _ _ _ E). intros q M. apply mp_edit in M.
      destruct M as (q0 & (r1 & r2 & -> & M & R) & ->). cbn in R. subst r2.
      destruct M as (v & G & ->). rewrite app_nil_r, !render_one. cbn [edit_text content].
      pose proof (arguments_operands _ _ G) as A. rewrite J in A. destruct A as [-> A].
      exists (Given v). split; [apply r_expression; exact A|exists v; tauto].
  Qed.

  Section Levels.
    Variable sub : grade -> parser sexp.
    Variable n : nat.
    Definition grade_level (k : grade) : nat := match k with GTest => 0 | GUnary => 3 end.
    Hypothesis sub_sound : forall k, sound (sub k) (at_level (grade_level k)).
    Lemma sub_test : sound (sub GTest) (at_level 0). Proof. exact (sub_sound GTest). Qed.
    Lemma sub_unary : sound (sub GUnary) (at_level 3). Proof. exact (sub_sound GUnary). Qed.

    (** The dictionary of arguments, printed in any order. *)
    Fixpoint dict_of (x : sents) : list (string * (option string * sexp)) :=
      match x with SNil => [] | SCons k g e r => (k, (g, e)) :: dict_of r end.
    (** Every entry of [x] comes from an entry of [es]. *)
    Lemma entries_from es : forall x, entries sub gone es = Some x ->
      (forall k g e, In (k, (g, e)) (dict_of x) -> variable k /\ exists l, In (k, (g, l)) es /\ sub GTest (flat l) = Some (e, [])) /\
      (forall k g l, In (k, (g, l)) es -> gone g = false -> exists e, In (k, (g, e)) (dict_of x)).
    Proof.
      induction es as [|[k [g l]] es IH]; intros x E; cbn [entries] in E.
      - injection E as <-. split; [intros ? ? ? []|intros ? ? ? []].
      - destruct (gone g) eqn:G.
        + destruct (IH _ E) as [A B]. split.
          * intros j h e I. destruct (A _ _ _ I) as (V & l' & I' & S). split; [exact V|]. exists l'. split; [right; exact I'|exact S].
          * intros j h l' [X|I] F; [injection X as -> -> ->; congruence|exact (B _ _ _ I F)].
        + destruct (variableb k) eqn:V; [|discriminate]. destruct (sub GTest (flat l)) as [[e [|]]|] eqn:S; try discriminate.
          destruct (entries sub gone es) as [y|] eqn:Y; [|discriminate]. injection E as <-. destruct (IH _ eq_refl) as [A B].
          split.
          * intros j h e' [X|I].
            -- injection X as -> -> ->. split; [apply variableb_ok, V|exists l; split; [left; reflexivity|exact S]].
            -- destruct (A _ _ _ I) as (V' & l' & I' & S'). split; [exact V'|]. exists l'. split; [right; exact I'|exact S'].
          * intros j h l' [X|I] F.
            -- injection X as -> -> ->. exists e. left. reflexivity.
            -- destruct (B _ _ _ I F) as [e' I']. exists e'. right. exact I'.
    Qed.
    Lemma ent_keys_dict x : ent_keys x = map fst (dict_of x).
    Proof. induction x as [|k g e r IH]; [reflexivity|]. cbn. rewrite IH. reflexivity. Qed.
    Lemma inst_entries_intro x ks :
      (forall k g e, In (k, (g, e)) (dict_of x) ->
         match dget String.eqb k ks with Some p => on kw g = true /\ inst e p | None => on kw g = false end) ->
      inst_entries x ks.
    Proof.
      induction x as [|k g e r IH]; intros F; [exact I|]. cbn [inst_entries]. split.
      - apply F. left. reflexivity.
      - apply IH. intros j h f J. apply F. right. exact J.
    Qed.
    Definition some_items (l : sargs) (t : string) : Prop := distinct (arg_keys l) = true -> as_items l t.
    Lemma distinct_dict x k g e g' e' : distinct (ent_keys x) = true ->
      In (k, (g, e)) (dict_of x) -> In (k, (g', e')) (dict_of x) -> g = g' /\ e = e'.
    Proof.
      rewrite ent_keys_dict. intros D A B. apply distinct_NoDup in D.
      pose proof (dget_in_nodup _ String.eqb_spec _ _ _ D A) as A'. pose proof (dget_in_nodup _ String.eqb_spec _ _ _ D B) as B'.
      rewrite A' in B'. injection B' as -> ->. split; reflexivity.
    Qed.
    Lemma join_reads d x : (forall k v, In (k, v) d -> variable k /\ exists p, reads 0 (render v) p /\ forall g e, In (k, (g, e)) (dict_of x) -> inst e p) ->
      exists ks, items (render (join_kwargs d)) [] ks /\ map fst ks = dkeys d /\
        forall k p, In (k, p) ks -> forall g e, In (k, (g, e)) (dict_of x) -> inst e p.
    Proof.
      induction d as [|[k v] d IH]; intros F.
      - exists []. split; [constructor|]. split; [reflexivity|intros ? ? []].
      - destruct IH as (ks & I & K & X). { intros k' v' J. apply F. right. exact J. }
        destruct (F k v (or_introl eq_refl)) as (VK & p & R & XP). exists ((k, p) :: ks). split; [|split].
        + cbn [join_kwargs]. cbn [render content]. destruct d as [|kv d].
          * destruct ks; [|discriminate]. rewrite render_app. cbn [render].
            pose proof (i_last_keyword operand expression k (render v) p "" VK R eq_refl) as Z. rewrite app_assoc_s. exact Z.
          * pose proof (i_next_keyword operand expression k (render v) p "" " " _ ks VK R eq_refl eq_refl I) as Z.
            rewrite render_app. cbn [render content]. cbn [append] in Z. rewrite !app_assoc_s. exact Z.
        + cbn. rewrite K. reflexivity.
        + intros k' p' [J|J]; [injection J as <- <-; exact XP|exact (X _ _ J)].
    Qed.
    Lemma sound_joined : sound (joined_ sub gone) some_items.
    Proof.
      intros l a r E. destruct l as [|[c|p] l]; try discriminate. destruct p as [| | | | |es]; try discriminate.
      cbn [joined_] in E. destruct (entries sub gone es) as [x|] eqn:X; [|discriminate]. injection E as <- <-.
      exists [H (AJoin es)]. split; [reflexivity|]. intros t (q & t' & -> & M & R) D. cbn in R. subst t'. rewrite app_nil_r_s.
      cbn [arg_keys] in D.
      apply mp_join in M. destruct M as (d & (ND & KS & EN) & ->).
      destruct (entries_from _ _ X) as [A B].
      assert (IN : forall k v, In (k, v) d -> exists g l e, In (k, (g, l)) es /\ on kw g = true /\ mts kw recv fr l v /\ In (k, (g, e)) (dict_of x)).
      { intros k v I. assert (IK : In k (dkeys d)) by (apply in_map_iff; exists (k, v); split; [reflexivity|exact I]).
        apply KS, in_map_iff in IK. destruct IK as ((k' & g & l') & Y & IE). cbn in Y. subst k'.
        pose proof (EN _ IE) as O. unfold entry_ok in O. cbn [fst snd] in O.
        rewrite (dget_in_nodup _ String.eqb_spec _ _ _ ND I) in O. destruct O as [O1 O2].
        destruct (gone g) eqn:G; [apply absent in G; congruence|]. destruct (B _ _ _ IE G) as [e IX].
        exists g, l', e. tauto. }
      destruct (join_reads d x) as (ks & I & K & XI).
      { intros k v I. destruct (IN _ _ I) as (g & _ & e & _ & _ & _ & IX).
        destruct (A _ _ _ IX) as (VK & l' & IE & S). split; [exact VK|].
        pose proof (EN _ IE) as O. unfold entry_ok in O. cbn [fst snd] in O.
        rewrite (dget_in_nodup _ String.eqb_spec _ _ _ ND I) in O. destruct O as [O1 O2].
        destruct (sub_test _ _ _ S) as (l1 & F & T). rewrite app_nil_r in F. subst l1.
        destruct (T _ (flat_ok kw recv fr _ _ O2)) as (p & RP & IP). exists p. split; [exact RP|].
        intros g' e' IX'. destruct (distinct_dict _ _ _ _ _ _ D IX IX') as [_ <-]. exact IP. }
      exists [], ks. split; [exact I|]. cbn [inst_args]. split; [reflexivity|]. split; [rewrite K; exact ND|]. split.
      - rewrite K. intros k J. apply in_map_iff in J. destruct J as ((k' & v) & Y & J). cbn in Y. subst k'.
        destruct (IN _ _ J) as (g & _ & e & _ & _ & _ & IX). rewrite ent_keys_dict. apply in_map_iff. exists (k, (g, e)). tauto.
      - apply inst_entries_intro. intros k g e IX. destruct (A _ _ _ IX) as (_ & l' & IE & _).
        pose proof (EN _ IE) as O. unfold entry_ok in O. cbn [fst snd] in O.
        destruct (dget String.eqb k ks) as [p|] eqn:G.
        + apply (dget_some_in _ String.eqb_spec) in G. split; [|exact (XI _ _ G _ _ IX)].
          destruct (dget String.eqb k d) as [v|] eqn:GD; [apply O|]. exfalso.
          apply (dget_none_iff _ String.eqb_spec) in GD. apply GD. fold (dkeys d). rewrite <- K. apply in_map_iff. exists (k, p). split; [reflexivity|exact G].
        + destruct (dget String.eqb k d) as [v|] eqn:GD; [|exact O]. exfalso. apply (dget_none_iff _ String.eqb_spec) in G. apply G.
          unfold dkeys. rewrite K. apply (dget_some_in _ String.eqb_spec) in GD. apply in_map_iff. exists (k, v). split; [reflexivity|exact GD].
    Qed.

    Ltac go := match goal with
      | |- sound (pret _) _ => apply sound_ret
      | |- sound pfail _ => apply sound_fail
      | |- sound (pbind _ _) _ => eapply sound_bind; [go | intros ?; go]
      | |- sound (por _ _) _ => eapply sound_or'; [go | go]
      | |- sound (sub GTest) _ => apply sub_test
      | |- sound (sub GUnary) _ => apply sub_unary
      | |- sound (char_of _) _ => apply sound_char
      | |- sound (many_of _) _ => apply sound_many
      | |- sound (text _) _ => apply sound_text
      | |- sound (skip _) _ => apply sound_skip
      | |- sound a_name _ => apply sound_name
      | |- sound a_variable _ => apply sound_variable
      | |- sound no_equals _ => apply sound_no_equals
      | |- sound (tight_hole _) _ => apply sound_tight
      | |- sound (any_hole _) _ => apply sound_any_hole
      | |- sound (joined_ _ _) _ => apply sound_joined
      | X : sound ?p _ |- sound ?p _ => exact X
      | X : forall _, sound _ _ |- _ => apply X
      end.
    Ltac open := repeat match goal with
      | H : exists _, _ |- _ => destruct H
      | H : _ /\ _ |- _ => destruct H
      | H : _ \/ _ |- _ => destruct H
      | H : ?x = ?x |- _ => clear H
      | H : _ = "" |- _ => subst
      | H : _ = _ :> string |- _ => subst
      | H : _ = _ :> unit |- _ => subst
      | H : _ = _ :> sexp |- _ => subst
      | H : _ = _ :> sargs |- _ => subst
      end.
    Ltac auto_sound := eapply sound_weaken; [go|]; cbv beta; intros e_ t_ H.

    (** A parser that goes on if a test succeeds. *)
    Lemma sound_if {A} (b : bool) (p : parser A) Q :
      (b = true -> sound p Q) -> sound (if b then p else pfail) (fun a t => b = true /\ Q a t).
    Proof.
      intros S. destruct b; [|apply sound_fail]. eapply sound_weaken; [apply S; reflexivity|]. cbv beta. intros. tauto.
    Qed.
    Lemma sound_items m : sound (items_ sub gone m) some_items.
    Proof.
      induction m as [|m IH]; [apply sound_fail|]. cbn [items_].
      eapply sound_weaken.
      { eapply sound_or'; [|eapply sound_or'; [|eapply sound_or']]; [|go|go|go].
        eapply sound_bind; [go|intros k]. eapply sound_bind; [go|intros ?]. eapply sound_bind; [go|intros e].
        eapply sound_bind; [go|intros ?]. eapply sound_or'; [|go].
        eapply sound_bind; [go|intros ?]. eapply sound_bind; [go|intros ?]. eapply sound_bind; [go|intros r].
        apply sound_if. intros _. go. }
      cbv beta. intros l t [X|[X|[X|X]]].
      - destruct X as (k & x1 & y1 & -> & [-> VK] & u1 & x2 & y2 & -> & -> & e & x3 & y3 & -> & (p & R & I) & u2 & x4 & y4 & -> & G & [X|X]).
        + destruct X as (u3 & x5 & y5 & -> & -> & u4 & x6 & y6 & -> & G' & r & x7 & y7 & -> & T & NP & -> & ->).
          intros D. cbn [arg_keys distinct] in D. apply Bool.andb_true_iff in D. destruct D as [_ D].
          destruct (T D) as (ps & ks & IT & IA). pose proof (inst_positional _ NP _ _ IA) as ->. rewrite app_nil_r_s.
          exists [], ((k, p) :: ks). split; [apply i_next_keyword; assumption|]. exists p, ks. tauto.
        + destruct X as [-> ->]. intros _. rewrite app_nil_r_s. exists [], [(k, p)]. split; [apply i_last_keyword; assumption|].
          exists p, []. cbn. tauto.
      - destruct X as (e & x1 & y1 & -> & (p & R & I) & u1 & x2 & y2 & -> & -> & u2 & x3 & y3 & -> & G & [X|X]).
        + destruct X as (u3 & x5 & y5 & -> & -> & u4 & x6 & y6 & -> & G' & r & x7 & y7 & -> & T & -> & ->).
          intros D. cbn [arg_keys] in D. destruct (T D) as (ps & ks & IT & IA). rewrite app_nil_r_s. cbn [append].
          exists (p :: ps), ks. split; [apply (i_next operand expression x1 p x3 x6 x7); assumption|]. exists p, ps. tauto.
        + destruct X as [-> ->]. intros _. rewrite app_nil_r_s. exists [p], []. split; [apply (i_last operand expression x1 p x3); assumption|].
          exists p, []. cbn. tauto.
      - exact X.
      - destruct X as [-> ->]. intros _. exists [], []. split; [constructor|split; reflexivity].
    Qed.
    Lemma sound_args : sound (args_ sub n gone) (fun l t => distinct (arg_keys l) = true /\ as_items l t).
    Proof.
      pose proof (sound_items n) as SI. unfold args_. eapply sound_weaken.
      { eapply sound_bind; [go|intros l]. apply sound_if. intros _. go. }
      cbv beta. intros l t (l' & x & y & -> & S & D & -> & ->). rewrite app_nil_r_s. split; [exact D|exact (S D)].
    Qed.
    Lemma sound_decimal : sound decimal_ (fun s t => t = s /\ decimal s).
    Proof.
      unfold decimal_. eapply sound_weaken; [go|]. cbv beta.
      intros s t (c & x1 & y1 & -> & [F ->] & d & x2 & y2 & -> & [-> D] & [X|X]).
      - destruct X as (u & x3 & y3 & -> & -> & f & x4 & y4 & -> & [-> DF] & -> & ->). rewrite app_nil_r_s. split; [reflexivity|].
        exists (String c d), ("." ++ f). split; [reflexivity|]. split; [discriminate|]. split.
        + unfold digits. cbn. unfold digit in F. rewrite F. exact D.
        + right. exists f. split; [reflexivity|exact DF].
      - destruct X as [-> ->]. rewrite app_nil_r_s. split; [reflexivity|]. exists (String c d), "". rewrite app_nil_r_s.
        split; [reflexivity|]. split; [discriminate|]. split; [|left; reflexivity].
        unfold digits. cbn. unfold digit in F. rewrite F. exact D.
    Qed.
    Lemma sound_quoted q : In (String q "") ["'"; """"] -> sound (quoted_ q) (fun s t => t = s /\ string_literal s).
    Proof.
      intros Q. unfold quoted_. eapply sound_weaken; [go|]. cbv beta.
      intros s t (c & x & y & -> & [E ->] & b & x' & y' & -> & [-> G] & d & x'' & y'' & -> & [E' ->] & -> & ->).
      apply Ascii.eqb_eq in E, E'. subst c d. rewrite app_nil_r_s. split; [reflexivity|].
      exists (String q ""), b. split; [exact Q|]. split; [reflexivity|exact G].
    Qed.
    Lemma sound_atom : sound (atom_ sub n gone joins) (at_level 5).
    Proof.
      pose proof sound_args as SA. pose proof sound_decimal as SD.
      assert (SQ : sound (por (quoted_ "'") (quoted_ """")) (fun s t => t = s /\ string_literal s)).
      { apply sound_or; apply sound_quoted; cbn; tauto. }
      unfold atom_. eapply sound_weaken.
      { eapply sound_or'; [go|]. eapply sound_or'; [go|]. eapply sound_or'; [go|].
        eapply sound_or'; [eapply sound_bind; [exact SQ|intros ?; go]|]. eapply sound_or'; [go|].
        eapply sound_bind; [go|intros ?]. eapply sound_bind; [go|intros ?]. eapply sound_bind; [go|intros ?].
        eapply sound_bind; [go|intros ?]. apply sound_if. intros _. go. }
      cbv beta. intros e t [X|[X|[X|[X|[X|X]]]]].
      - exact X.
      - open. rewrite app_nil_r_s. eexists. split; [apply r_word; eassumption|reflexivity].
      - open. rewrite app_nil_r_s. eexists. split; [apply r_number; eassumption|reflexivity].
      - open. rewrite app_nil_r_s. eexists. split; [apply r_string; eassumption|reflexivity].
      - destruct X as (u & x & y & -> & -> & u' & x' & y' & -> & G & e' & x2 & y2 & -> & (p & R & I) & u2 & x3 & y3 & -> & G' & u3 & x4 & y4 & -> & -> & -> & ->).
        exists p. split; [|exact I]. apply r_group; assumption.
      - destruct X as (u & x & y & -> & -> & u' & x' & y' & -> & G & l & x2 & y2 & -> & [D (ps & ks & IT & IA)] & u3 & x4 & y4 & -> & -> & OP & -> & ->).
        pose proof (inst_only_positional _ OP _ _ IA) as ->. exists (Listed ps). split; [|exists ps; tauto].
        apply r_list; assumption.
    Qed.
    Lemma sound_trailer a : sound (trailer_ sub n gone a) (fun b t => forall t0, at_level 5 a t0 -> at_level 5 b (t0 ++ t)).
    Proof.
      pose proof sound_args as SA. unfold trailer_. auto_sound. intros t0 H0. destruct H as [X|[X|X]].
      - destruct X as (u & x & y & -> & -> & w & x' & y' & -> & [-> W] & -> & ->). destruct H0 as (p & R & I). rewrite app_nil_r_s.
        exists (Member p w). split; [apply r_member; assumption|exists p; tauto].
      - destruct X as (u & x & y & -> & -> & u' & x' & y' & -> & G & l & x2 & y2 & -> & [D (ps & ks & IT & IA)] & u3 & x4 & y4 & -> & -> & -> & ->).
        destruct H0 as (p & R & I). exists (Apply p ps ks). split; [|exists p, ps, ks; tauto].
        apply r_call; try assumption. exact (inst_nodup _ D _ _ IA).
      - destruct X as (u & x & y & -> & -> & i & x' & y' & -> & (p & R & I) & u3 & x4 & y4 & -> & -> & -> & ->).
        destruct H0 as (p0 & R0 & I0). exists (Index p0 p). split; [apply r_index; assumption|exists p0, p; tauto].
    Qed.
    Lemma sound_primary : sound (primary5 sub n gone joins) (at_level 5).
    Proof.
      unfold primary5. eapply sound_weaken.
      { eapply sound_bind; [apply sound_atom|]. intros e. apply (sound_repeat kw recv fr n _ (at_level 5)). intros a. apply sound_trailer. }
      cbv beta. intros e t (e0 & x & y & -> & S & R). apply R, S.
    Qed.
    Lemma sound_power : sound (power4 sub n gone joins) (at_level 4).
    Proof.
      pose proof sound_primary as SP. unfold power4. auto_sound.
      destruct H as (a & x & y & -> & (p & R & I) & [X|X]).
      - destruct X as (u & x1 & y1 & -> & G & u2 & x2 & y2 & -> & -> & u3 & x3 & y3 & -> & G' & b & x4 & y4 & -> & (q & R' & I') & -> & ->).
        rewrite app_nil_r_s. exists (Binary "**" p q). split; [apply r_power; assumption|exists p, q; tauto].
      - destruct X as [-> ->]. rewrite app_nil_r_s. exists p. split; [apply (reads_le 4 5); [lia|exact R]|exact I].
    Qed.
    Lemma sound_unary : sound (unary3 sub n gone joins) (at_level 3).
    Proof.
      pose proof sound_power as SP. unfold unary3. auto_sound. destruct H as [X|X].
      - destruct X as (u & x & y & -> & -> & u2 & x2 & y2 & -> & G & b & x4 & y4 & -> & (q & R' & I') & -> & ->).
        rewrite app_nil_r_s. exists (Minus q). split; [apply r_minus; assumption|exists q; tauto].
      - apply (level_le 3 4); [lia|exact X].
    Qed.
    Lemma sound_operator ss : sound (operator ss) (fun o t => t = o /\ In o ss).
    Proof.
      induction ss as [|s ss IH]; intros l o r E; cbn in E; [discriminate|].
      destruct (text s l) as [[u l']|] eqn:X.
      - injection E as <- <-. destruct (sound_text kw recv fr _ _ _ _ X) as (l1 & -> & F). exists l1. split; [reflexivity|].
        intros t T. split; [exact (F _ T)|left; reflexivity].
      - destruct (IH _ _ _ E) as (l1 & -> & F). exists l1. split; [reflexivity|]. intros t T. destruct (F _ T) as [-> I]. split; [reflexivity|right; exact I].
    Qed.
    Lemma sound_product : sound (product2 sub n gone joins) (at_level 2).
    Proof.
      pose proof sound_unary as SU. unfold product2. eapply sound_weaken.
      { eapply sound_bind; [exact SU|]. intros e. apply (sound_repeat kw recv fr n _ (at_level 2)). intros a.
        pose proof (sound_operator ["*"; "/"]) as SO. auto_sound. intros t0 H0.
        destruct H as (u & x & y & -> & G & o & x1 & y1 & -> & [-> O] & u2 & x2 & y2 & -> & G' & b & x3 & y3 & -> & (q & R & I) & -> & ->).
        destruct H0 as (p & RP & IP). rewrite app_nil_r_s. exists (Binary o p q). split; [apply r_product; assumption|exists p, q; tauto]. }
      cbv beta. intros e t (e0 & x & y & -> & S & R). apply R. apply (level_le 2 3); [lia|exact S].
    Qed.
    Lemma sound_sum : sound (sum1 sub n gone joins) (at_level 1).
    Proof.
      pose proof sound_product as SU. unfold sum1. eapply sound_weaken.
      { eapply sound_bind; [exact SU|]. intros e. apply (sound_repeat kw recv fr n _ (at_level 1)). intros a.
        pose proof (sound_operator ["+"; "-"]) as SO. auto_sound. intros t0 H0.
        destruct H as (u & x & y & -> & G & o & x1 & y1 & -> & [-> O] & u2 & x2 & y2 & -> & G' & b & x3 & y3 & -> & (q & R & I) & -> & ->).
        destruct H0 as (p & RP & IP). rewrite app_nil_r_s. exists (Binary o p q). split; [apply r_sum; assumption|exists p, q; tauto]. }
      cbv beta. intros e t (e0 & x & y & -> & S & R). apply R. apply (level_le 1 2); [lia|exact S].
    Qed.
    Lemma sound_test : sound (test0 sub n gone joins) (at_level 0).
    Proof.
      pose proof sound_sum as SS. unfold test0. auto_sound. destruct H as [X|[X|X]].
      - destruct X as (u & x & y & -> & -> & b & x4 & y4 & -> & (q & R' & I') & -> & ->). rewrite app_nil_r_s.
        exists (Not q). split; [apply (r_not _ _ _ _ R')|exists q; tauto].
      - apply (level_le 0 1); [lia|exact X].
      - exact X.
    Qed.
  End Levels.
  Lemma sound_read m : forall k, sound (read gone joins m k) (at_level (grade_level k)).
  Proof.
    induction m as [|m IH]; intros k; [apply sound_fail|]. destruct k; cbn [read grade_level].
    - apply sound_test, IH.
    - apply sound_unary, IH.
  Qed.
  Definition as_code (e : sexp) (t : string) : Prop := exists p, reads_code operand expression t p /\ inst e p.
  Lemma sound_code : sound (read_code gone joins) as_code.
  Proof.
    unfold read_code. eapply sound_weaken.
    { eapply sound_bind.
      - set (I := fun (_ : unit) s => forall t p, reads_code operand expression t p -> reads_code operand expression (s ++ t) p).
        eapply sound_weaken; [apply (sound_repeat kw recv fr 5 _ I)|].
        + intros ?. eapply sound_weaken; [apply sound_text|]. cbv beta. intros ? t -> t0 F t1 p R. rewrite app_assoc_s. apply F, c_blank, R.
        + cbv beta. intros u s F. exact (F "" (fun t p R => R)).
      - intros ?. eapply sound_bind; [exact (sound_read 12 GTest)|]. intros e. eapply sound_bind; [|intros ?; apply sound_ret].
        apply (sound_repeat kw recv fr 5 _ (fun _ => as_code e)). intros ?. eapply sound_weaken; [apply sound_text|].
        cbv beta. intros ? t -> t0 (p & R & I). exists p. split; [apply c_end, R|exact I]. }
    cbv beta. intros e t (u & x & y & -> & B & e' & x1 & y1 & -> & (p & R & I) & u2 & x2 & y2 & -> & F & -> & ->).
    rewrite app_nil_r_s. destruct (F x1) as (p' & R' & I'); [exists p; split; [constructor; exact R|exact I]|].
    exists p'. split; [apply B, R'|exact I'].
  Qed.
  Theorem reading_ok a e q : reading gone joins a = Some e -> mts kw recv fr a q -> as_code e (render q).
  Proof.
    unfold reading. destruct (read_code gone joins (flat a)) as [[e' [|]]|] eqn:E; try discriminate. intros X M. injection X as ->.
    destruct (sound_code _ _ _ E) as (l1 & F & T). rewrite app_nil_r in F. subst l1. apply T, flat_ok, M.
  Qed.
End Sound.

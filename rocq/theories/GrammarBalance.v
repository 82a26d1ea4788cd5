(** In a program of the grammar, parentheses match. *)
From Coq Require Import Lia.
From Verif Require Import PyStr PyStrFacts Generate Grammar.

Lemma closes_app a : forall m d, closes m d a = true -> forall b e, closes m (e + d) (a ++ b) = closes None e b.
Proof.
  induction a as [|c a IH]; intros m d X b e; cbn [closes append] in *.
  - destruct m; [discriminate|]. apply Nat.eqb_eq in X. subst d. rewrite Nat.add_0_r. reflexivity.
  - destruct m as [q|]; [apply IH, X|]. destruct (Ascii.eqb c quote1 || Ascii.eqb c quote2); [apply IH, X|].
    destruct (Ascii.eqb c "(").
    + specialize (IH None (S d) X b e). rewrite Nat.add_succ_r in IH. exact IH.
    + destruct (Ascii.eqb c ")").
      * destruct d as [|d]; [discriminate|]. rewrite Nat.add_succ_r. apply IH, X.
      * apply IH, X.
Qed.
Notation fine := balanced.
Lemma fine_app a b : fine a -> fine b -> fine (a ++ b).
Proof. unfold balanced. intros A B. pose proof (closes_app a None 0 A b 0) as E. cbn [Nat.add] in E. rewrite E. exact B. Qed.
Lemma fine_wrap l : fine l -> fine ("(" ++ l ++ ")").
Proof. unfold balanced. intros L. cbn. pose proof (closes_app l None 0 L ")" 1) as E. cbn [Nat.add] in E. rewrite E. reflexivity. Qed.
(** Characters other than parentheses. *)
Definition harmless (c : ascii) : Prop :=
  Ascii.eqb c quote1 = false /\ Ascii.eqb c quote2 = false /\ Ascii.eqb c "(" = false /\ Ascii.eqb c ")" = false.
Lemma fine_plain f s : (forall c, f c = true -> harmless c) -> all_chars f s = true -> fine s.
Proof.
  intros F A. unfold balanced. induction s as [|c s IH]; [reflexivity|]. cbn [all_chars closes] in *. apply Bool.andb_true_iff in A.
  destruct A as [A1 A2]. destruct (F c A1) as (-> & -> & -> & ->). apply IH, A2.
Qed.
Ltac no_parens :=
  let d := fresh "d" in intros d ?; unfold harmless;
  destruct (Ascii.eqb_spec d quote1); [subst; discriminate|]; destruct (Ascii.eqb_spec d quote2); [subst; discriminate|];
  destruct (Ascii.eqb_spec d "("); [subst; discriminate|]; destruct (Ascii.eqb_spec d ")"); [subst; discriminate|]; tauto.
Lemma fine_gap b s : gap b s -> fine s.
Proof. destruct b; apply fine_plain; no_parens. Qed.
Lemma fine_word s : wordb s = true -> fine s.
Proof.
  destruct s as [|c s]; [discriminate|]. cbn. intros W. apply (fine_plain word_char); [no_parens|]. cbn.
  apply Bool.andb_true_iff in W. destruct W as [W ->]. unfold word_char. rewrite W. reflexivity.
Qed.
Lemma fine_digits s : digits s -> fine s.
Proof. apply fine_plain. no_parens. Qed.
Lemma fine_number s : number s -> fine s.
Proof.
  intros (d & f & e & -> & _ & D & F & E). repeat apply fine_app.
  - apply fine_digits, D.
  - destruct F as [-> | (g & -> & G)]; [reflexivity|]. apply fine_app; [reflexivity|apply fine_digits, G].
  - destruct E as [-> | (g & _ & G & [-> | ->])]; [reflexivity| |]; (apply fine_app; [reflexivity|apply fine_digits, G]).
Qed.
Lemma inside_literal q b : all_chars (fun c => negb (mem_char c (String q ("\" ++ newline)))) b = true ->
  closes (Some q) 0 (b ++ String q "") = true.
Proof.
  induction b as [|c b IH]; intros A.
  - cbn. rewrite Ascii.eqb_refl. reflexivity.
  - cbn [all_chars] in A. apply Bool.andb_true_iff in A. destruct A as [A1 A2]. cbn [closes append].
    destruct (Ascii.eqb_spec c q) as [->|]; [|apply IH, A2]. cbn in A1. rewrite Ascii.eqb_refl in A1. discriminate.
Qed.
Lemma fine_literal s : string_literal s -> fine s.
Proof.
  intros (q & b & I & -> & A). destruct I as [<-|[<-|[]]]; unfold balanced; cbn [append closes]; apply inside_literal, A.
Qed.
Lemma fine_in l : Forall balanced l -> forall o, In o l -> fine o.
Proof. intros F o I. rewrite Forall_forall in F. apply F, I. Qed.

Scheme primary_i := Induction for primary Sort Prop
  with arith_i := Induction for arith Sort Prop
  with condition_i := Induction for condition Sort Prop
  with negation_i := Induction for negation Sort Prop
  with test_i := Induction for test Sort Prop
  with tests_i := Induction for tests Sort Prop
  with subscript_i := Induction for subscript Sort Prop
  with arguments_i := Induction for arguments Sort Prop
  with keywords_i := Induction for keywords Sort Prop.
Combined Scheme grammar_i from primary_i, arith_i, condition_i, negation_i, test_i, tests_i, subscript_i, arguments_i, keywords_i.

Section Balance.
  Variables operand expression : string -> Prop.
  Hypothesis operands : forall v, operand v -> fine v.
  Hypothesis expressions : forall v, expression v -> fine v.
  Ltac parts := repeat first
    [ assumption
    | match goal with
      | |- fine (?a ++ "(" ++ ?x ++ ?l ++ ?y ++ ")") =>
          replace (a ++ "(" ++ x ++ l ++ y ++ ")") with (a ++ "(" ++ (x ++ l ++ y) ++ ")") by (rewrite !app_assoc_s; reflexivity);
          apply fine_app; [|apply fine_wrap]
      | |- fine ("(" ++ ?x ++ ?l ++ ?y ++ ")") =>
          replace ("(" ++ x ++ l ++ y ++ ")") with ("(" ++ (x ++ l ++ y) ++ ")") by (rewrite !app_assoc_s; reflexivity);
          apply fine_wrap
      | |- fine (_ ++ _) => apply fine_app
      | X : gap ?b ?s |- fine ?s => exact (fine_gap b s X)
      | X : name ?s |- fine ?s => apply fine_word, X
      | X : variable ?s |- fine ?s => apply fine_word, X
      | X : number ?s |- fine ?s => exact (fine_number s X)
      | X : string_literal ?s |- fine ?s => exact (fine_literal s X)
      | X : operand ?s |- fine ?s => exact (operands s X)
      | X : expression ?s |- fine ?s => exact (expressions s X)
      | X : In ?o _ |- fine ?o => refine (fine_in _ _ o X); repeat (constructor; [reflexivity|]); constructor
      | |- fine _ => reflexivity
      end ].
  Lemma grammar_fine :
    (forall t, primary operand expression t -> fine t) /\ (forall t, arith operand expression t -> fine t) /\
    (forall t, condition operand expression t -> fine t) /\ (forall t, negation operand expression t -> fine t) /\
    (forall t, test operand expression t -> fine t) /\ (forall b t, tests operand expression b t -> fine t) /\
    (forall t, subscript operand expression t -> fine t) /\ (forall t, arguments operand expression t -> fine t) /\
    (forall ks t, keywords operand expression ks t -> fine t).
  Proof. apply grammar_i; intros; parts. Qed.
  Lemma tests_fine b t : tests operand expression b t -> fine t.
  Proof. apply grammar_fine. Qed.
  Lemma test_fine t : test operand expression t -> fine t.
  Proof. apply grammar_fine. Qed.
  Lemma target_fine ns t : target operand expression ns t -> fine t.
  Proof.
    pose proof grammar_fine as (P & _ & _ & _ & _ & _ & S & _). intros T. destruct T as [w V|a x w A X N|a l A L].
    - parts.
    - specialize (P _ A). parts.
    - specialize (P _ A). specialize (S _ L). parts.
  Qed.
  Lemma targets_fine ns t : targets operand expression ns t -> fine t.
  Proof.
    induction 1 as [ns t T|ns a x y ms b A IH X Y B]; [apply (target_fine _ _ T)|]. apply target_fine in B. parts.
  Qed.
  Lemma simple_fine ns t : simple operand expression ns t -> fine t.
  Proof.
    intros S. destruct S as [ns t x y e T X Y E|e E|c x m C X M|m M|m n M N].
    - apply targets_fine in T. apply tests_fine in E. parts.
    - exact (tests_fine _ _ E).
    - apply test_fine in C, M. parts.
    - parts.
    - parts.
  Qed.
  Lemma statement_fine ns t : statement operand expression ns t -> fine t.
  Proof.
    intros S. destruct S as [ns s S|c ns s C S|w e ns s W E S]; apply simple_fine in S.
    - exact S.
    - apply test_fine in C. parts.
    - apply test_fine in E. parts.
  Qed.
  Theorem program_fine ns t : program operand expression ns t -> fine t.
  Proof.
    induction 1 as [t T|ns t P IH|ns t P IH|ns s ms t S P IH].
    - exact (tests_fine _ _ T).
    - parts.
    - parts.
    - apply statement_fine in S. parts.
  Qed.
End Balance.

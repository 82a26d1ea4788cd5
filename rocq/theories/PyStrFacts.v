(** Lemmas about [PyStr]. *)
From Verif Require Import PyStr.
From Coq Require Import Lia.

Lemma app_nil_r_s (s : string) : s ++ "" = s.
Proof. induction s as [|c s IH]; simpl; congruence. Qed.

Lemma app_assoc_s (a b c : string) : (a ++ b) ++ c = a ++ (b ++ c).
Proof. induction a as [|x a IH]; simpl; congruence. Qed.

Lemma app_inj_l (a b c : string) : a ++ b = a ++ c -> b = c.
Proof. induction a as [|x a IH]; simpl; intros H; [exact H|]. apply IH. congruence. Qed.

Lemma length_app_s (a b : string) :
  String.length (a ++ b) = (String.length a + String.length b)%nat.
Proof. induction a as [|x a IH]; simpl; lia. Qed.

Lemma app_inj_r (a b c : string) : a ++ c = b ++ c -> a = b.
Proof.
  revert b; induction a as [|x a IH]; intros [|y b] H; simpl in *.
  - reflexivity.
  - exfalso. assert (E : String.length c = String.length (String y (b ++ c))) by congruence.
    simpl in E. rewrite length_app_s in E. lia.
  - exfalso. assert (E : String.length c = String.length (String x (a ++ c))) by congruence.
    simpl in E. rewrite length_app_s in E. lia.
  - injection H as -> H. f_equal. apply IH, H.
Qed.

Lemma prefix_spec (p s : string) : prefix p s = true <-> exists t, s = p ++ t.
Proof.
  revert s; induction p as [|c p IH]; intros s; simpl.
  - destruct s; (split; [intros _; eexists; reflexivity|reflexivity]).
  - destruct s as [|d s]; simpl.
    + split; [discriminate|]. intros [t H]; discriminate.
    + destruct (ascii_dec c d) as [->|N].
      * rewrite IH. split; intros [t H]; exists t; congruence.
      * split; [discriminate|]. intros [t H]. congruence.
Qed.

Lemma prefix_app (p t : string) : prefix p (p ++ t) = true.
Proof. apply prefix_spec. exists t; reflexivity. Qed.

Lemma contains_spec (sub s : string) :
  contains sub s = true <-> exists a b, s = a ++ sub ++ b.
Proof.
  induction s as [|c s IH].
  - cbn [contains]. rewrite orb_false_r, prefix_spec. split.
    + intros [t H]. exists "", t. exact H.
    + intros (a & b & H). destruct a; [exists b; exact H|discriminate].
  - cbn [contains]. rewrite orb_true_iff, IH, prefix_spec. split.
    + intros [[t H]|(a & b & H)].
      * exists "", t. exact H.
      * exists (String c a), b. simpl. congruence.
    + intros (a & b & H). destruct a as [|x a].
      * left. exists b. exact H.
      * right. exists a, b. simpl in H. congruence.
Qed.

Lemma contains_cons_false (sub : string) c s :
  contains sub (String c s) = false -> prefix sub (String c s) = false /\ contains sub s = false.
Proof. cbn [contains]. apply orb_false_elim. Qed.

Lemma eqb_sym_ascii (a b : ascii) : Ascii.eqb a b = Ascii.eqb b a.
Proof. apply Ascii.eqb_sym. Qed.

(** Splitting and joining on a character. *)
Lemma split_on_nonempty sep s : split_on sep s <> [].
Proof.
  destruct s as [|c s]; simpl; [discriminate|].
  destruct (Ascii.eqb c sep); [discriminate|].
  destruct (split_on sep s); discriminate.
Qed.

Fixpoint no_char (c : ascii) (s : string) : Prop :=
  match s with
  | EmptyString => True
  | String d r => d <> c /\ no_char c r
  end.

Lemma no_char_mem c s : no_char c s <-> mem_char c s = false.
Proof.
  induction s as [|d s IH]; simpl; [tauto|].
  rewrite orb_false_iff, IH, Ascii.eqb_neq. intuition congruence.
Qed.

Lemma no_char_app c a b : no_char c (a ++ b) <-> no_char c a /\ no_char c b.
Proof. induction a as [|d a IH]; simpl; [tauto|]. rewrite IH. tauto. Qed.

Lemma split_on_no_char sep s : Forall (no_char sep) (split_on sep s).
Proof.
  induction s as [|c s IH]; simpl.
  - constructor; [exact I|constructor].
  - destruct (Ascii.eqb_spec c sep) as [->|N].
    + constructor; [exact I|exact IH].
    + destruct (split_on sep s) as [|h t].
      * constructor; [simpl; auto|constructor].
      * inversion_clear IH as [|? ? Hh Ht].
        constructor; [simpl; auto|exact Ht].
Qed.

Lemma concat_cons2 sep (x y : string) l :
  String.concat sep (x :: y :: l) = x ++ sep ++ String.concat sep (y :: l).
Proof. reflexivity. Qed.

Lemma join_split sep s : join (String sep "") (split_on sep s) = s.
Proof.
  unfold join. induction s as [|c s IH]; simpl; [reflexivity|].
  destruct (Ascii.eqb_spec c sep) as [->|N].
  - pose proof (split_on_nonempty sep s) as NE.
    destruct (split_on sep s) as [|h t]; [congruence|].
    simpl in *. congruence.
  - destruct (split_on sep s) as [|h t] eqn:E.
    + exfalso. apply (split_on_nonempty sep s E).
    + destruct t as [|h2 t]; simpl in *; congruence.
Qed.

Lemma split_on_app_nochar sep a s :
  no_char sep a ->
  split_on sep (a ++ String sep s) = a :: split_on sep s.
Proof.
  induction a as [|c a IH]; simpl; intros H.
  - rewrite Ascii.eqb_refl. reflexivity.
  - destruct H as [N H]. destruct (Ascii.eqb_spec c sep) as [->|_]; [congruence|].
    rewrite IH by exact H. reflexivity.
Qed.

Lemma split_on_single sep a : no_char sep a -> split_on sep a = [a].
Proof.
  induction a as [|c a IH]; simpl; intros H; [reflexivity|].
  destruct H as [N H]. destruct (Ascii.eqb_spec c sep) as [->|_]; [congruence|].
  rewrite IH by exact H. reflexivity.
Qed.

Lemma split_join sep l :
  l <> [] -> Forall (no_char sep) l ->
  split_on sep (join (String sep "") l) = l.
Proof.
  unfold join. induction l as [|x l IH]; intros NE H; [congruence|].
  inversion_clear H as [|? ? Hx Hl].
  destruct l as [|y l].
  - simpl. apply split_on_single, Hx.
  - rewrite concat_cons2. cbn [append].
    rewrite split_on_app_nochar by exact Hx.
    f_equal. apply IH; [discriminate|exact Hl].
Qed.

Lemma mem_str_In x l : mem_str x l = true <-> In x l.
Proof.
  unfold mem_str. rewrite existsb_exists. split.
  - intros (y & Hy & E). apply String.eqb_eq in E. congruence.
  - intros H. exists x. split; [exact H|apply String.eqb_refl].
Qed.

Lemma mem_str_false x l : mem_str x l = false <-> ~ In x l.
Proof. rewrite <- mem_str_In. destruct (mem_str x l); split; congruence. Qed.

(** Declarative meaning of [str.replace]. *)
Inductive Replaced (old new : string) : string -> string -> Prop :=
| rep_none s : contains old s = false -> Replaced old new s s
| rep_step a b t :
    (* [a] ends where the leftmost occurrence starts *)
    (forall a' b', a ++ old ++ b = a' ++ old ++ b' ->
                   (String.length a <= String.length a')%nat) ->
    Replaced old new b t ->
    Replaced old new (a ++ old ++ b) (a ++ new ++ t).

Lemma replace_aux_skip old new k s p :
  String.length p = k -> replace_aux old new k (p ++ s) = replace_aux old new 0 s.
Proof.
  revert k; induction p as [|c p IH]; simpl; intros k H; subst k.
  - destruct s; reflexivity.
  - apply IH. reflexivity.
Qed.

Lemma replace_aux_match old new s :
  old <> "" -> replace_aux old new 0 (old ++ s) = new ++ replace_aux old new 0 s.
Proof.
  intros NE. destruct old as [|c old']; [congruence|].
  set (o := String c old').
  change (o ++ s) with (String c (old' ++ s)).
  cbn [replace_aux].
  change (String c (old' ++ s)) with (o ++ s).
  rewrite prefix_app. f_equal.
  apply replace_aux_skip. reflexivity.
Qed.

Lemma replace_no old new s : contains old s = false -> replace_aux old new 0 s = s.
Proof.
  induction s as [|c s IH]; intros H; [reflexivity|].
  apply contains_cons_false in H as [H1 H2].
  cbn [replace_aux]. rewrite H1, IH by exact H2. reflexivity.
Qed.

Lemma Replaced_correct old new s t :
  old <> "" -> Replaced old new s t -> py_replace s old new = t.
Proof.
  intros NE H. unfold py_replace. induction H as [s H|a b t Hmin H IH].
  - apply replace_no, H.
  - revert Hmin. induction a as [|c a IHa]; intros Hmin.
    + cbn [append]. rewrite replace_aux_match by exact NE. congruence.
    + change (String c a ++ old ++ b) with (String c (a ++ old ++ b)).
      cbn [replace_aux].
      destruct (prefix old (String c (a ++ old ++ b))) eqn:P.
      * apply prefix_spec in P as [r P].
        specialize (Hmin "" r P). simpl in Hmin. lia.
      * cbn [append]. f_equal. apply IHa.
        intros a' b' E. specialize (Hmin (String c a') b').
        simpl in Hmin. assert (L : (S (String.length a) <= S (String.length a'))%nat).
        { apply Hmin. simpl. congruence. }
        lia.
Qed.

(** Leftmost occurrence. *)
Lemma leftmost_occurrence old s :
  contains old s = true ->
  exists a b, s = a ++ old ++ b /\
    (forall a' b', s = a' ++ old ++ b' -> (String.length a <= String.length a')%nat).
Proof.
  induction s as [|c s IH]; intros H.
  - apply contains_spec in H as (a & b & H).
    exists a, b. split; [exact H|]. intros a' b' E.
    destruct a; [simpl; lia|discriminate].
  - destruct (prefix old (String c s)) eqn:P.
    + apply prefix_spec in P as [t P]. exists "", t. split; [exact P|].
      intros; simpl; lia.
    + cbn [contains] in H. rewrite P in H. simpl in H.
      destruct (IH H) as (a & b & E & Hmin).
      exists (String c a), b. split; [simpl; congruence|].
      intros a' b' E'. destruct a' as [|c' a'].
      * exfalso. assert (prefix old (String c s) = true) as P'.
        { apply prefix_spec. exists b'. exact E'. }
        congruence.
      * simpl in E'. injection E' as -> E'.
        specialize (Hmin a' b' E'). simpl. lia.
Qed.

Lemma Replaced_total old new s :
  old <> "" -> exists t, Replaced old new s t.
Proof.
  intros NE. remember (String.length s) as n eqn:En.
  revert s En. induction n as [n IH] using lt_wf_ind. intros s En.
  destruct (contains old s) eqn:C.
  - destruct (leftmost_occurrence old s C) as (a & b & E & Hmin).
    assert (L : (String.length b < n)%nat).
    { subst n s. rewrite !length_app_s. destruct old; [congruence|simpl; lia]. }
    destruct (IH _ L b eq_refl) as [t Ht].
    exists (a ++ new ++ t). rewrite E. constructor; [|exact Ht].
    intros a' b' E'. apply (Hmin a' b'). congruence.
  - exists s. constructor. exact C.
Qed.

Lemma py_replace_Replaced old new s :
  old <> "" -> Replaced old new s (py_replace s old new).
Proof.
  intros NE. destruct (Replaced_total old new s NE) as [t H].
  rewrite (Replaced_correct _ _ _ _ NE H). exact H.
Qed.

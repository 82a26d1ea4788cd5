From Verif Require Import PyStr PyStrFacts Requirements.
From Coq Require Import Lia.

Lemma prefix_cons_split old a c b :
  mem_char c old = false -> prefix old (a ++ String c b) = prefix old a.
Proof.
  revert a; induction old as [|d old IH]; intros a H.
  - destruct a; reflexivity.
  - cbn [mem_char] in H. apply orb_false_elim in H as [H1 H2].
    apply Ascii.eqb_neq in H1.
    destruct a as [|x a]; cbn [append prefix].
    + destruct (ascii_dec d c); [congruence|reflexivity].
    + destruct (ascii_dec d x); [|reflexivity]. apply IH, H2.
Qed.

Lemma contains_sep old a c b :
  mem_char c old = false -> old <> "" ->
  contains old (a ++ String c b) = contains old a || contains old b.
Proof.
  intros Hc NE. induction a as [|x a IH].
  - cbn [append contains].
    pose proof (prefix_cons_split old "" c b Hc) as P. cbn [append] in P. rewrite P.
    destruct old; [congruence|]. reflexivity.
  - cbn [append contains]. rewrite IH.
    pose proof (prefix_cons_split old (String x a) c b Hc) as P.
    cbn [append] in P. rewrite P.
    rewrite orb_assoc. reflexivity.
Qed.

Lemma contains_disjoint old a new b :
  old <> "" -> new <> "" ->
  (forall c, mem_char c new = true -> mem_char c old = false) ->
  contains old (a ++ new ++ b) = contains old a || contains old b.
Proof.
  intros NE NN D. revert a. induction new as [|c new IH]; intros a; [congruence|].
  cbn [append]. rewrite contains_sep; [|apply D; simpl; rewrite Ascii.eqb_refl; reflexivity|exact NE].
  f_equal. destruct new as [|c' new].
  - reflexivity.
  - specialize (IH ltac:(discriminate)).
    assert (D' : forall c, mem_char c (String c' new) = true -> mem_char c old = false).
    { intros x Hx. apply D. simpl in *. rewrite Hx. apply orb_true_r. }
    specialize (IH D' "").
    change (String c' new ++ b) with ("" ++ String c' new ++ b). rewrite IH.
    destruct old; [congruence|reflexivity].
Qed.

Lemma replace_removes old new s :
  old <> "" -> new <> "" ->
  (forall c, mem_char c new = true -> mem_char c old = false) ->
  contains old (py_replace s old new) = false.
Proof.
  intros NE NN D. pose proof (py_replace_Replaced old new s NE) as H.
  induction H as [s H|a b t Hmin H IH].
  - exact H.
  - rewrite contains_disjoint by assumption. rewrite IH, orb_false_r.
    destruct (contains old a) eqn:C; [|reflexivity]. exfalso.
    apply contains_spec in C as (a1 & a2 & ->).
    specialize (Hmin a1 (a2 ++ old ++ b)).
    rewrite !app_assoc_s in Hmin. specialize (Hmin eq_refl).
    rewrite !length_app_s in Hmin. destruct old; [congruence|simpl in Hmin; lia].
Qed.

Lemma torch_disjoint c :
  mem_char c "paddlepaddle-gpu" = true -> mem_char c "torch" = false.
Proof.
  intros H. destruct (mem_char c "torch") eqn:E; [|reflexivity]. exfalso.
  simpl in H, E.
  repeat rewrite orb_true_iff in *. repeat rewrite Ascii.eqb_eq in *.
  repeat match goal with
         | [ X : _ \/ _ |- _ ] => destruct X
         end; try discriminate; subst c; discriminate.
Qed.

Lemma requirements_no_torch code :
  contains "torch" (convert_requirements code) = false.
Proof. apply replace_removes; [discriminate|discriminate|exact torch_disjoint]. Qed.

Lemma requirements_replaced code :
  Replaced "torch" "paddlepaddle-gpu" code (convert_requirements code).
Proof. apply py_replace_Replaced. discriminate. Qed.

Lemma requirements_imprecise :
  exists code,
    Forall (fun line => pkg_name line <> "torch") (split_on nl code) /\
    convert_requirements code <> code.
Proof.
  exists "torchvision==0.15". split.
  - vm_compute. repeat constructor. discriminate.
  - vm_compute. discriminate.
Qed.

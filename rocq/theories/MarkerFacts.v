From Verif Require Import PyStr PyStrFacts Marker MarkerSpec.
From Coq Require Import Lia.

(** * String literals *)

Lemma drop_app a b : drop (String.length a) (a ++ b) = b.
Proof. induction a as [|c a IH]; simpl; [destruct b; reflexivity|exact IH]. Qed.

Lemma run_len_split q s :
  exists m r, s = m ++ r /\ String.length m = run_len q s /\ q_free q m /\
              (r = "" \/ exists r', r = String q r').
Proof.
  induction s as [|c s IH]; simpl.
  - exists "", "". simpl. auto.
  - destruct (Ascii.eqb_spec c q) as [->|N].
    + exists "", (String q s). simpl. split; [reflexivity|]. split; [reflexivity|].
      split; [exact I|]. right; eauto.
    + destruct IH as (m & r & E & L & F & H).
      exists (String c m), r. simpl. subst s. repeat split; auto; lia.
Qed.

Lemma run_len_exact q m r :
  q_free q m -> run_len q (m ++ String q r) = String.length m.
Proof.
  induction m as [|c m IH]; simpl; intros H.
  - rewrite Ascii.eqb_refl. reflexivity.
  - destruct H as [N H]. apply Ascii.eqb_neq in N. rewrite N, IH by exact H. reflexivity.
Qed.

Lemma quoted_len_some q d s n :
  quoted_len q d s = Some n ->
  exists m b, m <> "" /\ q_free q m /\ s = d ++ m ++ d ++ b /\
              n = (String.length d + String.length m + String.length d)%nat.
Proof.
  unfold quoted_len. destruct (prefix d s) eqn:P; [|discriminate].
  apply prefix_spec in P as [rest ->]. rewrite drop_app.
  destruct (run_len_split q rest) as (m & r & E & L & F & _).
  destruct ((1 <=? run_len q rest)%nat) eqn:G; [|discriminate].
  destruct (prefix d (drop (run_len q rest) rest)) eqn:P2; [|discriminate].
  cbn [andb]. intros H; injection H as <-.
  rewrite <- L in P2, G |- *. rewrite E in P2. rewrite drop_app in P2.
  apply prefix_spec in P2 as [b ->].
  exists m, b. repeat split; auto.
  - intros ->. discriminate G.
  - rewrite E. reflexivity.
Qed.

Lemma quoted_len_complete q d' m b :
  let d := String q d' in
  m <> "" -> q_free q m ->
  quoted_len q d (d ++ m ++ d ++ b)
  = Some (String.length d + String.length m + String.length d)%nat.
Proof.
  intros d NE F. unfold quoted_len. rewrite prefix_app, drop_app.
  change (d ++ b) with (String q (d' ++ b)). rewrite run_len_exact by exact F.
  rewrite drop_app. change (String q (d' ++ b)) with (d ++ b). rewrite prefix_app.
  destruct m; [congruence|]. reflexivity.
Qed.

Lemma rm_quoted_skip q d p s :
  rm_quoted_aux q d (String.length p) (p ++ s) = rm_quoted_aux q d 0 s.
Proof.
  induction p as [|c p IH]; simpl.
  - destruct s; reflexivity.
  - exact IH.
Qed.

Lemma rm_quoted_cases q d' s :
  let d := String q d' in
  (rm_quoted_aux q d 0 s = s /\
   forall a m b, m <> "" -> q_free q m -> s <> a ++ d ++ m ++ d ++ b) \/
  (exists a m b, s = a ++ d ++ m ++ d ++ b /\ m <> "" /\ q_free q m /\
     rm_quoted_aux q d 0 s = a ++ rm_quoted_aux q d 0 b /\
     forall a' m' b', m' <> "" -> q_free q m' ->
       s = a' ++ d ++ m' ++ d ++ b' -> (String.length a <= String.length a')%nat).
Proof.
  intros d. induction s as [|c s IH].
  - left. split; [reflexivity|]. intros a m b _ _. destruct a; discriminate.
  - destruct (quoted_len q d (String c s)) as [n|] eqn:Q.
    + right. pose proof (quoted_len_some _ _ _ _ Q) as (m & b & NE & F & E & Hn).
      exists "", m, b. repeat split; auto.
      * cbn [rm_quoted_aux]. rewrite Q.
        assert (E2 : s = (d' ++ m ++ d) ++ b).
        { rewrite !app_assoc_s. change (d ++ m ++ d ++ b) with (String q (d' ++ m ++ d ++ b)) in E.
          injection E as _ E. exact E. }
        rewrite E2.
        replace (pred n) with (String.length (d' ++ m ++ d)).
        -- apply rm_quoted_skip.
        -- rewrite !length_app_s. unfold d in Hn |- *. simpl in Hn |- *. lia.
      * intros; simpl; lia.
    + destruct IH as [[E H]|(a & m & b & E & NE & F & R & Hmin)].
      * left. split.
        -- cbn [rm_quoted_aux]. rewrite Q, E. reflexivity.
        -- intros a m b NE F Eq. destruct a as [|x a].
           ++ cbn [append] in Eq. rewrite Eq in Q.
              change (String q (d' ++ m ++ String q (d' ++ b))) with (d ++ m ++ d ++ b) in Q.
              unfold d in Q. rewrite quoted_len_complete in Q by assumption. discriminate.
           ++ cbn [append] in Eq. injection Eq as -> Eq.
              apply (H a m b NE F Eq).
      * right. exists (String c a), m, b. repeat split; auto.
        -- rewrite E. reflexivity.
        -- cbn [rm_quoted_aux]. rewrite Q, R. reflexivity.
        -- intros a' m' b' NE' F' Eq. destruct a' as [|x a'].
           ++ exfalso. cbn [append] in Eq. rewrite Eq in Q.
              change (String q (d' ++ m' ++ String q (d' ++ b'))) with (d ++ m' ++ d ++ b') in Q.
              unfold d in Q. rewrite quoted_len_complete in Q by assumption. discriminate.
           ++ cbn [append] in Eq. injection Eq as -> Eq.
              specialize (Hmin a' m' b' NE' F' Eq). simpl. lia.
Qed.

Lemma rm_quoted_Erased q d' s :
  Erased q (String q d') s (rm_quoted q (String q d') s).
Proof.
  unfold rm_quoted. remember (String.length s) as n eqn:En. revert s En.
  induction n as [n IH] using lt_wf_ind. intros s En.
  destruct (rm_quoted_cases q d' s) as [[E H]|(a & m & b & E & NE & F & R & Hmin)].
  - rewrite E. constructor. exact H.
  - rewrite R. rewrite E. constructor; auto.
    + intros a' m' b' NE' F' Eq. apply (Hmin a' m' b' NE' F'). congruence.
    + apply (IH (String.length b)); [|reflexivity].
      subst n s. rewrite !length_app_s. simpl. lia.
Qed.

(** * Package uses *)

Lemma boundary_use_spec p s :
  boundary_use p s = true <->
  exists a c b, s = a ++ String c (p ++ "." ++ b) /\ is_word c = false /\ c <> "."%char.
Proof.
  induction s as [|c s IH]; cbn [boundary_use].
  - split; [discriminate|]. intros (a & c & b & E & _). destruct a; discriminate.
  - rewrite orb_true_iff, IH, !andb_true_iff, !negb_true_iff, prefix_spec, Ascii.eqb_neq.
    split.
    + intros [[[W D] [t E]]|(a & x & b & E & W & D)].
      * exists "", c, t. simpl. rewrite E, app_assoc_s. auto.
      * exists (String c a), x, b. simpl. rewrite E. auto.
    + intros (a & x & b & E & W & D). destruct a as [|y a]; cbn [append] in E.
      * injection E as -> E. left. repeat split; auto. exists b.
        rewrite app_assoc_s. exact E.
      * injection E as -> E. right. exists a, x, b. auto.
Qed.

Lemma uses_package_spec pkgs s :
  uses_package pkgs s = true <-> exists p, In p pkgs /\ uses p s.
Proof.
  unfold uses_package. rewrite existsb_exists. unfold uses, startswith.
  split; intros (p & Hp & H); exists p; (split; [exact Hp|]).
  - rewrite orb_true_iff, prefix_spec, boundary_use_spec in H.
    destruct H as [[t H]|H]; [left|right; exact H].
    exists t. rewrite H, app_assoc_s. reflexivity.
  - rewrite orb_true_iff, prefix_spec, boundary_use_spec.
    destruct H as [[t H]|H]; [left|right; exact H].
    exists t. rewrite H, app_assoc_s. reflexivity.
Qed.

(** * Masking keeps the layout *)

Fixpoint layout (s : string) : list bool :=
  match s with
  | EmptyString => []
  | String c r => Ascii.eqb c nl :: layout r
  end.

Lemma mask_char_nl c : Ascii.eqb (mask_char c) nl = Ascii.eqb c nl.
Proof.
  unfold mask_char. destruct (Ascii.eqb_spec c nl) as [->|N].
  - reflexivity.
  - destruct (is_space c).
    + apply Ascii.eqb_neq, N.
    + reflexivity.
Qed.

Lemma mask_aux_layout m prev skip s : layout (mask_aux m prev skip s) = layout s.
Proof.
  revert prev skip; induction s as [|c s IH]; intros prev skip; [reflexivity|].
  cbn [mask_aux]. destruct skip as [|k].
  - destruct (m prev (String c s)) as [[|n]|]; cbn [layout]; rewrite IH, ?mask_char_nl; reflexivity.
  - cbn [layout]. rewrite IH, mask_char_nl. reflexivity.
Qed.

Lemma mask_apis_layout keep text : layout (mask_apis keep text) = layout text.
Proof.
  unfold mask_apis. revert text; induction keep as [|a keep IH]; intros text; [reflexivity|].
  cbn [fold_left]. rewrite IH. apply mask_aux_layout.
Qed.

Lemma layout_length s : List.length (layout s) = String.length s.
Proof. induction s; simpl; congruence. Qed.

Lemma layout_get i s : String.get i s = Some nl <-> nth_error (layout s) i = Some true.
Proof.
  revert i; induction s as [|c s IH]; intros [|i]; simpl; try (split; discriminate).
  - destruct (Ascii.eqb_spec c nl) as [->|N]; split; congruence.
  - apply IH.
Qed.

Lemma layout_split_lengths s t :
  layout s = layout t ->
  map String.length (split_on nl s) = map String.length (split_on nl t).
Proof.
  revert t; induction s as [|c s IH]; intros [|d t] H; try discriminate; [reflexivity|].
  cbn [layout] in H. injection H as H1 H2. specialize (IH t H2).
  cbn [split_on]. rewrite H1. destruct (Ascii.eqb d nl).
  - simpl. congruence.
  - destruct (split_on nl s) as [|x xs], (split_on nl t) as [|y ys]; try discriminate;
      [reflexivity|]. simpl in *. congruence.
Qed.

(** * Shape of the result *)

Lemma marker_neq l : marker ++ l <> l.
Proof.
  intros E. assert (L : String.length (marker ++ l) = String.length l) by congruence.
  rewrite length_app_s in L. simpl in L. lia.
Qed.

Lemma mark_step_shape min pkgs st l sc st' l' :
  mark_step min pkgs st l sc = Some (st', l') -> l' = l \/ l' = marker ++ l.
Proof.
  unfold mark_step. intros H.
  repeat match type of H with
         | (if ?b then _ else _) = _ => destruct b
         | match ?o with Some _ => _ | None => _ end = _ => destruct o
         | Some _ = Some _ => injection H as <- <-
         | None = Some _ => discriminate H
         end; auto.
Qed.

Lemma mark_lines_shape min pkgs ls : forall st scs out,
  mark_lines min pkgs st ls scs = Some out ->
  Forall2 (fun l l' => l' = l \/ l' = marker ++ l) ls out.
Proof.
  induction ls as [|l ls IH]; intros st scs out; cbn [mark_lines].
  - intros H; injection H as <-. constructor.
  - destruct (match scs with [] => (None, []) | x :: xs => (Some x, xs) end) as [sc scs'].
    destruct (mark_step min pkgs st l sc) as [[st' l']|] eqn:S1; [|discriminate].
    destruct (mark_lines min pkgs st' ls scs') as [r|] eqn:S2; [|discriminate].
    intros H; injection H as <-. constructor.
    + eapply mark_step_shape; eassumption.
    + eapply IH; eassumption.
Qed.

Lemma mark_step_total min pkgs st l sc : exists r, mark_step min pkgs st l (Some sc) = Some r.
Proof.
  unfold mark_step.
  repeat match goal with |- context [if ?b then _ else _] => destruct b end; eauto.
Qed.

Lemma mark_lines_total min pkgs ls : forall st scs,
  List.length ls = List.length scs ->
  exists out, mark_lines min pkgs st ls scs = Some out.
Proof.
  induction ls as [|l ls IH]; intros st scs H; destruct scs as [|s scs]; try discriminate; cbn [mark_lines].
  - eauto.
  - destruct (mark_step_total min pkgs st l s) as [[st' l'] ->].
    simpl in H. destruct (IH st' scs ltac:(lia)) as [out ->]. eauto.
Qed.

Lemma shape_no_nl ls out :
  Forall (no_char nl) ls ->
  Forall2 (fun l l' => l' = l \/ l' = marker ++ l) ls out ->
  Forall (no_char nl) out.
Proof.
  intros H F. induction F as [|l l' ls out HL F IH]; [constructor|].
  inversion_clear H as [|? ? H1 H2]. constructor; [|auto].
  destruct HL as [->| ->]; [exact H1|].
  apply no_char_app. split; [|exact H1]. cbv. repeat split; discriminate.
Qed.

Lemma scan_lines_length (min : bool) keep code :
  List.length (split_on nl (if min then mask_apis keep code else code))
  = List.length (split_on nl code).
Proof.
  destruct min; [|reflexivity].
  pose proof (layout_split_lengths _ _ (mask_apis_layout keep code)) as H.
  apply (f_equal (@List.length nat)) in H. rewrite !map_length in H. exact H.
Qed.

Lemma mark_unsupport_inv (min : bool) pkgs keep code out :
  mark_unsupport min pkgs keep code = Some out ->
  exists ls,
    mark_lines min pkgs (MS false false) (split_on nl code)
      (split_on nl (if min then mask_apis keep code else code)) = Some ls /\
    split_on nl out = ls /\
    Forall2 (fun l l' => l' = l \/ l' = marker ++ l) (split_on nl code) ls.
Proof.
  unfold mark_unsupport. intros H.
  destruct (mark_lines _ _ _ _ _) as [ls|] eqn:M; [|discriminate].
  injection H as <-. exists ls. split; [reflexivity|].
  pose proof (mark_lines_shape _ _ _ _ _ _ M) as F.
  split; [|exact F].
  apply split_join.
  - inversion F as [E|]; [exfalso; apply (split_on_nonempty nl code); auto|discriminate].
  - eapply shape_no_nl; [apply split_on_no_char|exact F].
Qed.

Lemma mark_total (min : bool) pkgs keep code : exists out, mark_unsupport min pkgs keep code = Some out.
Proof.
  unfold mark_unsupport.
  destruct (mark_lines_total min pkgs (split_on nl code) (MS false false)
              (split_on nl (if min then mask_apis keep code else code))) as [out ->].
  - symmetry; apply scan_lines_length.
  - eauto.
Qed.

(** * Reversibility *)

(** Specification-side unmarking of one line / a text. *)
Definition unmark_line (l : string) : string :=
  match l with
  | String a (String b (String c (String d (String e (String f r))))) =>
      if String.eqb (String a (String b (String c (String d (String e (String f "")))))) ">>>>>>"
      then r else l
  | _ => l
  end.
Definition unmark (s : string) : string := join nls (map unmark_line (split_on nl s)).

Lemma unmark_marker l : unmark_line (marker ++ l) = l.
Proof. reflexivity. Qed.

Lemma unmark_line_id l : prefix marker l = false -> unmark_line l = l.
Proof.
  intros H.
  destruct l as [|a [|b [|c [|d [|e [|f r]]]]]]; try reflexivity.
  cbn [unmark_line].
  destruct (String.eqb_spec (String a (String b (String c (String d (String e (String f "")))))) ">>>>>>") as [E|E];
    [|reflexivity].
  injection E as -> -> -> -> -> ->.
  exfalso. change (prefix marker (marker ++ r) = false) in H. rewrite prefix_app in H. discriminate.
Qed.

Lemma mark_reversible min pkgs keep code out :
  Forall (fun l => prefix marker l = false) (split_on nl code) ->
  mark_unsupport min pkgs keep code = Some out -> unmark out = code.
Proof.
  intros NP H. destruct (mark_unsupport_inv _ _ _ _ _ H) as (ls & _ & E & F).
  unfold unmark. rewrite E. rewrite <- (join_split nl code) at 1. f_equal.
  clear H E. induction F as [|l l' ls0 out0 HL F IH]; [reflexivity|].
  inversion_clear NP as [|? ? N1 N2]. simpl. rewrite IH by exact N2. f_equal.
  destruct HL as [->| ->]; [apply unmark_line_id, N1|apply unmark_marker].
Qed.

(** * Exact characterisation *)

Section Exact.
  Variable min : bool.
  Variable pkgs : list string.
  Variable lines scans : list string.
  Hypothesis same_len : List.length lines = List.length scans.

  Local Notation annot := (is_annotation lines).
  Local Notation target := (is_target lines).
  Local Notation opened := (OpenBefore lines scans rm_literals).

  Definition pendingP (i : nat) : Prop :=
    exists j, (j < i)%nat /\ annot j /\
      forall k, (j < k < i)%nat -> annot k \/ line lines k = "@".

  Lemma annot_dec i : {annot i} + {~ annot i}.
  Proof.
    destruct (contains annotation (line lines i)) eqn:C.
    - left. apply contains_spec in C. exact C.
    - right. intros H. apply contains_spec in H. unfold annotation in C. congruence.
  Qed.

  Lemma pending_step_annot i : annot i -> pendingP (S i).
  Proof. intros H. exists i. split; [lia|]. split; [exact H|]. intros k Hk; lia. Qed.

  Lemma pending_step_other i :
    ~ annot i -> (pendingP (S i) <-> pendingP i /\ line lines i = "@").
  Proof.
    intros NA. split.
    - intros (j & Hj & Aj & H).
      assert (j <> i) by congruence.
      assert (line lines i = "@") as Ei by (destruct (H i ltac:(lia)); tauto).
      split; [|exact Ei].
      exists j. split; [lia|]. split; [exact Aj|]. intros k Hk. apply H. lia.
    - intros [(j & Hj & Aj & H) Ei]. exists j. split; [lia|]. split; [exact Aj|].
      intros k Hk. destruct (Nat.eq_dec k i) as [->|]; [right; exact Ei|]. apply H; lia.
  Qed.

  Lemma target_iff i : target i <-> ~ annot i /\ line lines i <> "@" /\ pendingP i.
  Proof. reflexivity. Qed.

  Lemma OpenBefore_fun i b1 b2 : opened i b1 -> opened i b2 -> b1 = b2.
  Proof.
    intros H1; revert b2; induction H1 as [|i b H1 IH N|i b H1 IH S1]; intros b2 H2;
      inversion H2; subst; try tauto; auto.
    - f_equal; auto.
  Qed.

  (** Invariant carried along the loop at position [i]. *)
  Definition inv (i : nat) (st : mstate) : Prop :=
    (mark_next st = true <-> pendingP i) /\ opened i (in_str st).

  Definition marked_as (i : nat) (l l' : string) : Prop :=
    (must_mark lines scans rm_literals min pkgs i /\ l' = marker ++ l) \/
    (~ must_mark lines scans rm_literals min pkgs i /\ l' = l).

  Lemma is_import_iff s :
    startswith (py_strip s) "import " || startswith (py_strip s) "from " = true <-> is_import s.
  Proof. unfold startswith, is_import. rewrite orb_true_iff, !prefix_spec. tauto. Qed.

  Lemma step_ok i st st' l' sc :
    nth_error lines i = Some (line lines i) ->
    sc = nth i scans "" ->
    inv i st ->
    mark_step min pkgs st (line lines i) (Some sc) = Some (st', l') ->
    inv (S i) st' /\ marked_as i (line lines i) l'.
  Proof.
    intros Hn -> [Hp Ho] H. unfold mark_step in H.
    destruct (contains annotation (line lines i)) eqn:CA.
    - apply contains_spec in CA. assert (A : annot i) by exact CA.
      assert (NT : ~ target i) by (rewrite target_iff; tauto).
      assert (NS : ~ is_scanned lines i) by (unfold is_scanned; tauto).
      injection H as <- <-. split.
      + split; cbn.
        * split; [intros _; apply pending_step_annot, A|reflexivity].
        * apply ob_skip; assumption.
      + right. split; [|reflexivity]. unfold must_mark. tauto.
    - assert (NA : ~ annot i).
      { intros A. apply contains_spec in A. unfold annotation in CA. congruence. }
      destruct (mark_next st && negb (String.eqb (line lines i) "@")) eqn:MT.
      + apply andb_true_iff in MT as [M1 M2]. apply negb_true_iff, String.eqb_neq in M2.
        assert (T : target i). { rewrite target_iff. repeat split; auto. apply Hp, M1. }
        assert (NS : ~ is_scanned lines i) by (unfold is_scanned; tauto).
        injection H as <- <-. split.
        * split; cbn.
          -- rewrite pending_step_other by exact NA. split; [discriminate|tauto].
          -- apply ob_skip; assumption.
        * left. split; [left; exact T|reflexivity].
      + assert (NT : ~ target i).
        { rewrite target_iff. intros (_ & N2 & P). apply Hp in P. rewrite P in MT.
          apply String.eqb_neq in N2. rewrite N2 in MT. discriminate. }
        assert (SC : is_scanned lines i) by (split; assumption).
        set (rm := rm_literals (nth i scans "")) in *.
        assert (Hrm : scan scans rm_literals i = rm) by reflexivity.
        set (now := xorb (in_str st) (Nat.odd (py_count rm q3))) in *.
        assert (ON : opened (S i) now) by (apply ob_scan; assumption).
        assert (PN : mark_next st = true <-> pendingP (S i)).
        { rewrite pending_step_other by exact NA. rewrite Hp. split; [|tauto].
          intros P. split; [exact P|]. apply Hp in P. rewrite P in MT. cbn in MT.
          apply negb_false_iff, String.eqb_eq in MT. exact MT. }
        destruct (in_str st || now) eqn:OO.
        * injection H as <- <-. split; [split; assumption|].
          right. split; [|reflexivity]. intros [T|(_ & O1 & O2 & _)]; [tauto|].
          pose proof (OpenBefore_fun _ _ _ O1 Ho). pose proof (OpenBefore_fun _ _ _ O2 ON).
          rewrite <- H, <- H0 in OO. discriminate.
        * apply orb_false_elim in OO as [O1 O2].
          destruct (min && (startswith (py_strip rm) "import " || startswith (py_strip rm) "from ")) eqn:MI.
          -- injection H as <- <-. split; [split; assumption|].
             apply andb_true_iff in MI as [M1 M2]. apply is_import_iff in M2.
             right. split; [|reflexivity].
             intros [T|(_ & _ & _ & NI & _)]; [tauto|]. apply (NI M1). exact M2.
          -- assert (NI : min = true -> ~ is_import rm).
             { intros M1 M2. apply is_import_iff in M2. rewrite M1, M2 in MI. discriminate. }
             rewrite O1 in Ho. rewrite O2 in ON.
             destruct (uses_package pkgs rm) eqn:U.
             ++ injection H as <- <-. split; [split; [exact PN|rewrite O2; exact ON]|].
                left. split; [|reflexivity]. right. repeat split; auto.
                apply uses_package_spec in U. exact U.
             ++ injection H as <- <-. split; [split; [exact PN|rewrite O2; exact ON]|].
                right. split; [|reflexivity].
                intros [T|(_ & _ & _ & _ & E)]; [tauto|].
                apply uses_package_spec in E. rewrite Hrm in E. congruence.
  Qed.

  Lemma lines_ok : forall suf pre st out,
    lines = (pre ++ suf)%list -> inv (List.length pre) st ->
    mark_lines min pkgs st suf (skipn (List.length pre) scans) = Some out ->
    forall j, (j < List.length suf)%nat ->
      marked_as (List.length pre + j) (nth j suf "") (nth j out "").
  Proof.
    induction suf as [|l suf IH]; intros pre st out E I H j Hj; [simpl in Hj; lia|].
    cbn [mark_lines] in H.
    assert (Lp : (List.length pre < List.length scans)%nat).
    { rewrite <- same_len, E, app_length. simpl. lia. }
    assert (Sk : skipn (List.length pre) scans
                 = nth (List.length pre) scans "" :: skipn (S (List.length pre)) scans).
    { clear -Lp. revert scans Lp. induction (List.length pre) as [|n IHn]; intros [|s scs] Lp; simpl in Lp; try lia.
      - reflexivity.
      - cbn [skipn nth]. rewrite IHn by lia. destruct scs; reflexivity. }
    rewrite Sk in H.
    assert (Ln : line lines (List.length pre) = l).
    { unfold line. rewrite E, app_nth2 by lia. rewrite Nat.sub_diag. reflexivity. }
    assert (Le : nth_error lines (List.length pre) = Some (line lines (List.length pre))).
    { rewrite Ln, E, nth_error_app2 by lia. rewrite Nat.sub_diag. reflexivity. }
    destruct (mark_step min pkgs st l (Some (nth (List.length pre) scans ""))) as [[st' l']|] eqn:S1; [|discriminate].
    destruct (mark_lines min pkgs st' suf (skipn (S (List.length pre)) scans)) as [r|] eqn:S2; [|discriminate].
    injection H as <-.
    rewrite <- Ln in S1.
    destruct (step_ok (List.length pre) st st' l' _ Le eq_refl I S1) as [I' MA].
    destruct j as [|j].
    - rewrite Nat.add_0_r. cbn [nth]. rewrite <- Ln. exact MA.
    - cbn [nth]. specialize (IH (pre ++ [l])%list st' r).
      rewrite app_length in IH. cbn [List.length] in IH.
      replace (List.length pre + 1)%nat with (S (List.length pre)) in IH by lia.
      replace (List.length pre + S j)%nat with (S (List.length pre) + j)%nat by lia.
      apply IH.
      + rewrite E, <- app_assoc. reflexivity.
      + exact I'.
      + exact S2.
      + simpl in Hj. lia.
  Qed.

  Lemma init_inv : inv 0 (MS false false).
  Proof.
    split; cbn.
    - split; [discriminate|]. intros (j & Hj & _). lia.
    - constructor.
  Qed.
End Exact.

Lemma Forall2_len {A B} (R : A -> B -> Prop) l l' :
  Forall2 R l l' -> List.length l = List.length l'.
Proof. induction 1; simpl; congruence. Qed.

Lemma mark_exact (min : bool) pkgs keep code out :
  mark_unsupport min pkgs keep code = Some out ->
  let lines := split_on nl code in
  let scans := split_on nl (if min then mask_apis keep code else code) in
  List.length (split_on nl out) = List.length lines /\
  forall i, (i < List.length lines)%nat ->
    (must_mark lines scans rm_literals min pkgs i ->
       nth i (split_on nl out) "" = ">>>>>>" ++ nth i lines "") /\
    (~ must_mark lines scans rm_literals min pkgs i ->
       nth i (split_on nl out) "" = nth i lines "").
Proof.
  intros H lines scans.
  destruct (mark_unsupport_inv _ _ _ _ _ H) as (ls & M & E & F).
  rewrite E. split.
  - symmetry. eapply Forall2_len; exact F.
  - intros i Hi.
    assert (SL : List.length lines = List.length scans).
    { symmetry. apply scan_lines_length. }
    pose proof (lines_ok min pkgs lines scans SL lines [] (MS false false) ls eq_refl
                  (init_inv lines scans SL) M i Hi) as MA.
    cbn [List.length plus] in MA. destruct MA as [[A B]|[A B]]; split; intros; tauto.
Qed.

(** No packages and no annotation: identity. *)
Lemma mark_lines_id min ls : forall st scs out,
  mark_next st = false ->
  Forall (fun l => contains annotation l = false) ls ->
  mark_lines min [] st ls scs = Some out -> out = ls.
Proof.
  induction ls as [|l ls IH]; intros st scs out M F; cbn [mark_lines].
  - congruence.
  - inversion_clear F as [|? ? F1 F2].
    destruct (match scs with [] => (None, []) | x :: xs => (Some x, xs) end) as [sc scs'].
    destruct (mark_step min [] st l sc) as [[st' l']|] eqn:S1; [|discriminate].
    destruct (mark_lines min [] st' ls scs') as [r|] eqn:S2; [|discriminate].
    intros H; injection H as <-.
    unfold mark_step in S1. rewrite F1, M in S1. cbn in S1.
    destruct sc as [sc|]; [|discriminate].
    assert (l' = l /\ mark_next st' = false) as [-> M'].
    { repeat match type of S1 with
             | (if ?b then _ else _) = _ => destruct b
             end; injection S1 as <- <-; auto. }
    f_equal. eapply IH; eassumption.
Qed.

Lemma contains_in_split text code :
  no_char nl text -> text <> "" ->
  contains text code = false -> Forall (fun l => contains text l = false) (split_on nl code).
Proof.
  intros NC NE H. apply Forall_forall. intros l Hl.
  destruct (contains text l) eqn:C; [|reflexivity]. exfalso.
  apply contains_spec in C as (a & b & ->).
  apply in_split in Hl as (l1 & l2 & E).
  assert (contains text code = true); [|congruence].
  apply contains_spec. rewrite <- (join_split nl code), E. unfold join.
  clear. induction l1 as [|x l1 IH].
  - destruct l2 as [|y l2].
    + exists a, b. reflexivity.
    + cbn [app]. rewrite concat_cons2. rewrite !app_assoc_s.
      eexists _, _. reflexivity.
  - destruct IH as (p & q & IH).
    cbn [app]. destruct (List.app l1 ((a ++ text ++ b) :: l2)) as [|z zs] eqn:Z.
    + destruct l1; discriminate.
    + rewrite concat_cons2, IH. exists (x ++ String nl "" ++ p), q.
      rewrite !app_assoc_s. reflexivity.
Qed.

Lemma mark_clean min keep code :
  contains "Not Support auto convert" code = false ->
  mark_unsupport min [] keep code = Some code.
Proof.
  intros H. destruct (mark_total min [] keep code) as [out Ho]. rewrite Ho.
  destruct (mark_unsupport_inv _ _ _ _ _ Ho) as (ls & M & E & F).
  apply mark_lines_id in M; [|reflexivity|].
  - f_equal. rewrite <- (join_split nl out), E, M. apply join_split.
  - apply contains_in_split; [cbv; repeat split; discriminate|discriminate|exact H].
Qed.

(** The order in which packages are tried does not matter. *)
Lemma uses_package_perm p1 p2 s :
  (forall x, In x p1 <-> In x p2) -> uses_package p1 s = uses_package p2 s.
Proof.
  intros H. apply eq_true_iff_eq. rewrite !uses_package_spec.
  split; intros (p & Hp & U); exists p; (split; [apply H, Hp|exact U]).
Qed.

(** * Literal removal is a function of the line *)

Lemma app_same_length a b c d :
  a ++ b = c ++ d -> String.length a = String.length c -> a = c /\ b = d.
Proof.
  revert c; induction a as [|x a IH]; intros [|y c] E L; try discriminate L; cbn [append] in E.
  - auto.
  - injection E as -> E. simpl in L. destruct (IH c E ltac:(lia)) as [-> ->]. auto.
Qed.

Lemma q_free_split q m m' r r' :
  q_free q m -> q_free q m' -> m ++ String q r = m' ++ String q r' -> m = m' /\ r = r'.
Proof.
  revert m'; induction m as [|x m IH]; intros [|y m'] F F' E; cbn [append] in E.
  - injection E as ->. auto.
  - injection E as -> E. simpl in F'. tauto.
  - injection E as -> E. simpl in F. tauto.
  - injection E as -> E. simpl in F, F'. destruct (IH m' (proj2 F) (proj2 F') E) as [-> ->]. auto.
Qed.

Lemma Erased_fun q d' s t1 t2 :
  Erased q (String q d') s t1 -> Erased q (String q d') s t2 -> t1 = t2.
Proof.
  set (d := String q d'). intros H1; revert t2.
  induction H1 as [s N|a m b t NE F Hmin H1 IH]; intros t2 H2.
  - inversion H2 as [s' N'|a' m' b' t' NE' F' Hmin' H2' E]; subst; [reflexivity|].
    exfalso. apply (N a' m' b' NE' F'). reflexivity.
  - inversion H2 as [s' N' E|a' m' b' t' NE' F' Hmin' H2' E]; subst.
    + exfalso. apply (N' a m b NE F). reflexivity.
    + assert (L : String.length a = String.length a').
      { pose proof (Hmin a' m' b' NE' F' (eq_sym E)).
        pose proof (Hmin' a m b NE F E). lia. }
      destruct (app_same_length _ _ _ _ E (eq_sym L)) as [-> E2].
      apply (app_inj_l d) in E2.
      change (d ++ b') with (String q (d' ++ b')) in E2.
      change (d ++ b) with (String q (d' ++ b)) in E2.
      destruct (q_free_split _ _ _ _ _ F' F E2) as [-> E3].
      apply (app_inj_l d') in E3. subst b'. f_equal. apply IH, H2'.
Qed.

(** The three erasures of converter.py:513-515, as a relation. *)
Definition literals_removed (s t : string) : Prop :=
  exists s1 s2,
    Erased quote2 (String quote2 (String quote2 (String quote2 ""))) s s1 /\
    Erased quote2 (String quote2 "") s1 s2 /\
    Erased quote1 (String quote1 "") s2 t.

Lemma rm_literals_removed s : literals_removed s (rm_literals s).
Proof.
  unfold rm_literals. eexists _, _. repeat split; apply rm_quoted_Erased.
Qed.

Lemma literals_removed_fun s t1 t2 :
  literals_removed s t1 -> literals_removed s t2 -> t1 = t2.
Proof.
  intros (a1 & a2 & A & B & C) (b1 & b2 & A' & B' & C').
  pose proof (Erased_fun _ _ _ _ _ A A'); subst b1.
  pose proof (Erased_fun _ _ _ _ _ B B'); subst b2.
  exact (Erased_fun _ _ _ _ _ C C').
Qed.

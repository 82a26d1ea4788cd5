(** Proofs about the helper registry and fresh names. *)
From Coq Require Import Lia.
From Verif Require Import PyStr PyStrFacts PyDict PyDictFacts UtilsFile UtilsSpec.

(** * Character-wise facts about stripping *)

Fixpoint all_chars (p : ascii -> bool) (s : string) : bool :=
  match s with EmptyString => true | String c r => p c && all_chars p r end.

Lemma all_chars_app p a b : all_chars p (a ++ b) = all_chars p a && all_chars p b.
Proof. induction a; simpl; [reflexivity|]. rewrite IHa. apply andb_assoc. Qed.

Lemma spaces_only_iff s : spaces_only s <-> all_chars is_space s = true.
Proof.
  split.
  - induction s as [|c r IH]; intros H; [reflexivity|]. simpl.
    rewrite (H "" c r eq_refl). simpl. apply IH. intros a d b E.
    apply (H (String c a) d b). rewrite E. reflexivity.
  - intros H a c b E. subst s. rewrite all_chars_app in H. simpl in H.
    apply andb_true_iff in H as [_ H]. apply andb_true_iff in H. tauto.
Qed.

Lemma lstrip_split p s : exists a, s = a ++ lstrip_by p s /\ all_chars p a = true /\
  match lstrip_by p s with EmptyString => True | String c _ => p c = false end.
Proof.
  induction s as [|c r IH]; simpl; [exists ""; auto|].
  destruct (p c) eqn:P.
  - destruct IH as (a & E & A & B). exists (String c a). simpl. rewrite P, <- E. auto.
  - exists "". auto.
Qed.

Lemma lstrip_nil p s : lstrip_by p s = "" <-> all_chars p s = true.
Proof.
  induction s as [|c r IH]; simpl; [tauto|].
  destruct (p c); simpl; [exact IH|]. split; discriminate.
Qed.

Lemma lstrip_app p a s : all_chars p a = true -> lstrip_by p (a ++ s) = lstrip_by p s.
Proof.
  induction a as [|c r IH]; simpl; intros H; [reflexivity|].
  apply andb_true_iff in H as [H1 H2]. rewrite H1. auto.
Qed.

Lemma rstrip_nil p s : rstrip_by p s = "" <-> all_chars p s = true.
Proof.
  induction s as [|c r IH]; simpl; [tauto|].
  destruct (rstrip_by p r) eqn:E.
  - destruct (p c); simpl; [tauto|]. split; discriminate.
  - split; [discriminate|]. intros H. apply andb_true_iff in H as [_ H].
    apply IH in H. discriminate.
Qed.

Lemma rstrip_app p s b : all_chars p b = true -> rstrip_by p (s ++ b) = rstrip_by p s.
Proof.
  intros H. induction s as [|c r IH]; simpl.
  - apply rstrip_nil. exact H.
  - rewrite IH. reflexivity.
Qed.

Lemma rstrip_keep p s c : p c = false -> rstrip_by p (s ++ String c "") = s ++ String c "".
Proof.
  intros H. induction s as [|d r IH]; simpl.
  - rewrite H. reflexivity.
  - rewrite IH. destruct (r ++ String c "") eqn:E; [|reflexivity].
    destruct r; discriminate.
Qed.

Lemma rstrip_split p s : exists b, s = rstrip_by p s ++ b /\ all_chars p b = true.
Proof.
  induction s as [|c r IH]; simpl; [exists ""; auto|].
  destruct IH as (b & E & B). destruct (rstrip_by p r) eqn:R.
  - simpl in E. subst b. destruct (p c) eqn:P.
    + exists (String c r). simpl. rewrite P. auto.
    + exists r. auto.
  - exists b. split; [|exact B]. simpl. f_equal. exact E.
Qed.

Lemma rstrip_last p s u c : rstrip_by p s = u ++ String c "" -> p c = false.
Proof.
  revert u. induction s as [|d r IH]; simpl; intros u H; [destruct u; discriminate|].
  destruct (rstrip_by p r) eqn:R.
  - destruct (p d) eqn:P; [destruct u; discriminate|].
    destruct u as [|e u]; simpl in H; [injection H as <-; exact P|].
    injection H as _ H. destruct u; discriminate.
  - destruct u as [|e u]; simpl in H; [discriminate|].
    injection H as _ H. apply (IH u). exact H.
Qed.

Lemma trimmed_rstrip c : trimmed c (rstrip_by (Ascii.eqb nl) c).
Proof.
  split.
  - destruct (rstrip_split (Ascii.eqb nl) c) as (b & E & B).
    exists (String.length b).
    assert (R : forall b, all_chars (Ascii.eqb nl) b = true ->
              b = String.concat "" (repeat nls (String.length b))).
    { clear. induction b as [|d r IH]; intros H; [reflexivity|].
      cbn [all_chars] in H. apply andb_true_iff in H as [H1 H2].
      apply Ascii.eqb_eq in H1. subst d. cbn [String.length repeat].
      specialize (IH H2). destruct r as [|e r]; [reflexivity|].
      cbn [String.length repeat] in *. cbn [String.concat] in *. rewrite IH at 1. reflexivity. }
    rewrite <- (R b B). exact E.
  - intros (u & E). apply rstrip_last in E. rewrite Ascii.eqb_refl in E. discriminate.
Qed.

Lemma all_nl_repeat k : all_chars (Ascii.eqb nl) (String.concat "" (repeat nls k)) = true.
Proof.
  induction k as [|k IH]; [reflexivity|]. destruct k; [reflexivity|].
  cbn [repeat String.concat] in *. exact IH.
Qed.

Lemma last_char s : s = "" \/ exists u c, s = u ++ String c "".
Proof.
  induction s as [|c r [->|(u & d & ->)]]; [auto| |]; right.
  - exists "", c. reflexivity.
  - exists (String c u), d. reflexivity.
Qed.

Lemma trimmed_fun c t : trimmed c t -> t = rstrip_by (Ascii.eqb nl) c.
Proof.
  intros [(k & ->) H]. rewrite rstrip_app by apply all_nl_repeat.
  destruct (last_char t) as [->|(u & d & ->)]; [reflexivity|].
  symmetry. apply rstrip_keep. destruct (Ascii.eqb nl d) eqn:E; [|reflexivity].
  apply Ascii.eqb_eq in E. subst d. exfalso. apply H. exists u. reflexivity.
Qed.

(** * Lines *)

Lemma strip_nil l : py_strip l = "" <-> spaces_only l.
Proof.
  rewrite spaces_only_iff. unfold py_strip, strip_by. rewrite rstrip_nil.
  split; intros H.
  - destruct (lstrip_split is_space l) as (a & E & A & B). rewrite E, all_chars_app, A, H. reflexivity.
  - apply lstrip_nil in H. rewrite H. reflexivity.
Qed.

(** [p] has first and last characters that are not blank or is a word and a space. *)
Lemma strip_prefix_hash l :
  startswith (py_strip l) "#" = true <-> exists a b, spaces_only a /\ l = a ++ String "#" b.
Proof.
  unfold startswith, py_strip, strip_by. split.
  - intros H. apply prefix_spec in H as (t & H).
    destruct (lstrip_split is_space l) as (a & E & A & _).
    destruct (rstrip_split is_space (lstrip_by is_space l)) as (b & E2 & _).
    rewrite H in E2. exists a, (t ++ b). rewrite spaces_only_iff. split; [exact A|].
    rewrite E, E2. simpl. reflexivity.
  - intros (a & b & A & ->). apply spaces_only_iff in A. rewrite (lstrip_app _ _ _ A).
    cbn [lstrip_by]. change (is_space "#") with false. cbv iota.
    cbn [rstrip_by]. change (is_space "#") with false. cbv iota.
    destruct (rstrip_by is_space b); reflexivity.
Qed.

Lemma rstrip_app_nonblank p a b : all_chars p b = false -> rstrip_by p (a ++ b) = a ++ rstrip_by p b.
Proof.
  intros H. induction a as [|c r IH]; [reflexivity|]. simpl. rewrite IH.
  destruct (r ++ rstrip_by p b) eqn:E; [|reflexivity].
  assert (rstrip_by p b = "") by (destruct r; [exact E|discriminate]).
  apply rstrip_nil in H0. congruence.
Qed.

Lemma strip_prefix_word w c0 w' l :
  w = String c0 w' -> is_space c0 = false -> 
  startswith (py_strip l) (w ++ " ") = true <-> starts_with_word w l.
Proof.
  intros Ew Hw. unfold startswith, py_strip, strip_by, starts_with_word. split.
  - intros H. apply prefix_spec in H as (t & H).
    destruct (lstrip_split is_space l) as (a & E & A & _).
    destruct (rstrip_split is_space (lstrip_by is_space l)) as (b & E2 & B).
    rewrite H in E2. exists a, (t ++ b). rewrite spaces_only_iff. split; [exact A|].
    split; [rewrite E, E2, !app_assoc_s; reflexivity|].
    intros S. apply spaces_only_iff in S. rewrite all_chars_app in S.
    apply andb_true_iff in S as [S _].
    assert (R : rstrip_by is_space (w ++ " " ++ t) = rstrip_by is_space w).
    { apply (rstrip_app is_space w (" " ++ t)). simpl. exact S. }
    rewrite <- app_assoc_s, <- H in R.
    assert (I : forall s, rstrip_by is_space (rstrip_by is_space s) = rstrip_by is_space s).
    { intros s. destruct (last_char (rstrip_by is_space s)) as [->|(u & c & X)]; [reflexivity|].
      rewrite X. apply rstrip_keep. apply (rstrip_last _ _ _ _ X). }
    rewrite I, H in R.
    destruct (rstrip_split is_space w) as (b3 & E3 & _).
    apply (f_equal String.length) in R. apply (f_equal String.length) in E3.
    rewrite !length_app_s in R. rewrite length_app_s in E3. simpl in R. lia.
  - intros (a & b & A & -> & B). apply spaces_only_iff in A. rewrite (lstrip_app _ _ _ A).
    assert (L : lstrip_by is_space (w ++ " " ++ b) = w ++ " " ++ b).
    { subst w. cbn. rewrite Hw. reflexivity. }
    rewrite L. rewrite <- app_assoc_s.
    rewrite rstrip_app_nonblank; [apply prefix_app|].
    destruct (all_chars is_space b) eqn:X; [|reflexivity]. exfalso. apply B.
    apply spaces_only_iff. exact X.
Qed.

Lemma strip_import l : startswith (py_strip l) "import " = true <-> starts_with_word "import" l.
Proof. apply (strip_prefix_word "import" "i" "mport"); reflexivity. Qed.
Lemma strip_from l : startswith (py_strip l) "from " = true <-> starts_with_word "from" l.
Proof. apply (strip_prefix_word "from" "f" "rom"); reflexivity. Qed.

Lemma endswith_spec s p : endswith s p = true <-> exists a, s = a ++ p.
Proof.
  induction s as [|c r IH]; cbn [endswith]; rewrite orb_true_iff.
  - rewrite String.eqb_eq. split; [intros [H|H]; [exists ""; exact H|discriminate]|].
    intros (a & E). destruct a; [left; exact E|discriminate].
  - rewrite IH, String.eqb_eq. split.
    + intros [E|(a & ->)]; [exists ""; exact E|exists (String c a); reflexivity].
    + intros (a & E). destruct a as [|d a]; [left; exact E|].
      injection E as -> ->. right. exists a. reflexivity.
Qed.

Lemma bs_end_spec l : bs_end l = true <-> backslash_end l.
Proof.
  unfold bs_end, py_rstrip, backslash_end. rewrite endswith_spec. split.
  - intros (a & E). destruct (rstrip_split is_space l) as (b & E2 & B).
    exists a, b. rewrite spaces_only_iff. split; [|exact B].
    rewrite E2, E, app_assoc_s. reflexivity.
  - intros (a & b & -> & B). apply spaces_only_iff in B.
    exists a. change (String "\" b) with ("\" ++ b). rewrite <- app_assoc_s, rstrip_app by exact B.
    apply rstrip_keep. reflexivity.
Qed.

Lemma count_zero sub s : contains sub s = false -> py_count s sub = 0.
Proof.
  unfold py_count. induction s as [|c r IH]; [reflexivity|]. intros H.
  apply orb_false_iff in H as [H1 H2]. cbn [count_aux]. rewrite H1. auto.
Qed.

Lemma no_paren_delta l : has_paren l = false -> parens l = 0%Z.
Proof.
  unfold has_paren, parens. intros H. apply orb_false_iff in H as [H1 H2].
  rewrite !count_zero by assumption. reflexivity.
Qed.

Lemma open_parens_app a b : open_parens (a ++ b) = (open_parens a + open_parens b)%Z.
Proof. induction a; simpl; [lia|]. unfold open_parens in *. simpl. lia. Qed.

(** * Insertion point *)

Lemma nth_last {A} (pre : list A) l tail :
  nth_error (pre ++ l :: tail) (List.length pre) = Some l.
Proof. rewrite nth_error_app2 by lia. rewrite Nat.sub_diag. reflexivity. Qed.

Definition cont_inv (from : bool) (b : list string) : Prop :=
  (exists h t, b = h :: t /\ starts_with_word (if from then "from" else "import") h) /\
  forall before l after, b = (before ++ l :: after)%list -> after <> [] -> continues from before l.

Lemma block_snoc from b l x :
  import_block from (b ++ [l]) -> continues from b l -> import_block from ((b ++ [l]) ++ [x]).
Proof.
  intros [(h & t & E & Hh) C] Hc. split.
  - exists h, (t ++ [x])%list. rewrite E. auto.
  - intros before m after E2 Na.
    destruct (exists_last Na) as (after' & y & ->).
    assert (E3 : (b ++ [l] = before ++ m :: after')%list).
    { apply (app_inj_tail _ _ x y). rewrite E2. rewrite <- app_assoc. reflexivity. }
    destruct after' as [|z after'].
    + apply app_inj_tail in E3 as [-> ->]. exact Hc.
    + apply (C before m (z :: after') E3). discriminate.
Qed.

Lemma import_loop_spec tail : forall fuel pre b l,
  (List.length tail < fuel)%nat -> import_block false (b ++ [l]) ->
  let lines := (pre ++ (b ++ [l]) ++ tail)%list in
  let i := List.length (pre ++ b ++ [l]) in
  exists b' tail', tail = (b' ++ tail')%list /\
    import_loop fuel lines i i = Some (i + List.length b', i + List.length b')%nat /\
    import_block false ((b ++ [l]) ++ b') /\
    (complete false ((b ++ [l]) ++ b') \/ tail' = []).
Proof.
  induction tail as [|x tail IH]; intros fuel pre b l Hf Hb lines i.
  - exists [], []. repeat split; auto; try rewrite app_nil_r; try apply Hb; auto.
    destruct fuel; [inversion Hf|]. simpl.
    assert ((i <? List.length lines)%nat = false) as ->.
    { apply Nat.ltb_ge. unfold i, lines. rewrite app_nil_r. lia. }
    rewrite Nat.add_0_r. reflexivity.
  - destruct fuel as [|fuel]; [inversion Hf|].
    assert (L : (i <? List.length lines)%nat = true).
    { apply Nat.ltb_lt. unfold i, lines. rewrite !app_length. simpl. lia. }
    assert (N : nth_error lines (i - 1) = Some l).
    { unfold lines, i. replace (pre ++ (b ++ [l]) ++ x :: tail)%list with ((pre ++ b) ++ l :: x :: tail)%list
        by (rewrite <- !app_assoc; reflexivity).
      replace (List.length (pre ++ b ++ [l]) - 1)%nat with (List.length (pre ++ b))
        by (rewrite !app_length; simpl; lia). apply nth_last. }
    cbn [import_loop]. rewrite L, N. destruct (bs_end l) eqn:Bs.
    + assert (Hc : continues false b l) by (left; apply bs_end_spec; exact Bs).
      pose proof (block_snoc _ _ _ x Hb Hc) as Hb2.
      destruct (IH fuel pre (b ++ [l])%list x ltac:(simpl in Hf; lia) Hb2) as (b' & tail' & E & R & P & Q).
      exists (x :: b'), tail'. rewrite E. split; [reflexivity|].
      replace (pre ++ ((b ++ [l]) ++ [x]) ++ tail)%list with lines in R
        by (unfold lines; rewrite <- !app_assoc; reflexivity).
      replace (List.length (pre ++ (b ++ [l]) ++ [x])) with (S i) in R
        by (unfold i; rewrite !app_length; simpl; lia).
      split; [rewrite R; simpl; f_equal; f_equal; lia|].
      rewrite <- app_assoc in P, Q. exact (conj P Q).
    + exists [], (x :: tail). rewrite app_nil_r. split; [reflexivity|].
      split; [simpl; rewrite Nat.add_0_r; reflexivity|]. split; [exact Hb|]. left.
      intros before m E Hc. apply app_inj_tail in E as [-> ->].
      destruct Hc as [Hc|[Hc _]]; [|discriminate]. apply bs_end_spec in Hc. congruence.
Qed.

Lemma from_loop_spec tail : forall fuel pre b l saw,
  (List.length tail < fuel)%nat -> import_block true (b ++ [l]) ->
  (saw = false -> open_parens (b ++ [l]) = 0%Z) ->
  let lines := (pre ++ (b ++ [l]) ++ tail)%list in
  let i := List.length (pre ++ b ++ [l]) in
  exists b' tail', tail = (b' ++ tail')%list /\
    from_loop fuel lines i i (open_parens (b ++ [l])) saw = Some (i + List.length b', i + List.length b')%nat /\
    import_block true ((b ++ [l]) ++ b') /\
    (complete true ((b ++ [l]) ++ b') \/ tail' = []).
Proof.
  induction tail as [|x tail IH]; intros fuel pre b l saw Hf Hb Hs lines i.
  - exists [], []. repeat split; auto; try rewrite app_nil_r; try apply Hb; auto.
    destruct fuel; [inversion Hf|]. cbn [from_loop].
    assert ((i <? List.length lines)%nat = false) as ->.
    { apply Nat.ltb_ge. unfold i, lines. rewrite app_nil_r. lia. }
    simpl. rewrite Nat.add_0_r. reflexivity.
  - destruct fuel as [|fuel]; [inversion Hf|].
    assert (L : (i <? List.length lines)%nat = true).
    { apply Nat.ltb_lt. unfold i, lines. rewrite !app_length. simpl. lia. }
    assert (N : nth_error lines (i - 1) = Some l).
    { unfold lines, i. replace (pre ++ (b ++ [l]) ++ x :: tail)%list with ((pre ++ b) ++ l :: x :: tail)%list
        by (rewrite <- !app_assoc; reflexivity).
      replace (List.length (pre ++ b ++ [l]) - 1)%nat with (List.length (pre ++ b))
        by (rewrite !app_length; simpl; lia). apply nth_last. }
    assert (N2 : nth_error lines i = Some x).
    { unfold lines, i. rewrite app_assoc. apply nth_last. }
    cbn [from_loop]. rewrite L, N, N2.
    assert (D : saw && (0 <? open_parens (b ++ [l]))%Z = (0 <? open_parens (b ++ [l]))%Z).
    { destruct saw; [reflexivity|]. rewrite Hs by reflexivity. reflexivity. }
    rewrite D. destruct (negb (bs_end l) && negb (0 <? open_parens (b ++ [l]))%Z) eqn:Stop.
    + exists [], (x :: tail). rewrite app_nil_r. split; [reflexivity|].
      split; [simpl; rewrite Nat.add_0_r; reflexivity|]. split; [exact Hb|]. left.
      apply andb_true_iff in Stop as [S1 S2].
      intros before m E Hc. apply app_inj_tail in E as [-> ->].
      destruct Hc as [Hc|[_ Hc]].
      * apply bs_end_spec in Hc. rewrite Hc in S1. discriminate.
      * apply Z.ltb_lt in Hc. rewrite Hc in S2. discriminate.
    + assert (Hc : continues true b l).
      { apply andb_false_iff in Stop as [S|S]; apply negb_false_iff in S.
        - left. apply bs_end_spec. exact S.
        - right. split; [reflexivity|]. apply Z.ltb_lt. exact S. }
      pose proof (block_snoc _ _ _ x Hb Hc) as Hb2.
      assert (Hs2 : saw || has_paren x = false -> open_parens ((b ++ [l]) ++ [x]) = 0%Z).
      { intros H. apply orb_false_iff in H as [H1 H2].
        rewrite (open_parens_app (b ++ [l])). rewrite Hs by exact H1.
        simpl. rewrite no_paren_delta by exact H2. reflexivity. }
      destruct (IH fuel pre (b ++ [l])%list x (saw || has_paren x) ltac:(simpl in Hf; lia) Hb2 Hs2)
        as (b' & tail' & E & R & P & Q).
      exists (x :: b'), tail'. rewrite E. split; [reflexivity|].
      replace (pre ++ ((b ++ [l]) ++ [x]) ++ tail)%list with lines in R
        by (unfold lines; rewrite <- !app_assoc; reflexivity).
      replace (List.length (pre ++ (b ++ [l]) ++ [x])) with (S i) in R
        by (unfold i; rewrite !app_length; simpl; lia).
      replace (open_parens ((b ++ [l]) ++ [x])) with (open_parens (b ++ [l]) + paren_delta x)%Z in R
        by (rewrite (open_parens_app (b ++ [l]) [x]); simpl; unfold paren_delta, parens; lia).
      split; [rewrite R; simpl; f_equal; f_equal; lia|].
      rewrite <- app_assoc in P, Q. exact (conj P Q).
Qed.

Lemma filler_iff l :
  (String.eqb (py_strip l) "" || startswith (py_strip l) "#") = true <-> filler l.
Proof.
  rewrite orb_true_iff, String.eqb_eq, strip_nil, strip_prefix_hash. reflexivity.
Qed.

Lemma single_block (from : bool) h :
  starts_with_word (if from then "from" else "import") h -> import_block from ([] ++ [h]).
Proof.
  intros H. split; [exists h, []; auto|]. intros before l after E Na.
  destruct before as [|? [|? ?]]; simpl in E; try discriminate.
  injection E as <- <-. congruence.
Qed.

Lemma header_prepend fill hs rest :
  Forall filler fill -> hs <> [] -> header hs rest -> header (fill ++ hs) rest.
Proof.
  intros F Ne H. destruct H as [rest|fill2 from b rest F2 I C|fill2 from b hs rest F2 I C N H].
  - congruence.
  - rewrite app_assoc. eapply header_last; eauto. apply Forall_app. auto.
  - rewrite app_assoc. eapply header_more; eauto. apply Forall_app. auto.
Qed.

Lemma find_loop_spec : forall fuel pre tail ins,
  (List.length tail < fuel)%nat ->
  let lines := (pre ++ tail)%list in
  (exists B R, tail = (B ++ R)%list /\ Forall filler B /\
     (R = [] \/ exists l R', R = l :: R' /\ ordinary l) /\
     find_loop fuel lines (List.length pre) ins = Some ins) \/
  (exists H B R, tail = (H ++ B ++ R)%list /\ H <> [] /\ header H (B ++ R) /\ Forall filler B /\
     (R = [] \/ exists l R', R = l :: R' /\ ordinary l) /\
     find_loop fuel lines (List.length pre) ins = Some (List.length pre + List.length H)%nat).
Proof.
  induction fuel as [|fuel IH]; intros pre tail ins Hf lines; [inversion Hf|].
  destruct tail as [|l tail].
  - left. exists [], []. repeat split; auto. cbn [find_loop].
    assert ((List.length pre <? List.length lines)%nat = false) as ->; [|reflexivity].
    apply Nat.ltb_ge. unfold lines. rewrite app_nil_r. lia.
  - assert (L : (List.length pre <? List.length lines)%nat = true).
    { apply Nat.ltb_lt. unfold lines. rewrite app_length. simpl. lia. }
    assert (N : nth_error lines (List.length pre) = Some l) by apply nth_last.
    cbn [find_loop]. rewrite L, N.
    destruct (String.eqb (py_strip l) "" || startswith (py_strip l) "#") eqn:Fl.
    { apply filler_iff in Fl.
      assert (El : lines = ((pre ++ [l]) ++ tail)%list) by (unfold lines; rewrite <- app_assoc; reflexivity).
      assert (Ln : S (List.length pre) = List.length (pre ++ [l])) by (rewrite app_length; simpl; lia).
      specialize (IH (pre ++ [l])%list tail ins ltac:(simpl in Hf; lia)). cbv zeta in IH.
      rewrite <- El, <- Ln in IH.
      destruct IH as [(B & R & E & F & O & Res)|(H & B & R & E & Ne & Hd & F & O & Res)].
      - left. exists (l :: B), R. rewrite E. repeat split; auto.
      - right. exists (l :: H), B, R. rewrite E. split; [reflexivity|]. split; [discriminate|].
        split; [apply (header_prepend [l]); auto|]. repeat split; auto.
        rewrite Res. simpl. f_equal. lia. }
    assert (NF : ~ filler l) by (rewrite <- filler_iff; congruence).
    assert (Key : forall (from : bool) b' tail' res,
      starts_with_word (if from then "from" else "import") l ->
      tail = (b' ++ tail')%list -> import_block from ([l] ++ b') ->
      complete from ([l] ++ b') \/ tail' = [] ->
      res = find_loop fuel lines (S (List.length pre) + List.length b') (S (List.length pre) + List.length b') ->
      exists H B R, l :: tail = (H ++ B ++ R)%list /\ H <> [] /\ header H (B ++ R) /\ Forall filler B /\
        (R = [] \/ exists l R', R = l :: R' /\ ordinary l) /\
        res = Some (List.length pre + List.length H)%nat).
    { intros from b' tail' res Hw Et Hb Hc ->.
      assert (El : lines = ((pre ++ [l] ++ b') ++ tail')%list)
        by (unfold lines; rewrite Et, <- !app_assoc; reflexivity).
      assert (Ln : (S (List.length pre) + List.length b')%nat = List.length (pre ++ [l] ++ b'))
        by (rewrite !app_length; simpl; lia).
      specialize (IH (pre ++ [l] ++ b')%list tail' (S (List.length pre) + List.length b')%nat
                 ltac:(rewrite Et in Hf; simpl in Hf; rewrite app_length in Hf; lia)). cbv zeta in IH.
      rewrite <- El, <- Ln in IH.
      destruct IH as [(B & R & E & F & O & Res)|(H & B & R & E & Ne & Hd & F & O & Res)].
      - exists ([l] ++ b')%list, B, R. rewrite Et, E. split; [reflexivity|]. split; [discriminate|].
        split; [apply (header_last [] from); auto; rewrite <- E; exact Hc|].
        repeat split; auto. rewrite Res. simpl. f_equal. lia.
      - exists ([l] ++ b' ++ H)%list, B, R. rewrite Et, E.
        split; [rewrite <- !app_assoc; reflexivity|]. split; [discriminate|].
        split.
        + rewrite app_assoc. apply (header_more [] from); auto.
          destruct Hc as [Hc|Hc]; [exact Hc|]. exfalso. apply Ne. rewrite Hc in E.
          symmetry in E. apply app_eq_nil in E. tauto.
        + repeat split; auto. rewrite Res. rewrite !app_length. simpl. f_equal. lia. }
    assert (FL : (List.length tail < S (List.length lines))%nat).
    { unfold lines. rewrite app_length. simpl. lia. }
    assert (Ln1 : List.length (pre ++ [] ++ [l]) = S (List.length pre)) by (rewrite app_length; simpl; lia).
    destruct (startswith (py_strip l) "import ") eqn:Im.
    { apply strip_import in Im. right.
      destruct (import_loop_spec tail (S (List.length lines)) pre [] l FL (single_block false l Im))
        as (b' & tail' & E & R & P & Q).
      rewrite Ln1 in R. change (pre ++ ([] ++ [l]) ++ tail)%list with lines in R. rewrite R.
      apply (Key false b' tail'); auto. }
    destruct (startswith (py_strip l) "from ") eqn:Fr.
    { apply strip_from in Fr. right.
      assert (Hs : has_paren l = false -> open_parens ([] ++ [l]) = 0%Z).
      { intros H. simpl. rewrite no_paren_delta by exact H. reflexivity. }
      destruct (from_loop_spec tail (S (List.length lines)) pre [] l (has_paren l) FL (single_block true l Fr) Hs)
        as (b' & tail' & E & R & P & Q).
      rewrite Ln1 in R. change (pre ++ ([] ++ [l]) ++ tail)%list with lines in R.
      replace (open_parens ([] ++ [l])) with (paren_delta l) in R
        by (simpl; unfold paren_delta, parens; lia).
      rewrite R. apply (Key true b' tail'); auto. }
    left. exists [], (l :: tail). repeat split; auto. right. exists l, tail.
    split; [reflexivity|]. split; [exact NF|].
    rewrite <- strip_import, <- strip_from. split; congruence.
Qed.

Lemma find_idx_spec lines : exists H B R,
  lines = (H ++ B ++ R)%list /\ find_import_insert_idx lines = Some (List.length H) /\
  header H (B ++ R) /\ Forall filler B /\ (R = [] \/ exists l R', R = l :: R' /\ ordinary l).
Proof.
  destruct (find_loop_spec (S (List.length lines)) [] lines 0 (Nat.lt_succ_diag_r _))
    as [(B & R & E & F & O & Res)|(H & B & R & E & Ne & Hd & F & O & Res)].
  - exists [], B, R. repeat split; auto. constructor.
  - exists H, B, R. repeat split; auto.
Qed.

(** Proofs that [Marker]'s masking satisfies [MaskSpec]. *)
From Coq Require Import Lia.
From Verif Require Import PyStr PyStrFacts Marker MaskSpec.

Lemma drop_app_len a b : drop (String.length a) (a ++ b) = b.
Proof. induction a; simpl; auto. Qed.

Lemma drop_zero s : drop 0 s = s.
Proof. destruct s; reflexivity. Qed.

Lemma drop_app_plus a b n : drop (String.length a + n) (a ++ b) = drop n b.
Proof. induction a; simpl; auto. Qed.

Lemma wordish_spec c : wordish c = true <-> word_or_dot c.
Proof. unfold wordish, word_or_dot. rewrite orb_true_iff, Ascii.eqb_eq. tauto. Qed.

Lemma word_not_space c : is_word c = true -> is_space c = false.
Proof. destruct c as [[] [] [] [] [] [] [] []]; vm_compute; congruence. Qed.

Lemma spaces_split s : exists w r, s = w ++ r /\ spaces s = String.length w /\ blanks w /\
  match r with EmptyString => True | String c _ => is_space c = false end.
Proof.
  induction s as [|c s IH].
  - exists "", "". repeat split. intros a c b E. destruct a; discriminate.
  - simpl. destruct (is_space c) eqn:S.
    + destruct IH as (w & r & -> & E & B & R). exists (String c w), r. simpl. rewrite E.
      repeat split; auto. intros a d b Ea. destruct a as [|x a]; simpl in Ea; injection Ea as <- Ew; [exact S|].
      apply (B _ _ _ Ew).
    + exists "", (String c s). repeat split; auto. intros a d b E. destruct a; discriminate.
Qed.

Lemma blanks_cons c w : blanks (String c w) -> is_space c = true /\ blanks w.
Proof.
  intros H. split; [apply (H "" c w eq_refl)|]. intros a d b E. apply (H (String c a) d b). rewrite E. reflexivity.
Qed.

Lemma spaces_blanks w r : blanks w ->
  match r with EmptyString => True | String c _ => is_space c = false end -> spaces (w ++ r) = String.length w.
Proof.
  intros B R. induction w as [|c w IH]; simpl.
  - destruct r; [reflexivity|]. simpl. rewrite R. reflexivity.
  - apply blanks_cons in B as [S B]. rewrite S, IH by exact B. reflexivity.
Qed.

Lemma spelled_first comps m : Forall component comps -> spelled comps m ->
  exists c r, m = String c r /\ is_word c = true.
Proof.
  intros F S. assert (H : exists c0 cs, comps = c0 :: cs /\ exists r, m = c0 ++ r).
  { destruct S as [c|c cs w1 w2 m]; [exists c, []; split; [reflexivity|exists ""; rewrite app_nil_r_s; reflexivity]|].
    exists c, cs. eauto. }
  destruct H as (c0 & cs & -> & r & ->). inversion_clear F as [|? ? [Ne W] _].
  destruct c0 as [|c c0]; [congruence|]. exists c, (c0 ++ r). split; [reflexivity|].
  apply (W "" c c0 eq_refl).
Qed.

Lemma match_comps_sound comps : forall s n, comps <> [] -> match_comps comps s = Some n ->
  exists m b, s = m ++ b /\ String.length m = n /\ spelled comps m.
Proof.
  induction comps as [|c cs IH]; intros s n Ne H; [congruence|].
  destruct cs as [|c2 cs].
  - simpl in H. destruct (prefix c s) eqn:P; [|discriminate]. injection H as <-.
    apply prefix_spec in P as (t & ->). exists c, t. repeat split. constructor.
  - remember (c2 :: cs) as cs'. cbn [match_comps] in H. rewrite Heqcs' in H at 1. cbv iota in H.
    destruct (prefix c s) eqn:P; [|discriminate].
    apply prefix_spec in P as (t & ->). rewrite drop_app_len in H.
    destruct (spaces_split t) as (w1 & r1 & -> & E1 & B1 & R1). rewrite E1, drop_app_len in H.
    destruct r1 as [|d s3]; [discriminate|].
    destruct (Ascii.eqb_spec d "."%char) as [->|]; [|discriminate].
    destruct (spaces_split s3) as (w2 & r2 & -> & E2 & B2 & R2). rewrite E2, drop_app_len in H.
    destruct (match_comps cs' r2) as [k|] eqn:M; [|discriminate]. injection H as <-.
    destruct (IH r2 k ltac:(subst cs'; discriminate) M) as (m & b & -> & L & S).
    exists (c ++ w1 ++ "." ++ w2 ++ m), b. split; [|split].
    + repeat (rewrite !app_assoc_s; cbn [append]). reflexivity.
    + repeat (rewrite !length_app_s; cbn [append String.length]). lia.
    + constructor; auto.
Qed.

Lemma match_comps_complete comps m b : Forall component comps -> spelled comps m ->
  match_comps comps (m ++ b) = Some (String.length m).
Proof.
  intros F S. revert F b. induction S as [c|c cs w1 w2 m B1 B2 S IH]; intros F b.
  - simpl. rewrite prefix_app. reflexivity.
  - inversion_clear F as [|? ? Hc Fs].
    destruct (spelled_first _ _ Fs S) as (c0 & r0 & Em & W0).
    assert (Ncs : exists x y, cs = x :: y) by (destruct S; eauto). destruct Ncs as (x & y & Ecs).
    cbn [match_comps]. rewrite Ecs at 1. cbv iota.
    rewrite !app_assoc_s. rewrite prefix_app, drop_app_len.
    change ("." ++ w2 ++ m) with (String "." (w2 ++ m)). cbn [append].
    rewrite spaces_blanks; [|exact B1|reflexivity]. rewrite drop_app_len.
    rewrite Ascii.eqb_refl. rewrite ?app_assoc_s.
    rewrite spaces_blanks; [|exact B2|rewrite Em; simpl; apply word_not_space, W0].
    rewrite drop_app_len, (IH Fs b). f_equal.
    repeat (rewrite !length_app_s; cbn [append String.length]). lia.
Qed.

Lemma spelled_len comps m m' b b' : Forall component comps -> spelled comps m -> spelled comps m' ->
  m ++ b = m' ++ b' -> m = m'.
Proof.
  intros F S S' E. pose proof (match_comps_complete _ _ b F S) as H.
  rewrite E, (match_comps_complete _ _ b' F S') in H. injection H as H.
  clear -E H. revert m' H E. induction m as [|c m IH]; intros [|c' m'] H E; try discriminate; [reflexivity|].
  simpl in *. injection E as -> E. f_equal. apply IH; [lia|exact E].
Qed.

(** [match_api] at a position is a standalone occurrence there. *)
Lemma match_api_sound api prev s n : match_api api prev s = Some n ->
  exists m b, s = m ++ b /\ String.length m = n /\ standalone (split_on "."%char api) prev "" m b.
Proof.
  unfold match_api. intros H.
  destruct (match prev with Some c => wordish c | None => false end) eqn:P; [discriminate|].
  destruct (match_comps (split_on "."%char api) s) as [k|] eqn:M; [|discriminate].
  destruct (match_comps_sound _ _ _ (split_on_nonempty _ _) M) as (m & b & -> & L & S).
  rewrite <- L, drop_app_len in H. exists m, b.
  assert (X : n = k /\ forall c b', b = String c b' -> ~ word_or_dot c).
  { destruct b as [|c b'].
    - injection H as <-. split; [exact L|]. intros; discriminate.
    - destruct (wordish c) eqn:W; [discriminate|]. injection H as <-. split; [exact L|].
      intros d b2 E. injection E as <- <-. rewrite <- wordish_spec. congruence. }
  destruct X as [-> X]. repeat split; auto.
  simpl. intros c -> . rewrite <- wordish_spec. congruence.
Qed.

Lemma match_api_complete api prev m b : Forall component (split_on "."%char api) ->
  standalone (split_on "."%char api) prev "" m b -> match_api api prev (m ++ b) = Some (String.length m).
Proof.
  intros F (S & A & B). unfold match_api.
  assert (P : match prev with Some c => wordish c | None => false end = false).
  { destruct prev as [c|]; [|reflexivity]. specialize (A c eq_refl).
    destruct (wordish c) eqn:W; [|reflexivity]. apply wordish_spec in W. tauto. }
  rewrite P, (match_comps_complete _ _ _ F S), drop_app_len.
  destruct b as [|c b']; [reflexivity|]. specialize (B c b' eq_refl).
  destruct (wordish c) eqn:W; [|reflexivity]. apply wordish_spec in W. tauto.
Qed.

Lemma hidden_mask_char c : (if is_space c then c else "_"%char) = mask_char c.
Proof.
  unfold mask_char. destruct (Ascii.eqb_spec c nl) as [->|]; [reflexivity|reflexivity].
Qed.

Lemma mask_skip mm prev m r : forall k, k = String.length m ->
  mask_aux mm prev k (m ++ r) = hidden m ++ mask_aux mm (last_or prev m) 0 r.
Proof.
  revert prev. induction m as [|c m IH]; intros prev k ->; [reflexivity|].
  cbn [append String.length mask_aux hidden last_or]. rewrite hidden_mask_char.
  f_equal. apply IH. reflexivity.
Qed.

Lemma last_or_app prev a b : last_or prev (a ++ b) = last_or (last_or prev a) b.
Proof. revert prev. induction a; simpl; auto. Qed.

Lemma standalone_shift comps prev c a m b :
  standalone comps prev (String c a) m b <-> standalone comps (Some c) a m b.
Proof. reflexivity. Qed.

Lemma spelled_nonempty comps m : Forall component comps -> spelled comps m -> m <> "".
Proof. intros F S. destruct (spelled_first _ _ F S) as (c & r & -> & _). discriminate. Qed.

Lemma masked_one_aux api : Forall component (split_on "."%char api) ->
  forall n s prev, (String.length s <= n)%nat ->
  masked (split_on "."%char api) prev s (mask_aux (match_api api) prev 0 s).
Proof.
  intros F. set (comps := split_on "."%char api) in *.
  induction n as [|n IH]; intros s prev L.
  - destruct s; [|simpl in L; lia]. apply ma_none. intros a m b E (S & _).
    destruct a, m; try discriminate. apply (spelled_nonempty _ _ F S eq_refl).
  - destruct s as [|c s].
    { apply ma_none. intros a m b E (S & _).
      destruct a, m; try discriminate. apply (spelled_nonempty _ _ F S eq_refl). }
    cbn [mask_aux]. destruct (match_api api prev (String c s)) as [[|k]|] eqn:M.
    + exfalso. destruct (match_api_sound _ _ _ _ M) as (m & b & _ & Lm & (S & _)).
      apply (spelled_nonempty _ _ F S). destruct m; [reflexivity|discriminate].
    + destruct (match_api_sound _ _ _ _ M) as (m & b & E & Lm & St).
      destruct m as [|c' m]; [discriminate|]. simpl in E, Lm. injection E as <- ->. injection Lm as Lm.
      rewrite (mask_skip _ (Some c) m b k (eq_sym Lm)), <- hidden_mask_char.
      apply (ma_step comps prev "" (String c m) b (mask_aux (match_api api) (last_or (Some c) m) 0 b)).
      * exact St.
      * intros. simpl. lia.
      * simpl. apply IH. simpl in L. rewrite length_app_s in L. lia.
    + (* no occurrence here *)
      assert (N0 : forall m b, String c s = m ++ b -> ~ standalone comps prev "" m b).
      { intros m b E St. rewrite E, (match_api_complete _ _ _ _ F St) in M. discriminate. }
      assert (IHs : masked comps (Some c) s (mask_aux (match_api api) (Some c) 0 s)).
      { apply IH. simpl in L. lia. }
      clear M. revert IHs. generalize (mask_aux (match_api api) (Some c) 0 s). intros u IHs.
      inversion IHs as [p s' Hn E1 E2|p a m b t St Lm Mt E1 E2]; subst.
      * apply ma_none. intros a m b E St. destruct a as [|x a].
        -- apply (N0 m b E St).
        -- simpl in E. injection E as -> E. apply (Hn a m b E St).
      * apply (ma_step comps prev (String c a) m b t).
        -- exact St.
        -- intros a' m' b' E St'. destruct a' as [|x a'].
           ++ exfalso. apply (N0 m' b' E St').
           ++ simpl in E. injection E as -> E. simpl. apply le_n_S. apply (Lm a' m' b' E St').
        -- exact Mt.
Qed.

Lemma masked_one api s : Forall component (split_on "."%char api) ->
  masked (split_on "."%char api) None s (mask_one s api).
Proof. intros F. apply (masked_one_aux api F (String.length s)). apply Nat.le_refl. Qed.

Lemma masked_all_mask keep : forall s,
  Forall (fun api => Forall component (split_on "."%char api)) keep ->
  masked_all (map (split_on "."%char) keep) s (mask_apis keep s).
Proof.
  induction keep as [|api keep IH]; intros s H; [constructor|].
  inversion_clear H as [|? ? H1 H2]. simpl. econstructor; [apply masked_one, H1|apply IH, H2].
Qed.

Lemma app_len_eq (a a' b b' : string) : a ++ b = a' ++ b' -> String.length a = String.length a' -> a = a' /\ b = b'.
Proof.
  revert a'. induction a as [|c a IH]; intros [|c' a'] E L; try discriminate; [auto|].
  simpl in *. injection E as -> E. destruct (IH a' E ltac:(lia)) as [-> ->]. auto.
Qed.

Lemma masked_fun comps prev s t1 : Forall component comps -> masked comps prev s t1 ->
  forall t2, masked comps prev s t2 -> t1 = t2.
Proof.
  intros F M1. induction M1 as [prev s Hn|prev a m b t St Lm Mt IH]; intros t2 M2.
  - inversion M2 as [p s' Hn' E1 E2|p a m b t St Lm Mt E1 E2]; subst; [reflexivity|].
    exfalso. apply (Hn a m b eq_refl St).
  - inversion M2 as [p s' Hn' E1 E2|p a' m' b' t' St' Lm' Mt' Ep E1 E2]; subst.
    + exfalso. apply (Hn' a m b eq_refl St).
    + assert (L : String.length a = String.length a').
      { apply Nat.le_antisymm; [apply (Lm a' m' b' (eq_sym E1) St')|apply (Lm' a m b E1 St)]. }
      destruct (app_len_eq _ _ _ _ E1 (eq_sym L)) as [-> E].
      assert (m' = m) as -> by (eapply spelled_len; [exact F|apply St'|apply St|exact E]).
      apply app_inj_l in E. subst b'. do 2 f_equal. apply IH. exact Mt'.
Qed.

Lemma masked_all_fun ns s t1 : Forall (Forall component) ns -> masked_all ns s t1 ->
  forall t2, masked_all ns s t2 -> t1 = t2.
Proof.
  intros F M. revert F. induction M as [s|n ns s t u M1 MA IH]; intros F t2 M2.
  - inversion M2. reflexivity.
  - inversion_clear F as [|? ? F1 F2]. inversion M2 as [|? ? ? t' ? M1' MA']; subst.
    rewrite (masked_fun _ _ _ _ F1 M1' _ M1) in MA'. apply IH; assumption.
Qed.

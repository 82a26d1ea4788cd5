From Verif Require Import PyDict.
From Coq Require Import List Bool Lia.
Import ListNotations.

Section Facts.
  Context {K V : Type}.
  Variable eqb : K -> K -> bool.
  Hypothesis eqb_spec : forall a b, reflect (a = b) (eqb a b).

  Implicit Types d : dict K V.

  Lemma eqb_refl_d k : eqb k k = true.
  Proof. destruct (eqb_spec k k); congruence. Qed.

  Lemma dget_set_same k v d : dget eqb k (dset eqb k v d) = Some v.
  Proof.
    induction d as [|[k' v'] d IH]; simpl.
    - rewrite eqb_refl_d. reflexivity.
    - destruct (eqb_spec k k') as [->|N]; simpl.
      + rewrite eqb_refl_d. reflexivity.
      + destruct (eqb_spec k k'); [congruence|]. exact IH.
  Qed.

  Lemma dget_set_other k k2 v d : k2 <> k -> dget eqb k2 (dset eqb k v d) = dget eqb k2 d.
  Proof.
    intros N. induction d as [|[k' v'] d IH]; simpl.
    - destruct (eqb_spec k2 k); [congruence|reflexivity].
    - destruct (eqb_spec k k') as [->|N']; simpl.
      + destruct (eqb_spec k2 k'); [congruence|reflexivity].
      + rewrite IH. reflexivity.
  Qed.

  Lemma dset_fresh k v d : dget eqb k d = None -> dset eqb k v d = d ++ [(k, v)].
  Proof.
    induction d as [|[k' v'] d IH]; simpl; intros H; [reflexivity|].
    destruct (eqb_spec k k'); [discriminate|]. rewrite IH by exact H. reflexivity.
  Qed.

  Lemma dget_none_iff k d : dget eqb k d = None <-> ~ In k (dkeys d).
  Proof.
    induction d as [|[k' v'] d IH]; simpl; [tauto|].
    destruct (eqb_spec k k') as [->|N].
    - split; [discriminate|tauto].
    - rewrite IH. split; [intros H [E|E]; [congruence|tauto]|tauto].
  Qed.

  Lemma dget_some_in k v d : dget eqb k d = Some v -> In (k, v) d.
  Proof.
    induction d as [|[k' v'] d IH]; simpl; [discriminate|].
    destruct (eqb_spec k k') as [->|N].
    - intros H; injection H as ->. left; reflexivity.
    - intros H; right; apply IH, H.
  Qed.

  Lemma dget_in_nodup k v d : NoDup (dkeys d) -> In (k, v) d -> dget eqb k d = Some v.
  Proof.
    induction d as [|[k' v'] d IH]; simpl; [tauto|].
    intros ND H. inversion_clear ND as [|? ? N1 N2]. destruct H as [E|H].
    - injection E as -> ->. rewrite eqb_refl_d. reflexivity.
    - destruct (eqb_spec k k') as [->|_].
      + exfalso. apply N1. apply in_map_iff. exists (k', v). auto.
      + apply IH; assumption.
  Qed.

  Lemma dmem_In k d : dmem eqb k d = true <-> In k (dkeys d).
  Proof.
    unfold dmem. pose proof (dget_none_iff k d) as H.
    destruct (dget eqb k d) as [v|] eqn:G.
    - split; [|reflexivity]. intros _. apply in_map_iff. exists (k, v).
      split; [reflexivity|]. apply dget_some_in, G.
    - split; [discriminate|]. intros I. exfalso. apply H; auto.
  Qed.

  Lemma dmem_false k d : dmem eqb k d = false <-> ~ In k (dkeys d).
  Proof. rewrite <- dmem_In. destruct (dmem eqb k d); split; congruence. Qed.

  Lemma dset_keys_in k v d : In k (dkeys d) -> dkeys (dset eqb k v d) = dkeys d.
  Proof.
    induction d as [|[k' v'] d IH]; simpl; [tauto|]. intros H.
    destruct (eqb_spec k k') as [->|N]; simpl; [reflexivity|].
    f_equal. apply IH. destruct H; [congruence|assumption].
  Qed.

  Lemma dset_keys_notin k v d : ~ In k (dkeys d) -> dkeys (dset eqb k v d) = dkeys d ++ [k].
  Proof.
    intros H. apply dget_none_iff in H. rewrite dset_fresh by exact H.
    unfold dkeys. rewrite map_app. reflexivity.
  Qed.

  Lemma dkeys_dec k d : In k (dkeys d) \/ ~ In k (dkeys d).
  Proof.
    destruct (dmem eqb k d) eqn:E; [left; apply dmem_In, E|right; apply dmem_false, E].
  Qed.

  Lemma NoDup_snoc {A} (x : A) l : NoDup l -> ~ In x l -> NoDup (l ++ [x]).
  Proof.
    induction l as [|y l IH]; simpl; intros H N.
    - constructor; [simpl; tauto|constructor].
    - inversion_clear H as [|? ? H1 H2]. constructor.
      + rewrite in_app_iff. simpl. intros [A1|[A1|[]]]; [tauto|]. subst. tauto.
      + apply IH; tauto.
  Qed.

  Lemma dset_nodup k v d : NoDup (dkeys d) -> NoDup (dkeys (dset eqb k v d)).
  Proof.
    intros H. destruct (dkeys_dec k d) as [I|N].
    - rewrite dset_keys_in by exact I. exact H.
    - rewrite dset_keys_notin by exact N. apply NoDup_snoc; assumption.
  Qed.

  Lemma dset_keys_iff k v d x : In x (dkeys (dset eqb k v d)) <-> x = k \/ In x (dkeys d).
  Proof.
    destruct (dkeys_dec k d) as [I|N].
    - rewrite dset_keys_in by exact I. split; [tauto|]. intros [->|H]; assumption.
    - rewrite dset_keys_notin by exact N. rewrite in_app_iff. simpl. split; intuition congruence.
  Qed.

  Lemma ddel_get_same k d : NoDup (dkeys d) -> dget eqb k (ddel eqb k d) = None.
  Proof.
    induction d as [|[k' v'] d IH]; simpl; intros H; [reflexivity|].
    inversion_clear H as [|? ? H1 H2].
    destruct (eqb_spec k k') as [->|N].
    - apply dget_none_iff, H1.
    - simpl. destruct (eqb_spec k k'); [congruence|]. apply IH, H2.
  Qed.

  Lemma ddel_get_other k k2 d : k2 <> k -> dget eqb k2 (ddel eqb k d) = dget eqb k2 d.
  Proof.
    intros N. induction d as [|[k' v'] d IH]; simpl; [reflexivity|].
    destruct (eqb_spec k k') as [->|N'].
    - destruct (eqb_spec k2 k'); [congruence|reflexivity].
    - simpl. rewrite IH. reflexivity.
  Qed.

  Lemma ddel_keys_sub k d x : In x (dkeys (ddel eqb k d)) -> In x (dkeys d).
  Proof.
    induction d as [|[k' v'] d IH]; simpl; [tauto|].
    destruct (eqb_spec k k'); simpl; [tauto|]. intros [H|H]; [left; exact H|right; apply IH, H].
  Qed.

  Lemma ddel_nodup k d : NoDup (dkeys d) -> NoDup (dkeys (ddel eqb k d)).
  Proof.
    induction d as [|[k' v'] d IH]; simpl; intros H; [constructor|].
    inversion_clear H as [|? ? H1 H2].
    destruct (eqb_spec k k'); [exact H2|]. simpl. constructor; [|apply IH, H2].
    intros I. apply H1. eapply ddel_keys_sub; exact I.
  Qed.

  Lemma ddel_filter k d :
    NoDup (dkeys d) -> ddel eqb k d = filter (fun kv => negb (eqb k (fst kv))) d.
  Proof.
    induction d as [|[k' v'] d IH]; simpl; intros H; [reflexivity|].
    inversion_clear H as [|? ? H1 H2].
    destruct (eqb_spec k k') as [->|N]; simpl.
    - clear IH. assert (forall d0 : dict K V, ~ In k' (dkeys d0) ->
          filter (fun kv => negb (eqb k' (fst kv))) d0 = d0) as F.
      { induction d0 as [|[a b] d0 IH0]; simpl; intros N; [reflexivity|].
        destruct (eqb_spec k' a) as [->|_]; [exfalso; tauto|]. simpl. f_equal. apply IH0. tauto. }
      symmetry. apply F, H1.
    - f_equal. apply IH, H2.
  Qed.

  Lemma ddel_notin k d : ~ In k (dkeys d) -> ddel eqb k d = d.
  Proof.
    induction d as [|[a b] d IH]; simpl; intros N; [reflexivity|].
    destruct (eqb_spec k a) as [->|_]; [exfalso; tauto|]. f_equal. apply IH. tauto.
  Qed.
End Facts.

(** Proofs about statement recording, insertion and lookup. *)
From Coq Require Import Lia Sorted.
From Verif Require Import PyStr PyStrFacts PyDict PyDictFacts Scope ScopeSpec.

(** * Recording *)

Definition get3 (r : recs) (n : nat) (f : string) (i : nat) : list obj :=
  match dget Nat.eqb i (get2 r n f) with Some l => l | None => [] end.

Lemma remove_obj_mid x pre r :
  (forall y, In y pre -> oid x <> oid y) -> remove_obj x (pre ++ x :: r) = (pre ++ r)%list.
Proof.
  intros H. induction pre as [|y pre IH]; simpl.
  - rewrite Nat.eqb_refl. reflexivity.
  - destruct (Nat.eqb_spec (oid x) (oid y)) as [E|_]; [exfalso; apply (H y); [left; reflexivity|exact E]|].
    f_equal. apply IH. intros z Hz. apply H. right. exact Hz.
Qed.

Lemma remove_recorded_filter origin copy : forall pre,
  (forall x y, In x (pre ++ copy) -> In y (pre ++ copy) -> oid x = oid y -> x = y) ->
  (forall x, In x pre -> existsb (fun e => String.eqb (odump x) (odump e)) origin = false) ->
  remove_recorded copy origin (pre ++ copy)
  = (pre ++ filter (fun x => negb (existsb (fun e => String.eqb (odump x) (odump e)) origin)) copy)%list.
Proof.
  induction copy as [|n r IH]; intros pre C P; simpl; [reflexivity|].
  destruct (existsb (fun e => String.eqb (odump n) (odump e)) origin) eqn:E; simpl.
  - rewrite remove_obj_mid.
    + apply IH; [|exact P]. intros x y Hx Hy. apply C; rewrite in_app_iff in *; simpl; tauto.
    + intros y Hy Eo. assert (n = y) by (apply C; auto; rewrite in_app_iff; simpl; auto).
      subst y. rewrite (P n Hy) in E. discriminate.
  - replace (pre ++ n :: r)%list with ((pre ++ [n]) ++ r)%list by (rewrite <- app_assoc; reflexivity).
    rewrite IH.
    + rewrite <- app_assoc. reflexivity.
    + intros x y. rewrite <- app_assoc. apply C.
    + intros x Hx. apply in_app_iff in Hx as [Hx|[<-|[]]]; auto.
Qed.

Definition consistent_list (l : list obj) : Prop :=
  forall x y, In x l -> In y l -> oid x = oid y -> x = y.

Lemma remove_recorded_eq origin l : consistent_list l ->
  (origin ++ remove_recorded l origin l)%list = add_batch origin l.
Proof.
  intros C. unfold add_batch. f_equal.
  apply (remove_recorded_filter origin l []); [exact C|intros x []].
Qed.

Lemma add_batch_nil l : add_batch [] l = l.
Proof. unfold add_batch. simpl. induction l; simpl; [reflexivity|]. f_equal. exact IHl. Qed.

Lemma add_batch_empty cur : add_batch cur [] = cur.
Proof. unfold add_batch. simpl. apply app_nil_r. Qed.

Lemma get2_record r n f i l n' f' :
  l <> [] ->
  get2 (record_scope r n f i l) n' f' =
  if Nat.eqb n' n && String.eqb f' f then
    dset Nat.eqb i (match dget Nat.eqb i (get2 r n f) with
                    | Some origin => (origin ++ remove_recorded l origin l)%list
                    | None => l end) (get2 r n f)
  else get2 r n' f'.
Proof.
  intros NE. unfold record_scope. destruct l as [|o l]; [congruence|].
  set (L := o :: l). unfold get2 at 1.
  destruct (Nat.eqb_spec n' n) as [->|Nn].
  - rewrite (dget_set_same _ Nat.eqb_spec). cbn [andb].
    destruct (String.eqb_spec f' f) as [->|Nf].
    + rewrite (dget_set_same _ String.eqb_spec). unfold get2.
      destruct (dget Nat.eqb n r) as [fs|]; [|reflexivity].
      destruct (dget String.eqb f fs) as [ls|]; [|reflexivity].
      destruct (dget Nat.eqb i ls); reflexivity.
    + rewrite (dget_set_other _ String.eqb_spec) by exact Nf.
      unfold get2. destruct (dget Nat.eqb n r); reflexivity.
  - rewrite (dget_set_other _ Nat.eqb_spec) by exact Nn. reflexivity.
Qed.

Lemma get3_record r n f i l n' f' i' :
  consistent_list l ->
  get3 (record_scope r n f i l) n' f' i' =
  if Nat.eqb n' n && String.eqb f' f && Nat.eqb i' i then add_batch (get3 r n f i) l
  else get3 r n' f' i'.
Proof.
  intros C. destruct l as [|o l].
  - simpl. destruct (Nat.eqb_spec n' n) as [->|]; [|reflexivity].
    destruct (String.eqb_spec f' f) as [->|]; [|reflexivity].
    destruct (Nat.eqb_spec i' i) as [->|]; [|reflexivity]. rewrite add_batch_empty. reflexivity.
  - unfold get3. rewrite get2_record by discriminate.
    destruct (Nat.eqb_spec n' n) as [->|]; [|reflexivity].
    destruct (String.eqb_spec f' f) as [->|]; [|reflexivity]. cbn [andb].
    destruct (Nat.eqb_spec i' i) as [->|Ni].
    + rewrite (dget_set_same _ Nat.eqb_spec).
      destruct (dget Nat.eqb i (get2 r n f)); [apply remove_recorded_eq, C|].
      rewrite add_batch_nil. reflexivity.
    + rewrite (dget_set_other _ Nat.eqb_spec) by exact Ni. reflexivity.
Qed.

Definition run_from (r : recs) (hist : list request) : recs :=
  fold_left (fun r q => record_scope r (req_node q) (req_field q) (req_index q) (req_stmts q)) hist r.

Lemma get3_run hist : forall r n f i, consistent hist ->
  get3 (run_from r hist) n f i
  = fold_left add_batch (map req_stmts (filter (same_place n f i) hist)) (get3 r n f i).
Proof.
  induction hist as [|q hist IH]; intros r n f i C; [reflexivity|].
  cbn [run_from fold_left]. change (fold_left _ hist ?x) with (run_from x hist).
  rewrite IH by (intros q' x y Hq; apply C; right; exact Hq).
  rewrite get3_record by (intros x y; apply (C q); left; reflexivity).
  cbn [filter]. unfold same_place at 2.
  rewrite (Nat.eqb_sym n), (String.eqb_sym f), (Nat.eqb_sym i).
  destruct (Nat.eqb_spec (req_node q) n) as [->|]; [|reflexivity].
  destruct (String.eqb_spec (req_field q) f) as [->|]; [|reflexivity].
  destruct (Nat.eqb_spec (req_index q) i) as [->|]; reflexivity.
Qed.

(** Well-formedness: no duplicate keys. *)
Definition wf (r : recs) : Prop :=
  NoDup (dkeys r) /\
  Forall (fun nfs => NoDup (dkeys (snd nfs)) /\ Forall (fun fls => NoDup (dkeys (snd fls))) (snd nfs)) r.

Lemma dget_Forall {K V} (eqb : K -> K -> bool) (spec : forall a b, reflect (a = b) (eqb a b))
  (P : K * V -> Prop) k v d : Forall P d -> dget eqb k d = Some v -> P (k, v).
Proof. intros F G. rewrite Forall_forall in F. apply F. apply (dget_some_in _ spec _ _ _ G). Qed.

Lemma dset_Forall {K V} (eqb : K -> K -> bool) (spec : forall a b, reflect (a = b) (eqb a b))
  (P : K * V -> Prop) k v d : Forall P d -> P (k, v) -> Forall P (dset eqb k v d).
Proof.
  intros F H. induction d as [|[k' v'] d IH]; simpl; [repeat constructor; exact H|].
  inversion_clear F as [|? ? F1 F2]. destruct (spec k k') as [->|]; constructor; auto.
Qed.

Lemma record_wf r n f i l : wf r -> wf (record_scope r n f i l).
Proof.
  intros [N F]. unfold record_scope. destruct l as [|o l]; [split; assumption|].
  set (fs := match dget Nat.eqb n r with Some fs => fs | None => [] end).
  assert (Hfs : NoDup (dkeys fs) /\ Forall (fun fls : string * lines_at => NoDup (dkeys (snd fls))) fs).
  { unfold fs. destruct (dget Nat.eqb n r) as [x|] eqn:G.
    - apply (dget_Forall _ Nat.eqb_spec _ _ _ _ F) in G. exact G.
    - split; constructor. }
  destruct Hfs as [H1 H2].
  split; [apply (dset_nodup _ Nat.eqb_spec), N|].
  apply (dset_Forall _ Nat.eqb_spec); [exact F|]. cbn [snd].
  split; [apply (dset_nodup _ String.eqb_spec), H1|].
  apply (dset_Forall _ String.eqb_spec); [exact H2|]. cbn [snd].
  destruct (dget String.eqb f fs) as [ls|] eqn:G.
  - apply (dget_Forall _ String.eqb_spec _ _ _ _ H2) in G. cbn [snd] in G.
    destruct (dget Nat.eqb i ls); apply (dset_nodup _ Nat.eqb_spec), G.
  - cbn. constructor; [intros []|constructor].
Qed.

Lemma run_wf hist : forall r, wf r -> wf (run_from r hist).
Proof.
  induction hist as [|q hist IH]; intros r W; [exact W|].
  cbn [run_from fold_left]. apply IH. apply record_wf, W.
Qed.

(** * Insertion *)

Lemma fold_insert_rev {A} i (L b : list A) : (i <= List.length b)%nat ->
  fold_left (fun b x => list_insert i x b) (rev L) b = (firstn i b ++ L ++ skipn i b)%list.
Proof.
  intros H. rewrite <- (fold_left_rev_right (fun x b => list_insert i x b) (rev L) b), rev_involutive.
  induction L as [|x L IH]; simpl.
  - rewrite firstn_skipn. reflexivity.
  - rewrite IH.
    assert (G : forall (i : nat) (b r : list A), (i <= List.length b)%nat ->
              list_insert i x (firstn i b ++ r) = (firstn i b ++ x :: r)%list).
    { clear. induction i as [|i IH]; intros b r H; [reflexivity|].
      destruct b as [|y b]; [simpl in H; lia|]. simpl. f_equal. apply IH. simpl in H. lia. }
    apply G, H.
Qed.

Lemma woven_ext {A} (a b : nat -> list A) i block :
  (forall k, (i <= k <= i + List.length block)%nat -> a k = b k) -> woven a i block = woven b i block.
Proof.
  revert i. induction block as [|x r IH]; intros i H; simpl.
  - apply H. simpl. lia.
  - rewrite (H i) by (simpl; lia). do 2 f_equal. apply IH. intros k Hk. apply H. simpl. lia.
Qed.

Lemma woven_nil {A} (block : list A) i : woven (fun _ => []) i block = block.
Proof. revert i. induction block; intros i; simpl; [reflexivity|]. f_equal. apply IHblock. Qed.

Lemma woven_insert {A} (a : nat -> list A) (L : list A) k : forall i block,
  (i <= k <= i + List.length block)%nat -> (forall j, (j <= k)%nat -> a j = []) ->
  (firstn (k - i) (woven a i block) ++ L ++ skipn (k - i) (woven a i block))%list
  = woven (fun j => if Nat.eqb j k then L else a j) i block.
Proof.
  intros i block. revert i. induction block as [|x r IH]; intros i H Z; simpl in *.
  - assert (i = k) as -> by lia. rewrite Nat.sub_diag, Z, Nat.eqb_refl by lia. simpl. rewrite app_nil_r. reflexivity.
  - rewrite (Z i) by lia. cbn [app]. destruct (Nat.eqb_spec i k) as [->|N].
    + rewrite Nat.sub_diag. simpl. do 2 f_equal. apply woven_ext. intros j Hj.
      destruct (Nat.eqb_spec j k); [lia|reflexivity].
    + replace (k - i) with (S (k - S i)) by lia. simpl. f_equal.
      apply IH; [lia|exact Z].
Qed.

Definition at_of {A} (ls : dict nat (list A)) (i : nat) : list A :=
  match dget Nat.eqb i ls with Some l => l | None => [] end.

Definition descending {A} (l : dict nat (list A)) : Prop := StronglySorted (fun a b => (fst b < fst a)%nat) l.

Lemma insert_desc_in {A} (kv : nat * A) l x : In x (insert_desc kv l) <-> x = kv \/ In x l.
Proof.
  induction l as [|y l IH]; simpl; [intuition congruence|].
  destruct (fst y <? fst kv)%nat; simpl; rewrite ?IH; intuition congruence.
Qed.

Lemma sort_desc_in {A} (l : list (nat * A)) x : In x (sort_desc l) <-> In x l.
Proof. induction l as [|y l IH]; simpl; [tauto|]. rewrite insert_desc_in, IH. intuition congruence. Qed.

Lemma insert_desc_sorted {A} (kv : nat * list A) l : descending l -> ~ In (fst kv) (map fst l) -> descending (insert_desc kv l).
Proof.
  unfold descending. induction l as [|y l IH]; intros S N; simpl.
  - repeat constructor.
  - inversion_clear S as [|? ? S1 S2]. destruct (Nat.ltb_spec (fst y) (fst kv)) as [L|L].
    + constructor; [constructor; assumption|]. constructor; [exact L|].
      eapply Forall_impl; [|exact S2]. simpl. intros. lia.
    + constructor; [apply IH; auto; simpl in N; tauto|].
      apply Forall_forall. intros x Hx. apply insert_desc_in in Hx as [->|Hx].
      * simpl in N. assert (fst y <> fst kv) by tauto. lia.
      * rewrite Forall_forall in S2. auto.
Qed.

Lemma sort_desc_sorted {A} (l : dict nat (list A)) : NoDup (dkeys l) -> descending (sort_desc l).
Proof.
  induction l as [|kv l IH]; simpl; intros N; [constructor|].
  inversion_clear N as [|? ? N1 N2]. apply insert_desc_sorted; [auto|].
  intros H. apply in_map_iff in H as (x & E & Hx). apply (proj1 (sort_desc_in l x)) in Hx.
  apply N1. rewrite <- E. apply in_map. exact Hx.
Qed.

Lemma insert_sorted {A} (l : dict nat (list A)) : forall a block,
  descending l -> (forall kv, In kv l -> (fst kv <= List.length block)%nat) ->
  (forall j, (exists kv, In kv l /\ (j <= fst kv)%nat) -> a j = []) ->
  fold_left (fun b kv => fold_left (fun b x => list_insert (fst kv) x b) (rev (snd kv)) b) l (woven a 0 block)
  = woven (fun j => match dget Nat.eqb j l with Some L => L | None => a j end) 0 block.
Proof.
  induction l as [|[k L] l IH]; intros a block S B Z.
  - simpl. apply woven_ext. reflexivity.
  - inversion_clear S as [|? ? S1 S2]. cbn [fold_left fst snd].
    assert (LE : (k <= List.length (woven a 0 block))%nat).
    { assert (forall (a : nat -> list A) i (b : list A), (List.length b <= List.length (woven a i b))%nat).
      { clear. intros a i b. revert i. induction b as [|x b IH]; intros i; simpl; [lia|].
        rewrite app_length. simpl. specialize (IH (S i)). lia. }
      specialize (B (k, L) (or_introl eq_refl)). simpl in B. specialize (H a 0 block). lia. }
    rewrite fold_insert_rev by exact LE.
    pose proof (woven_insert a L k 0 block) as W. rewrite Nat.sub_0_r in W. rewrite W; clear W.
    + rewrite IH; auto.
      * apply woven_ext. intros j _. cbn [dget].
        destruct (Nat.eqb_spec j k) as [->|N].
        -- rewrite Forall_forall in S2. destruct (dget Nat.eqb k l) eqn:G; [|reflexivity].
           exfalso. apply (dget_some_in _ Nat.eqb_spec) in G. apply S2 in G. simpl in G. lia.
        -- destruct (dget Nat.eqb j l); reflexivity.
      * intros kv Hkv. apply B. right. exact Hkv.
      * intros j (kv & Hkv & Hj). rewrite Forall_forall in S2. pose proof (S2 _ Hkv) as X. simpl in X.
        destruct (Nat.eqb_spec j k); [lia|]. apply Z. exists kv. split; [right; exact Hkv|exact Hj].
    + specialize (B (k, L) (or_introl eq_refl)). simpl in B. lia.
    + intros j Hj. apply Z. exists (k, L). split; [left; reflexivity|exact Hj].
Qed.

Lemma sort_desc_get {A} (l : dict nat (list A)) j : NoDup (dkeys l) -> dget Nat.eqb j (sort_desc l) = dget Nat.eqb j l.
Proof.
  intros N. destruct (dget Nat.eqb j l) as [v|] eqn:G.
  - apply (dget_in_nodup _ Nat.eqb_spec).
    + pose proof (sort_desc_sorted l N) as S. unfold descending in S.
      induction S as [|x l' S IH F]; [constructor|]. simpl. constructor; [|exact IH].
      intros H. apply in_map_iff in H as (y & E & Hy). rewrite Forall_forall in F. specialize (F y Hy). lia.
    + apply sort_desc_in. apply (dget_some_in _ Nat.eqb_spec _ _ _ G).
  - apply (dget_none_iff _ Nat.eqb_spec). apply (dget_none_iff _ Nat.eqb_spec) in G.
    intros H. apply G. apply in_map_iff in H as (y & <- & Hy). apply in_map. apply sort_desc_in, Hy.
Qed.

Lemma insert_field_woven {A} (ls : dict nat (list A)) block :
  NoDup (dkeys ls) -> (forall i, In i (dkeys ls) -> (i <= List.length block)%nat) ->
  insert_field ls block = woven (at_of ls) 0 block.
Proof.
  intros N B. unfold insert_field. rewrite <- (woven_nil block 0) at 1.
  rewrite insert_sorted.
  - apply woven_ext. intros j _. rewrite sort_desc_get by exact N. unfold at_of. reflexivity.
  - apply sort_desc_sorted, N.
  - intros kv H. apply B. apply (proj1 (sort_desc_in ls kv)) in H. apply in_map, H.
  - reflexivity.
Qed.

Lemma inner_fold n (fs : dict string lines_at) : forall s, NoDup (dkeys fs) ->
  forall n' f',
  fold_left (fun s fls => update s n (fst fls) (insert_field (snd fls) (s n (fst fls)))) fs s n' f'
  = if Nat.eqb n' n then
      match dget String.eqb f' fs with Some ls => insert_field ls (s n f') | None => s n f' end
    else s n' f'.
Proof.
  induction fs as [|[f ls] fs IH]; intros s N n' f'.
  - simpl. destruct (Nat.eqb_spec n' n) as [->|]; reflexivity.
  - inversion_clear N as [|? ? N1 N2]. cbn [fold_left fst snd]. rewrite IH by exact N2.
    unfold update. cbn [dget]. destruct (Nat.eqb_spec n' n) as [->|Nn].
    + rewrite Nat.eqb_refl. cbn [andb]. destruct (String.eqb_spec f' f) as [->|Nf].
      * destruct (dget String.eqb f fs) eqn:G; [|reflexivity].
        exfalso. apply N1. apply (dget_some_in _ String.eqb_spec) in G. apply (in_map fst) in G. exact G.
      * reflexivity.
    + reflexivity.
Qed.

Lemma insert_scope_get r : forall s, wf r -> forall n f,
  insert_scope r s n f = insert_field (get2 r n f) (s n f).
Proof.
  induction r as [|[n0 fs] r IH]; intros s [N F] n f.
  - reflexivity.
  - inversion_clear N as [|? ? N1 N2]. inversion_clear F as [|? ? F1 F2]. cbn [snd] in F1.
    unfold insert_scope. cbn [fold_left fst snd].
    change (fold_left _ r ?x) with (insert_scope r x).
    rewrite IH by (split; assumption). rewrite inner_fold by apply F1.
    unfold get2. cbn [dget].
    destruct (Nat.eqb_spec n n0) as [->|Nn].
    + assert (dget Nat.eqb n0 r = None) as ->.
      { apply (dget_none_iff _ Nat.eqb_spec). exact N1. }
      destruct (dget String.eqb f fs); reflexivity.
    + reflexivity.
Qed.

Lemma get2_nodup r n f : wf r -> NoDup (dkeys (get2 r n f)).
Proof.
  intros [N F]. unfold get2. destruct (dget Nat.eqb n r) as [fs|] eqn:G; [|constructor].
  apply (dget_Forall _ Nat.eqb_spec _ _ _ _ F) in G. cbn [snd] in G.
  destruct (dget String.eqb f fs) as [ls|] eqn:G2; [|constructor].
  apply (dget_Forall _ String.eqb_spec _ _ _ _ (proj2 G) G2).
Qed.

(** Indices recorded come from requests. *)
Lemma record_keys r n f i l n' f' k :
  In k (dkeys (get2 (record_scope r n f i l) n' f')) ->
  In k (dkeys (get2 r n' f')) \/ (n' = n /\ f' = f /\ k = i).
Proof.
  destruct l as [|o l]; [auto|]. rewrite get2_record by discriminate.
  destruct (Nat.eqb_spec n' n) as [->|]; [|auto].
  destruct (String.eqb_spec f' f) as [->|]; [|auto]. cbn [andb].
  intros H. apply (dset_keys_iff _ Nat.eqb_spec) in H as [->|H]; auto.
Qed.

Lemma run_keys hist : forall r n f k,
  In k (dkeys (get2 (run_from r hist) n f)) ->
  In k (dkeys (get2 r n f)) \/ exists q, In q hist /\ req_node q = n /\ req_field q = f /\ req_index q = k.
Proof.
  induction hist as [|q hist IH]; intros r n f k H; [auto|].
  cbn [run_from fold_left] in H. apply IH in H as [H|(q' & Hq & E)].
  - apply record_keys in H as [H|(-> & -> & ->)]; [auto|]. right. exists q. simpl. auto.
  - right. exists q'. simpl. auto.
Qed.

Lemma insertion_exact hist s n f :
  consistent hist ->
  (forall q, In q hist -> (req_index q <= List.length (s (req_node q) (req_field q)))%nat) ->
  insert_scope (run hist) s n f = woven (collected hist n f) 0 (s n f).
Proof.
  intros C B. change (run hist) with (run_from [] hist).
  assert (W : wf (run_from [] hist)) by (apply run_wf; split; constructor).
  rewrite insert_scope_get by exact W.
  rewrite insert_field_woven.
  - apply woven_ext. intros j _. unfold at_of.
    change (match dget Nat.eqb j (get2 (run_from [] hist) n f) with Some l => l | None => [] end)
      with (get3 (run_from [] hist) n f j).
    rewrite get3_run by exact C. reflexivity.
  - apply get2_nodup, W.
  - intros i Hi. apply run_keys in Hi as [[]|(q & Hq & <- & <- & <-)]. apply B, Hq.
Qed.

(** * Duplicates *)

Lemma existsb_dump x l : existsb (fun e => String.eqb (odump x) (odump e)) l = true <-> In (odump x) (map odump l).
Proof.
  rewrite existsb_exists, in_map_iff. split.
  - intros (e & He & E). apply String.eqb_eq in E. exists e. auto.
  - intros (e & E & He). exists e. split; [exact He|]. apply String.eqb_eq. auto.
Qed.

Lemma add_batch_again cur l : add_batch (add_batch cur l) l = add_batch cur l.
Proof.
  unfold add_batch at 1. set (cur' := add_batch cur l).
  assert (E : filter (fun x => negb (existsb (fun e => String.eqb (odump x) (odump e)) cur')) l = []).
  { assert (G : forall m, (forall x, In x m -> In (odump x) (map odump cur')) ->
              filter (fun x => negb (existsb (fun e => String.eqb (odump x) (odump e)) cur')) m = []).
    { induction m as [|x m IH]; intros H; [reflexivity|]. simpl.
      rewrite (proj2 (existsb_dump x cur')) by (apply H; left; reflexivity). simpl. apply IH.
      intros y Hy. apply H. right. exact Hy. }
    apply G. intros x Hx. unfold cur', add_batch. rewrite map_app, in_app_iff.
    destruct (existsb (fun e => String.eqb (odump x) (odump e)) cur) eqn:X.
    - left. apply existsb_dump, X.
    - right. apply in_map. apply filter_In. rewrite X. auto. }
  rewrite E. apply app_nil_r.
Qed.

(** * Lookup *)

Section Look.
  Variable fields : nat -> string -> list nat.

  Lemma index_of_some x l : forall i, index_of x l = Some i -> nth_error l i = Some x.
  Proof.
    induction l as [|y l IH]; intros i H; [discriminate|]. simpl in H.
    destruct (Nat.eqb_spec y x) as [->|]; [injection H as <-; reflexivity|].
    destruct (index_of x l) as [j|]; [|discriminate]. injection H as <-. simpl. apply IH. reflexivity.
  Qed.
  Lemma index_of_none x l : index_of x l = None -> ~ In x l.
  Proof.
    induction l as [|y l IH]; intros H; [intros []|]. simpl in H.
    destruct (Nat.eqb_spec y x) as [->|N]; [discriminate|].
    destruct (index_of x l); [discriminate|]. intros [E|I]; [congruence|apply IH; auto].
  Qed.

  Lemma first_field_some fs scope child fd : first_field fields fs scope child = Some fd ->
    exists f i, fd = Found scope f i /\ In f fs /\ nth_error (fields scope f) i = Some child.
  Proof.
    induction fs as [|f fs IH]; intros H; [discriminate|]. simpl in H.
    destruct (index_of child (fields scope f)) as [i|] eqn:I.
    - injection H as <-. exists f, i. split; [reflexivity|]. split; [left; reflexivity|].
      apply index_of_some, I.
    - destruct (IH H) as (f' & i & E & J & K). exists f', i. simpl. auto.
  Qed.

  Lemma first_field_none fs scope child : first_field fields fs scope child = None ->
    forall f, In f fs -> ~ In child (fields scope f).
  Proof.
    induction fs as [|f fs IH]; intros H g []; simpl in H.
    - subst g. destruct (index_of child (fields scope f)) eqn:I; [discriminate|]. apply index_of_none, I.
    - apply IH; [|assumption]. destruct (index_of child (fields scope f)); [discriminate|exact H].
  Qed.

  (** [search] scans adjacent pairs of the reversed stack. *)
  Lemma search_some rs : forall child scope fd,
    search fields rs child scope = Some fd ->
    exists f i a b c, fd = Found scope f i /\ In f scope_fields /\
      (child :: rs)%list = (a ++ c :: scope :: b)%list /\ nth_error (fields scope f) i = Some c.
  Proof.
    induction rs as [|x rs IH]; intros child scope fd H; [discriminate|]. cbn [search] in H.
    destruct (Nat.eqb_spec x scope) as [->|N].
    - destruct (first_field fields scope_fields scope child) as [fd'|] eqn:F.
      + injection H as <-. apply first_field_some in F as (f & i & -> & J & K).
        exists f, i, [], rs, child. auto.
      + destruct (IH _ _ _ H) as (f & i & a & b & c & E & J & K & L).
        exists f, i, (child :: a), b, c. rewrite K. auto.
    - destruct (IH _ _ _ H) as (f & i & a & b & c & E & J & K & L).
      exists f, i, (child :: a), b, c. rewrite K. auto.
  Qed.

  Lemma search_none rs : forall child scope,
    search fields rs child scope = None ->
    forall a b c f, (child :: rs)%list = (a ++ c :: scope :: b)%list -> In f scope_fields ->
    ~ In c (fields scope f).
  Proof.
    induction rs as [|x rs IH]; intros child scope H a b c f E I.
    - destruct a as [|? [|? ?]]; discriminate.
    - cbn [search] in H. destruct a as [|y a].
      + simpl in E. injection E as <- -> <-. rewrite Nat.eqb_refl in H.
        destruct (first_field fields scope_fields scope child) eqn:F; [discriminate|].
        apply (first_field_none _ _ _ F _ I).
      + simpl in E. injection E as <- E. apply (IH x scope) with (a := a) (b := b); auto.
        destruct (Nat.eqb_spec x scope) as [->|N]; [|exact H].
        destruct (first_field fields scope_fields scope child); [discriminate|exact H].
  Qed.

  Lemma lookup2_none fuel ns ss sc : at_end ss 1 = Some sc -> search_scope fields ns sc = None ->
    lookup2 fields fuel ns ss = LNoEnd.
  Proof. intros A S. induction fuel as [|k IH]; simpl; [reflexivity|]. rewrite A, S. exact IH. Qed.
End Look.

Section Look2.
  Variable fields : nat -> string -> list nat.

  Lemma search_scope_sound ns sc fd : root_at_bottom fields ns -> search_scope fields ns sc = Some fd ->
    exists f i, fd = Found sc f i /\ encloses fields ns sc f i.
  Proof.
    intros (root & rest & -> & R) H. unfold search_scope in H.
    apply search_some in H as (f & i & a & b & c & -> & J & K & L). exists f, i. split; [reflexivity|].
    destruct a as [|x a].
    - simpl in K. injection K as <- _. exfalso. apply (R sc f). apply (nth_error_In _ _ L).
    - simpl in K. injection K as <- K.
      exists (rev b), (rev a), c. split; [|split; [exact J|exact L]].
      assert (E : (root :: rest) = rev (rev (root :: rest))) by (rewrite rev_involutive; reflexivity).
      rewrite E. simpl rev at 2. rewrite K. rewrite rev_app_distr. cbn [rev].
      rewrite <- !app_assoc. reflexivity.
  Qed.

  Lemma search_scope_none ns sc : search_scope fields ns sc = None ->
    forall f i, ~ encloses fields ns sc f i.
  Proof.
    intros H f i (a & b & c & E & J & L). unfold search_scope in H.
    destruct ns as [|root rest]; [destruct a; discriminate|].
    apply (search_none _ _ _ _ H (root :: rev b) (rev a) c f); [|exact J|apply (nth_error_In _ _ L)].
    cbn [app]. f_equal. rewrite E. rewrite rev_app_distr. cbn [rev]. rewrite <- !app_assoc. reflexivity.
  Qed.
End Look2.

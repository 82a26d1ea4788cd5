(** Proofs about a run over several projects: what it may touch, how its rates are counted. *)
From Coq Require Import ZArith QArith Lia Lqa Permutation.
From Verif Require Import PyStr PyDict PyDictFacts Ast BasicPass Converter Shipped Program Main Report ReportSpec ReportFacts Summary.
From Verif Require Import FileTree FileTreeSpec FileTreeFacts.
From Verif Require FileTreeMirror.
Local Open Scope list_scope.

Lemma dset_new {V} (k : string) (v : V) d : ~ In k (map fst d) -> dset String.eqb k v d = d ++ [(k, v)].
Proof.
  induction d as [|[a b] d IH]; intros N; [reflexivity|]. cbn [dset app]. destruct (String.eqb_spec k a) as [->|Ne]; [contradiction N; left; reflexivity|].
  rewrite IH; [reflexivity|]. intros I. apply N. right. exact I.
Qed.
Lemma counted_map round l : NoDup (map fst l) -> rate_map (counted round l) = map (fun nc => (fst nc, float_rate round (snd nc))) l.
Proof.
  intros N. unfold counted. set (s0 := MkSummary 0 0 0 []).
  assert (G : forall l s, NoDup (map fst (rate_map s) ++ map fst l) ->
    rate_map (fold_left (count_rate round) l s) = rate_map s ++ map (fun nc => (fst nc, float_rate round (snd nc))) l).
  { clear. induction l as [|[n c] l IH]; intros s N; cbn [fold_left map]; [rewrite app_nil_r; reflexivity|].
    cbn [map fst] in N. assert (X : ~ In n (map fst (rate_map s))).
    { apply NoDup_remove_2 in N. intros I. apply N, in_app_iff. left. exact I. }
    assert (R : rate_map (count_rate round s (n, c)) = rate_map s ++ [(n, float_rate round c)]) by (unfold count_rate; cbn [rate_map fst snd]; apply dset_new, X).
    rewrite IH.
    - rewrite R, <- app_assoc. reflexivity.
    - rewrite R, map_app, <- app_assoc. exact N. }
  apply (G l s0). exact N.
Qed.
Lemma counted_counts round l : forall s,
  at_100 (fold_left (count_rate round) l s) = (at_100 s + List.length (filter (fun p => Qeq_bool (float_rate round (snd p)) 1) l))%nat /\
  at_95 (fold_left (count_rate round) l s) = (at_95 s + List.length (filter (fun p => Qle_bool (round (95 # 100)) (float_rate round (snd p))) l))%nat /\
  at_90 (fold_left (count_rate round) l s) = (at_90 s + List.length (filter (fun p => Qle_bool (round (90 # 100)) (float_rate round (snd p))) l))%nat.
Proof.
  induction l as [|p l IH]; intros s; cbn [fold_left filter]; [cbn; lia|].
  specialize (IH (count_rate round s p)) as [-> [-> ->]]. unfold count_rate. cbn [at_100 at_95 at_90].
  destruct (Qeq_bool _ _), (Qle_bool (round (95 # 100)) _), (Qle_bool (round (90 # 100)) _); cbn [List.length]; lia.
Qed.

(** Comparing rounded quotients with a rounded literal gives what exact arithmetic gives. *)
Section Rates.
Variable round : Q -> Q.
Hypothesis I : ieee round.
Variables s t : Z.
Hypothesis S0 : (0 <= s <= t)%Z.
Hypothesis T0 : (0 < t < 10 ^ 11)%Z.
Lemma at_least_percent k : (1 <= k <= 100)%Z ->
  Qle_bool (round (k # 100)) (round (s # Z.to_pos t)) = (k * t <=? 100 * s)%Z.
Proof.
  intros K. assert (D : Zpos (Z.to_pos t) = t) by (apply Z2Pos.id; lia).
  destruct (Z.leb_spec (k * t) (100 * s)) as [A|A].
  - apply Qle_bool_iff, (keeps_order _ I). unfold Qle. cbn [Qnum Qden]. rewrite D. lia.
  - destruct (Qle_bool _ _) eqn:E; [|reflexivity]. apply Qle_bool_iff in E. exfalso.
    destruct (round_close round I (k # 100)) as [L _]. { unfold Qle; cbn [Qnum Qden]; lia. } { unfold Qle; cbn [Qnum Qden]; lia. }
    destruct (Z.eqb_spec s 0) as [->|Sn].
    + assert (Z0 : (round (0 # Z.to_pos t) <= 0)%Q).
      { apply Qle_trans with (round (inject_Z 0)); [apply (keeps_order _ I); unfold Qle; cbn; lia|]. rewrite (keeps_integers _ I 0 ltac:(lia)). apply Qle_refl. }
      assert (P : (0 < (k # 100))%Q) by (unfold Qlt; cbn [Qnum Qden]; lia). lra.
    + destruct (round_close round I (s # Z.to_pos t)) as [_ U].
      { unfold Qle; cbn [Qnum Qden]; rewrite D; lia. } { unfold Qle; cbn [Qnum Qden]; rewrite D; lia. }
      assert (G : ((s # Z.to_pos t) + (1 # 10000000000000) <= (k # 100))%Q).
      { unfold Qle, Qplus. cbn [Qnum Qden]. rewrite !Pos2Z.inj_mul, D. lia. }
      assert (O : ((s # Z.to_pos t) <= 1)%Q) by (unfold Qle; cbn [Qnum Qden]; rewrite D; lia).
      assert (O2 : ((k # 100) <= 1)%Q) by (unfold Qle; cbn [Qnum Qden]; lia). lra.
Qed.
Lemma hundred_exactly : Qeq_bool (round (s # Z.to_pos t)) 1 = (s =? t)%Z.
Proof.
  assert (D : Zpos (Z.to_pos t) = t) by (apply Z2Pos.id; lia).
  destruct (Z.eqb_spec s t) as [E|N].
  - apply Qeq_bool_iff. subst s. assert (X : ((t # Z.to_pos t) == inject_Z 1)%Q) by (unfold Qeq; cbn [Qnum Qden inject_Z]; rewrite D; lia).
    rewrite (round_eq round I _ _ X), (keeps_integers _ I 1 ltac:(lia)). reflexivity.
  - destruct (Qeq_bool _ _) eqn:E; [|reflexivity]. apply Qeq_bool_iff in E. exfalso.
    assert (L := at_least_percent 100 ltac:(lia)). assert (R : (round (100 # 100) == 1)%Q).
    { rewrite (round_eq round I (100 # 100) (inject_Z 1) ltac:(reflexivity)). apply (keeps_integers _ I 1 ltac:(lia)). }
    assert (X : Qle_bool (round (100 # 100)) (round (s # Z.to_pos t)) = true) by (apply Qle_bool_iff; rewrite R, E; apply Qle_refl).
    rewrite X in L. symmetry in L. apply Z.leb_le in L. lia.
Qed.
End Rates.

(** ** What a run over several projects touches *)
Lemma flush_near {C} (codes_of : C -> dict Z string) isort dst file dirm c :
  inside file dst -> safe (near dst) (flush codes_of isort file dirm c).
Proof. intros H. apply safe_flush. intros q Q. apply (near_up dst file); [left; exact H|exact Q]. Qed.
Definition own_near (dst : path) (p : process) : Prop := forall h, own_file p = Some h -> inside (fst h) dst.
Lemma safe_run_in {C} convert codes_of order search isort fuel cwd h src out exclude (c : C) :
  inside (fst h) (dest cwd out) ->
  safe (near (dest cwd out)) (run convert codes_of order search isort fuel cwd (Some h) src out exclude c).
Proof.
  intros H. unfold run. fold (dest cwd out). set (dst := dest cwd out) in *. apply safe_bind.
  - destruct out; [apply safe_ret|]. apply safe_see. intros f. destruct (exists_at f dst); [apply safe_ret|].
    eapply safe_weaken; [|apply safe_makedirs]. intros q Q. right. exact Q.
  - intros _. destruct (path_eqb dst src); [apply safe_fail|]. apply safe_see. intro f. apply safe_bind; [apply safe_transfer|]. intro c'.
    destruct (isfile f src); [|destruct (isdir f src); [|apply safe_fail]]; destruct h as [file dirm];
      (apply safe_bind; [apply flush_near; exact H|intro; apply safe_ret]).
Qed.
Lemma convert_in_spans L cwd p src out ex w : own_near (dest cwd out) p ->
  spans (near (dest cwd out)) w (fst (convert_in L cwd p src out ex w)) /\
  forall c p', snd (convert_in L cwd p src out ex w) = Ok (c, p') -> own_near (dest cwd out) p'.
Proof.
  intros O. split.
  - unfold convert_in. apply safe_see. intros f. apply safe_bind; [|intros c; apply safe_ret].
    destruct (own_file p) as [h|] eqn:E; [apply safe_run_in; exact (O h E)|apply safe_run].
  - intros c p' H. unfold convert_in, see in H. set (x := FileTree.run _ _ _ _ _ _ _ _ _ _ _ _) in H. unfold bind in H.
    destruct (x w) as [w1 [c1|e]]; [|discriminate H]. cbn [ret snd] in H. injection H as <- <-. intros h Hh. cbn [own_file] in Hh.
    destruct (own_file p) as [h0|] eqn:E; [injection Hh as <-; exact (O h0 E)|].
    unfold registry_file in Hh. fold (dest cwd out) in Hh. destruct (isfile (disk w) src).
    + injection Hh as <-. cbn [fst]. destruct (_ || _); [exists [basename src]; reflexivity|apply inside_refl].
    + destruct (isdir (disk w) src); [|discriminate]. injection Hh as <-. exists ["paddle_utils.py"%string]. reflexivity.
Qed.
Lemma each_project_spans L cwd o base ps : forall p w, own_near (dest cwd (out_dir o)) p ->
  spans (near (dest cwd (out_dir o))) w (fst (each_project L cwd o base ps p w)).
Proof.
  induction ps as [|n ps IH]; intros p w O; cbn [each_project]; [apply spans_refl|].
  destruct (convert_in_spans L cwd p (join_path base n) (out_dir o) (exclude o) w O) as [A B]. unfold bind.
  destruct (convert_in L cwd p (join_path base n) (out_dir o) (exclude o) w) as [w1 [[c p']|e]]; cbn [fst snd] in *; [|exact A].
  specialize (IH p' w1 (B c p' eq_refl)). destruct (each_project L cwd o base ps p' w1) as [w2 [r|e]]; cbn [fst ret] in *; exact (spans_trans _ _ _ _ A IH).
Qed.
Lemma command_spans L cwd package o base w : separate_convert o = true -> in_dir o = Some base ->
  spans (near (dest cwd (out_dir o))) w (fst (command L cwd package o w)).
Proof.
  intros S B. unfold command. cbv zeta. rewrite S, B. unfold see. destruct (isdir (disk w) base); [|apply spans_refl].
  apply each_project_spans. intros h H. discriminate H.
Qed.
Lemma each_project_names L cwd o base ps : forall p w w' r, each_project L cwd o base ps p w = (w', Ok r) -> map fst r = ps.
Proof.
  induction ps as [|n ps IH]; intros p w w' r H; cbn [each_project] in H; [injection H as _ <-; reflexivity|].
  apply FileTreeMirror.bind_ok in H as (w1 & cp & _ & H). apply FileTreeMirror.bind_ok in H as (w2 & rest & H2 & H).
  injection H as <- <-. cbn [map fst]. rewrite (IH _ _ _ _ H2). reflexivity.
Qed.
Lemma sound_after l : forall f, sound f -> sound (after l f).
Proof.
  induction l as [|o l IH]; intros f S; [exact S|]. cbn [after fold_right]. fold (after l f). specialize (IH f S).
  destruct o; cbn [perform]; [apply (dset_nodup _ path_eqb_spec); exact IH|apply (ddel_nodup _ path_eqb_spec); exact IH|apply (dset_nodup _ path_eqb_spec); exact IH].
Qed.

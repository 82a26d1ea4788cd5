(** Proofs about Report.v. *)
From Coq Require Import ZArith QArith Qabs Qround Lia Lqa Sorted Permutation.
From Verif Require Import PyStr PyStrFacts PyDict Ast BasicPass Converter Helpers HelpersFacts Report ReportSpec.
Open Scope string_scope.

(** ** Tables *)
Section Sort.
Context {A : Type} (count : A -> nat).
Lemma insert_perm x l : Permutation (x :: l) (insert_by count x l).
Proof.
  induction l as [|y l IH]; [reflexivity|]. cbn [insert_by]. destruct (_ <? _)%nat; [|reflexivity].
  rewrite perm_swap. constructor. exact IH.
Qed.
Lemma insert_sorted x l : StronglySorted (fun x y => (count y <= count x)%nat) l -> StronglySorted (fun x y => (count y <= count x)%nat) (insert_by count x l).
Proof.
  induction 1 as [|y l S IH F]; [repeat constructor|]. cbn [insert_by]. destruct (Nat.ltb_spec (count x) (count y)) as [H|H].
  - constructor; [exact IH|]. eapply Permutation_Forall; [apply insert_perm|]. constructor; [lia|exact F].
  - constructor; [constructor; assumption|]. constructor; [exact H|]. eapply Forall_impl; [|exact F]. cbn. intros; lia.
Qed.
Lemma insert_stable x l n : filter (fun y => Nat.eqb (count y) n) (insert_by count x l) = filter (fun y => Nat.eqb (count y) n) (x :: l).
Proof.
  induction l as [|y l IH]; [reflexivity|]. cbn [insert_by]. destruct (Nat.ltb_spec (count x) (count y)) as [H|H]; [|reflexivity].
  cbn [filter] in *. rewrite IH. destruct (Nat.eqb_spec (count x) n), (Nat.eqb_spec (count y) n); try reflexivity. lia.
Qed.
Lemma sorted_frequency l : by_frequency count l (sorted_by count l).
Proof.
  unfold by_frequency, sorted_by. induction l as [|x l (P & S & F)]; cbn [fold_right]; [repeat split; constructor|].
  split; [rewrite <- insert_perm; constructor; exact P|]. split; [apply insert_sorted, S|].
  intros n. rewrite insert_stable. cbn [filter]. rewrite F. reflexivity.
Qed.
End Sort.

Lemma blanks_blank n : Forall (eq " "%char) (list_ascii_of_string (blanks n)).
Proof. induction n; cbn; constructor; auto. Qed.
Lemma blanks_length n : String.length (blanks n) = n.
Proof. induction n; cbn; congruence. Qed.
Lemma length_app a b : String.length (a ++ b) = (String.length a + String.length b)%nat.
Proof. induction a; cbn; congruence. Qed.
Lemma aligned_cell n s : cell n s (left_aligned n s).
Proof.
  exists (blanks (n - String.length s)). split; [reflexivity|]. split; [apply blanks_blank|].
  unfold left_aligned. rewrite length_app, blanks_length. lia.
Qed.

(** ** Numbers *)
Lemma nearest_bounds q : (inject_Z (nearest q) - (1 # 2) <= q <= inject_Z (nearest q) + (1 # 2))%Q.
Proof.
  unfold nearest. destruct q as [n d]. cbn [Qnum Qden].
  pose proof (Z.div_mod n (Zpos d) ltac:(lia)) as D. pose proof (Z.mod_pos_bound n (Zpos d) ltac:(lia)) as B.
  set (f := (n / Zpos d)%Z) in *. set (r := (n mod Zpos d)%Z) in *. clearbody f r. subst n.
  assert (X : forall k : Z, (2 * (Zpos d * f + r) <= (2 * k + 1) * Zpos d)%Z -> ((2 * k - 1) * Zpos d <= 2 * (Zpos d * f + r))%Z ->
     (inject_Z k - (1 # 2) <= (Zpos d * f + r) # d <= inject_Z k + (1 # 2))%Q).
  { intros k H1 H2. unfold Qle, Qminus, Qplus, Qopp, inject_Z. cbn [Qnum Qden]. split; lia. }
  destruct (Z.ltb_spec (2 * r) (Zpos d)); [apply X; lia|]. destruct (Z.ltb_spec (Zpos d) (2 * r)); [apply X; lia|].
  destruct (Z.even f); apply X; lia.
Qed.
Lemma nearest_unique q k : (inject_Z k - (1 # 2) < q < inject_Z k + (1 # 2))%Q -> nearest q = k.
Proof.
  intros [A B]. pose proof (nearest_bounds q) as [C D]. set (n := nearest q) in *. clearbody n.
  assert (inject_Z n < inject_Z k + 1)%Q by lra. assert (inject_Z k < inject_Z n + 1)%Q by lra.
  unfold Qlt, Qplus, inject_Z in *. cbn [Qnum Qden] in *. lia.
Qed.
Lemma app_split a b s t : String.length s = String.length t -> a ++ s = b ++ t -> a = b /\ s = t.
Proof.
  revert b. induction a as [|x a IH]; intros [|y b] L H; cbn [append] in H; auto.
  - subst s. cbn [String.length] in L. rewrite length_app in L. lia.
  - subst t. cbn [String.length] in L. rewrite length_app in L. lia.
  - injection H as -> H. apply IH in H as [-> ->]; auto.
Qed.
Lemma digit_inj a b : (a < 10)%nat -> (b < 10)%nat -> digit a = digit b -> a = b.
Proof. intros A B. do 10 (destruct a as [|a]; [do 10 (destruct b as [|b]; [first [reflexivity|discriminate]|]); lia|]). lia. Qed.
Lemma int_to_str_inj a b : (0 <= a)%Z -> (0 <= b)%Z -> int_to_str a = int_to_str b -> a = b.
Proof.
  intros A B H. rewrite <- (Z2Nat.id a A), <- (Z2Nat.id b B), !int_to_str_nat in H.
  assert (Some (Z.of_nat (Z.to_nat a)) = Some (Z.of_nat (Z.to_nat b))) as [= E] by (rewrite <- !int_of_str, H; reflexivity). lia.
Qed.
Lemma two_decimals_inj a b : (0 <= a)%Z -> (0 <= b)%Z -> two_decimals a = two_decimals b -> a = b.
Proof.
  intros A B H. unfold two_decimals in H. apply app_split in H as [H1 H2]; [|reflexivity].
  apply int_to_str_inj in H1; [|apply Z.div_pos; lia|apply Z.div_pos; lia].
  apply app_inj_l in H2. injection H2 as H2 H3.
  change (ascii_of_nat (48 + ?x)) with (digit x) in *.
  pose proof (Z.mod_pos_bound (a / 10) 10 ltac:(lia)). pose proof (Z.mod_pos_bound (b / 10) 10 ltac:(lia)).
  pose proof (Z.mod_pos_bound a 10 ltac:(lia)). pose proof (Z.mod_pos_bound b 10 ltac:(lia)).
  apply digit_inj in H2; [|lia|lia]. apply digit_inj in H3; [|lia|lia].
  pose proof (Z.div_mod a 10 ltac:(lia)). pose proof (Z.div_mod b 10 ltac:(lia)).
  pose proof (Z.div_mod (a / 10) 10 ltac:(lia)) as Da. pose proof (Z.div_mod (b / 10) 10 ltac:(lia)) as Db.
  rewrite Z.div_div in Da, Db by lia. change (10 * 10)%Z with 100%Z in *. lia.
Qed.

Section Percent.
Variable round : Q -> Q.
Hypothesis I : ieee round.
Lemma round_eq x y : (x == y)%Q -> (round x == round y)%Q.
Proof. intros E. apply Qle_antisym; apply (keeps_order _ I); rewrite E; apply Qle_refl. Qed.
Lemma round_close x : ((1 # 1000000000000) <= x)%Q -> (x <= 1000)%Q ->
  (x * (1 - (1 # 9007199254740992)) <= round x <= x * (1 + (1 # 9007199254740992)))%Q.
Proof.
  intros A B. assert (C : (Qabs (round x - x) <= x * (1 # 9007199254740992))%Q).
  { apply (close _ I x).
    - eapply Qle_trans; [|exact A]. vm_compute. discriminate.
    - eapply Qle_trans; [exact B|]. vm_compute. discriminate. }
  apply Qabs_Qle_condition in C as [C D]. lra.
Qed.
Variables s t : Z.
Hypothesis S0 : (0 <= s <= t)%Z.
Hypothesis T0 : (0 < t < 10 ^ 11)%Z.
Let q : Q := s # Z.to_pos t.
Let n : Z := nearest (round (round q * 100) * 100).
Lemma den : Zpos (Z.to_pos t) = t. Proof. apply Z2Pos.id. lia. Qed.
Lemma q_one : (q <= 1)%Q. Proof. unfold q, Qle. cbn [Qnum Qden]. rewrite den. lia. Qed.
Lemma q_pos : (0 < s)%Z -> ((1 # 100000000000) <= q)%Q.
Proof. intros P. unfold q, Qle. cbn [Qnum Qden]. rewrite den. lia. Qed.
Lemma round_most x k : (0 <= k <= 2 ^ 53)%Z -> (x <= inject_Z k)%Q -> (round x <= inject_Z k)%Q.
Proof. intros K H. apply Qle_trans with (round (inject_Z k)); [apply (keeps_order _ I), H|]. rewrite (keeps_integers _ I k K). apply Qle_refl. Qed.
Lemma round_least x k : (0 <= k <= 2 ^ 53)%Z -> (inject_Z k <= x)%Q -> (inject_Z k <= round x)%Q.
Proof. intros K H. apply Qle_trans with (round (inject_Z k)); [rewrite (keeps_integers _ I k K); apply Qle_refl|apply (keeps_order _ I), H]. Qed.
Lemma y_most : (round (round q * 100) <= 100)%Q.
Proof. pose proof (round_most q 1 ltac:(lia) q_one) as H. apply (round_most _ 100); [lia|]. unfold inject_Z in *. lra. Qed.
Lemma y_least : (0 <= round (round q * 100))%Q.
Proof.
  assert (P : (0 <= q)%Q) by (unfold q, Qle; cbn [Qnum Qden]; lia).
  pose proof (round_least q 0 ltac:(lia) P) as H. apply (round_least _ 0); [lia|]. unfold inject_Z in *. lra.
Qed.
Lemma n_least : (0 <= n)%Z.
Proof.
  pose proof (nearest_bounds (round (round q * 100) * 100)) as [_ B]. fold n in B. pose proof y_least as Y.
  assert (H : (- (1 # 2) <= inject_Z n)%Q) by lra. unfold Qle, inject_Z in H. cbn [Qnum Qden Qopp] in H. lia.
Qed.
Lemma y_close : (0 < s)%Z -> (q * (100 * (1 - (1 # 9007199254740992)) * (1 - (1 # 9007199254740992))) <= round (round q * 100)
  <= q * (100 * (1 + (1 # 9007199254740992)) * (1 + (1 # 9007199254740992))))%Q.
Proof.
  intros P. pose proof (q_pos P) as A. pose proof q_one as B.
  destruct (round_close q) as [C D]; [lra|lra|].
  destruct (round_close (round q * 100)) as [E F]; [lra|lra|]. lra.
Qed.
Lemma hundred_only : n = 10000%Z -> (20000 * (t - s) <= t)%Z.
Proof.
  intros E. pose proof (nearest_bounds (round (round q * 100) * 100)) as [B _]. fold n in B. rewrite E in B. unfold inject_Z in B.
  destruct (Z.eq_dec s 0) as [Z|Z].
  - exfalso. assert (R : (round q == 0)%Q).
    { transitivity (round (inject_Z 0)); [|apply (keeps_integers _ I); lia]. apply round_eq. unfold q. rewrite Z. reflexivity. }
    assert (R2 : (round (round q * 100) == 0)%Q).
    { transitivity (round (inject_Z 0)); [|apply (keeps_integers _ I); lia]. apply round_eq. rewrite R. reflexivity. }
    rewrite R2 in B. revert B. vm_compute. intros B. apply B. reflexivity.
  - destruct (y_close ltac:(lia)) as [_ C]. destruct (Z_le_gt_dec (20000 * (t - s)) t) as [H|H]; [exact H|exfalso].
    assert (D : (q <= 1999899999999999 # 2000000000000000)%Q).
    { unfold q, Qle. cbn [Qnum Qden]. rewrite den. lia. }
    lra.
Qed.
Lemma hundred_if : (20000 * (t - s) < t)%Z -> n = 10000%Z.
Proof.
  intros H. apply nearest_unique. pose proof y_most as M. unfold inject_Z.
  destruct (y_close ltac:(lia)) as [C _].
  assert (D : (1999900000000001 # 2000000000000000 <= q)%Q).
  { unfold q, Qle. cbn [Qnum Qden]. rewrite den. lia. }
  split; lra.
Qed.
End Percent.

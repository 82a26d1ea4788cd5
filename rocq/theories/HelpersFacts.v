(** Facts about the functions written into paddle_utils.py. *)
From Verif Require Import PyStr PyStrFacts PyDict PyDictFacts Ast Generate Helpers HelpersSpec.
From Coq Require Import Lia Permutation Sorting.Sorted Lqa Qpower.
Open Scope string_scope.
Open Scope list_scope.
Open Scope nat_scope.

(** ** Axes *)
Lemma position_spec (n : nat) (d : Z) (k : nat) : position n d = Some k <-> names_axis n d k.
Proof.
  unfold position, names_axis. destruct ((0 <=? d)%Z && (d <? Z.of_nat n)%Z) eqn:E.
  - apply andb_true_iff in E as [E1 E2]. apply Z.leb_le in E1. apply Z.ltb_lt in E2.
    split; [intros X; injection X as <-; lia|intros (A & [->| ->]); [rewrite Nat2Z.id; reflexivity|lia]].
  - destruct ((- Z.of_nat n <=? d)%Z && (d <? 0)%Z) eqn:F.
    + apply andb_true_iff in F as [F1 F2]. apply Z.leb_le in F1. apply Z.ltb_lt in F2.
      split; [intros X; injection X as <-; lia|intros (A & [->| ->]); [lia|f_equal; lia]].
    + apply andb_false_iff in E. apply andb_false_iff in F. rewrite Z.leb_gt, Z.ltb_ge in E. rewrite Z.leb_gt, Z.ltb_ge in F.
      split; [discriminate|intros (A & [->| ->]); lia].
Qed.
Lemma position_none (n : nat) (d : Z) : position n d = None <-> ~ exists k, names_axis n d k.
Proof.
  destruct (position n d) as [k|] eqn:E.
  - split; [discriminate|intros X; exfalso; apply X; exists k; apply position_spec, E].
  - split; [intros _ (k & X); apply position_spec in X; congruence|reflexivity].
Qed.
Lemma put_length {A} k (v : A) l : List.length (put k v l) = List.length l.
Proof. revert k. induction l as [|a l IH]; intros [|k]; simpl; congruence. Qed.
Lemma put_same {A} k (v : A) l : k < List.length l -> nth_error (put k v l) k = Some v.
Proof. revert k. induction l as [|a l IH]; intros [|k] L; simpl in *; [lia|lia|reflexivity|apply IH; lia]. Qed.
Lemma put_other {A} k j (v : A) l : j <> k -> nth_error (put k v l) j = nth_error l j.
Proof. revert k j. induction l as [|a l IH]; intros [|k] [|j] L; simpl in *; try reflexivity; [lia|apply IH; lia]. Qed.
Lemma nth_error_ext {A} (l m : list A) : (forall k, nth_error l k = nth_error m k) -> l = m.
Proof.
  revert m. induction l as [|a l IH]; intros [|b m] E; [reflexivity| | |].
  - specialize (E 0). discriminate E.
  - specialize (E 0). discriminate E.
  - pose proof (E 0) as E0. injection E0 as ->. f_equal. apply IH. intros k. exact (E (S k)).
Qed.
Lemma nth_error_seq s n k : k < n -> nth_error (seq s n) k = Some (s + k).
Proof. revert s k. induction n as [|n IH]; intros s [|k] L; simpl; [lia|lia|f_equal; lia|rewrite IH by lia; f_equal; lia]. Qed.
Lemma getitem_seq n d k : names_axis n d k -> getitem (seq 0 n) d = Ok k.
Proof.
  intros X. unfold getitem. rewrite seq_length. pose proof X as Y. apply position_spec in Y as ->.
  rewrite nth_error_seq by apply X. reflexivity.
Qed.
Lemma dim2perm_ok n d0 d1 a b :
  names_axis n d0 a -> names_axis n d1 b -> dim2perm n d0 d1 = Ok (put b a (put a b (seq 0 n))).
Proof.
  intros A B. unfold dim2perm. rewrite (getitem_seq n d1 b B). cbn [bind]. rewrite (getitem_seq n d0 a A). cbn [bind].
  unfold setitem. rewrite seq_length. pose proof A as A'. apply position_spec in A' as ->. cbn [bind].
  rewrite put_length, seq_length. apply position_spec in B as ->. reflexivity.
Qed.
Lemma swap_list n a b : a < n -> b < n ->
  put b a (put a b (seq 0 n)) = map (fun k => if k =? a then b else if k =? b then a else k) (seq 0 n).
Proof.
  intros A B. apply nth_error_ext. intros k. destruct (Nat.lt_ge_cases k n) as [L|L].
  - rewrite nth_error_map, (nth_error_seq 0 n k L). cbn [option_map plus].
    destruct (Nat.eqb_spec k a) as [->|N1].
    + destruct (Nat.eq_dec b a) as [->|N2].
      * rewrite put_same; [reflexivity|rewrite put_length, seq_length; lia].
      * rewrite put_other by auto. rewrite put_same; [reflexivity|rewrite seq_length; lia].
    + destruct (Nat.eqb_spec k b) as [->|N2].
      * rewrite put_same; [reflexivity|rewrite put_length, seq_length; lia].
      * rewrite !put_other by auto. rewrite nth_error_seq by lia. reflexivity.
  - rewrite (proj2 (nth_error_None _ k)); [symmetry; apply nth_error_None; rewrite map_length, seq_length; lia|].
    rewrite !put_length, seq_length. lia.
Qed.
Lemma swap_permutation n a b : a < n -> b < n ->
  Permutation (map (fun k => if k =? a then b else if k =? b then a else k) (seq 0 n)) (seq 0 n).
Proof.
  intros A B. apply NoDup_Permutation.
  - apply FinFun.Injective_map_NoDup; [|apply seq_NoDup].
    intros x y. destruct (Nat.eqb_spec x a), (Nat.eqb_spec y a), (Nat.eqb_spec x b), (Nat.eqb_spec y b); lia.
  - apply seq_NoDup.
  - intros x. rewrite in_map_iff, in_seq. split.
    + intros (k & <- & K). apply in_seq in K. destruct (Nat.eqb_spec k a); [lia|]. destruct (Nat.eqb_spec k b); lia.
    + intros [_ L]. exists (if x =? a then b else if x =? b then a else x). rewrite in_seq. split.
      * destruct (Nat.eqb_spec x a) as [->|N1].
        -- destruct (Nat.eqb_spec b a) as [->|N2]; [reflexivity|]. rewrite Nat.eqb_refl. reflexivity.
        -- destruct (Nat.eqb_spec x b) as [->|N2]; [rewrite Nat.eqb_refl; reflexivity|].
           destruct (Nat.eqb_spec x a); [lia|]. destruct (Nat.eqb_spec x b); [lia|reflexivity].
      * destruct (Nat.eqb_spec x a); [lia|]. destruct (Nat.eqb_spec x b); lia.
Qed.
Lemma axes_exchanged n d0 d1 a b :
  names_axis n d0 a -> names_axis n d1 b ->
  exists perm, dim2perm n d0 d1 = Ok perm /\ Permutation perm (seq 0 n) /\
    forall i, List.length i = n -> transposed perm i = exchange a b i.
Proof.
  intros A B. eexists. split; [apply dim2perm_ok; eassumption|].
  rewrite swap_list; [|apply A|apply B]. split; [apply swap_permutation; [apply A|apply B]|].
  intros i L. unfold transposed, exchange. rewrite map_map, L. reflexivity.
Qed.
Lemma axes_refused n d0 d1 :
  dim2perm n d0 d1 = Raise "IndexError" <->
  (~ exists a, names_axis n d0 a) \/ (~ exists b, names_axis n d1 b).
Proof.
  destruct (position n d0) as [a|] eqn:A; destruct (position n d1) as [b|] eqn:B.
  - pose proof A as A'. pose proof B as B'. apply position_spec in A', B'.
    rewrite (dim2perm_ok n d0 d1 a b A' B').
    split; [discriminate|intros [X|X]; exfalso; apply X; eauto].
  - split; [intros _; right; apply position_none, B|intros _]. unfold dim2perm, getitem. rewrite !seq_length, B. reflexivity.
  - split; [intros _; left; apply position_none, A|intros _]. apply position_spec in B.
    unfold dim2perm. rewrite (getitem_seq _ _ _ B). cbn [bind]. unfold getitem. rewrite seq_length, A. reflexivity.
  - split; [intros _; left; apply position_none, A|intros _]. unfold dim2perm, getitem. rewrite !seq_length, B. reflexivity.
Qed.

Lemma softmax_rule n : softmax_dim (Z.of_nat n) = Z.of_nat (implicit_axis n).
Proof.
  unfold softmax_dim. destruct n as [|[|[|[|n]]]]; try reflexivity.
  destruct (Z.eqb_spec (Z.of_nat (S (S (S (S n))))) 0), (Z.eqb_spec (Z.of_nat (S (S (S (S n))))) 1), (Z.eqb_spec (Z.of_nat (S (S (S (S n))))) 3); try lia. reflexivity.
Qed.
Lemma negated_rule n : 0 < n -> softmax_dim (- Z.of_nat n) = 1%Z.
Proof.
  intros L. unfold softmax_dim. destruct (Z.eqb_spec (- Z.of_nat n) 0), (Z.eqb_spec (- Z.of_nat n) 1), (Z.eqb_spec (- Z.of_nat n) 3); try lia; reflexivity.
Qed.

(** ** Numbers as text *)
Lemma digit_value n : n < 10 -> is_digit (digit n) = true /\ nat_of_ascii (digit n) - 48 = n.
Proof. intros L. do 10 (destruct n as [|n]; [split; reflexivity|]). lia. Qed.
Fixpoint digits_of (f n : nat) (z : Z) : Z :=
  match f with
  | O => z
  | S f => if n <? 10 then (z * 10 + Z.of_nat n)%Z else (digits_of f (n / 10) z * 10 + Z.of_nat (n mod 10))%Z
  end.
Lemma digits_of_value f n : n < f -> digits_of f n 0 = Z.of_nat n.
Proof.
  revert n. induction f as [|f IH]; intros n L; [lia|]. cbn [digits_of].
  destruct (Nat.ltb_spec n 10) as [S|S]; [lia|].
  rewrite IH; [|pose proof (Nat.div_lt n 10); lia].
  rewrite (Nat.div_mod_eq n 10) at 3. lia.
Qed.
Lemma int_digits_str f n acc b z : n < f ->
  int_digits b z (nat_to_str_aux f n acc) = int_digits true (digits_of f n z) acc.
Proof.
  revert n acc b z. induction f as [|f IH]; intros n acc b z L; [lia|]. cbn [nat_to_str_aux digits_of].
  destruct (Nat.ltb_spec n 10) as [S|S].
  - rewrite Nat.mod_small by lia. cbn [int_digits]. destruct (digit_value n S) as [-> ->]. reflexivity.
  - rewrite IH by (pose proof (Nat.div_lt n 10); lia). cbn [int_digits].
    destruct (digit_value (n mod 10)) as [-> ->]; [apply Nat.mod_upper_bound; lia|]. reflexivity.
Qed.
Fixpoint all_digits (s : string) : bool :=
  match s with EmptyString => true | String c r => is_digit c && all_digits r end.
Lemma all_digits_aux f n acc : all_digits acc = true -> all_digits (nat_to_str_aux f n acc) = true.
Proof.
  revert n acc. induction f as [|f IH]; intros n acc A; [exact A|]. cbn [nat_to_str_aux].
  assert (B : all_digits (String (digit (n mod 10)) acc) = true).
  { cbn [all_digits]. destruct (digit_value (n mod 10)) as [-> _]; [apply Nat.mod_upper_bound; lia|exact A]. }
  destruct (n <? 10); [exact B|apply IH, B].
Qed.
Lemma str_digits n : all_digits (nat_to_str n) = true.
Proof. apply all_digits_aux. reflexivity. Qed.
Lemma str_nonempty n : nat_to_str n <> "".
Proof.
  unfold nat_to_str. assert (X : forall f n acc, f <> 0 \/ acc <> "" -> nat_to_str_aux f n acc <> "").
  { induction f as [|f IH]; intros m acc [N|N]; cbn [nat_to_str_aux]; try congruence; destruct (m <? 10); try discriminate; apply IH; right; discriminate. }
  apply X. left. discriminate.
Qed.
Lemma digit_chars c : is_digit c = true -> is_space c = false /\ c <> "-"%char /\ c <> "+"%char /\ c <> "c"%char /\ c <> "g"%char /\ c <> ":"%char /\ c <> "_"%char /\ c <> "u"%char.
Proof.
  intros D. destruct c as [[] [] [] [] [] [] [] []]; try discriminate D; repeat split; try reflexivity; intros X; discriminate X.
Qed.
Lemma strip_digits s : all_digits s = true -> py_strip s = s.
Proof.
  intros A. unfold py_strip, strip_by.
  assert (L : lstrip_by is_space s = s).
  { destruct s as [|c s]; [reflexivity|]. cbn [all_digits] in A. apply andb_true_iff in A as [A _].
    cbn [lstrip_by]. destruct (digit_chars c A) as [-> _]. reflexivity. }
  rewrite L. clear L. induction s as [|c s IH]; [reflexivity|]. cbn [all_digits] in A. apply andb_true_iff in A as [A B].
  cbn [rstrip_by]. rewrite IH by exact B. destruct s; [destruct (digit_chars c A) as [-> _]; reflexivity|reflexivity].
Qed.
Lemma int_of_digits s : all_digits s = true -> s <> "" -> py_int s = int_digits false 0 s.
Proof.
  intros A N. unfold py_int. rewrite strip_digits by exact A. destruct s as [|c s]; [congruence|].
  cbn [all_digits] in A. apply andb_true_iff in A as [A _]. clear N.
  destruct c as [[] [] [] [] [] [] [] []]; try discriminate A; reflexivity.
Qed.
Lemma int_of_str n : py_int (nat_to_str n) = Some (Z.of_nat n).
Proof.
  rewrite int_of_digits by (auto using str_digits, str_nonempty). unfold nat_to_str.
  rewrite int_digits_str by lia. cbn [int_digits]. f_equal. apply digits_of_value. lia.
Qed.
Lemma int_to_str_nat n : int_to_str (Z.of_nat n) = nat_to_str n.
Proof. unfold int_to_str. destruct (Z.ltb_spec (Z.of_nat n) 0); [lia|]. rewrite Nat2Z.id. reflexivity. Qed.
Lemma isdigit_digits s : all_digits s = true -> s <> "" -> isdigit s = true.
Proof.
  intros A N. unfold isdigit. assert (X : all_chars (in_range 48 57) s = true).
  { clear N. induction s as [|c s IH]; [reflexivity|]. cbn [all_digits all_chars] in *. apply andb_true_iff in A as [A B]. unfold is_digit in A. rewrite A. apply IH, B. }
  destruct s; [congruence|exact X].
Qed.

(** ** Devices *)
Lemma contains_no_char c p s : no_char c s -> contains (String c p) s = false.
Proof.
  intros H. induction s as [|x s IH]; [reflexivity|]. cbn [contains].
  apply orb_false_iff. split.
  - cbn [prefix]. destruct (ascii_dec c x) as [->|]; [|reflexivity]. exfalso. apply no_char_mem in H. cbn [mem_char] in H. rewrite Ascii.eqb_refl in H. discriminate H.
  - apply IH. apply no_char_mem in H. apply no_char_mem. cbn [mem_char] in H. apply orb_false_iff in H as [_ H]. exact H.
Qed.
Lemma digits_no_char c s : all_digits s = true -> is_digit c = false -> no_char c s.
Proof.
  intros A D. apply no_char_mem. induction s as [|x s IH]; [reflexivity|]. cbn [all_digits] in A. apply andb_true_iff in A as [A B].
  cbn [mem_char]. rewrite IH by exact B. destruct (Ascii.eqb_spec c x) as [->|]; [congruence|reflexivity].
Qed.
Lemma str_no_char c n : is_digit c = false -> no_char c (nat_to_str n).
Proof. apply digits_no_char, str_digits. Qed.

Lemma prefix_nil s : prefix "" s = true.
Proof. destruct s; reflexivity. Qed.
Lemma cuda_digits n : py_replace ("cuda:" ++ nat_to_str n) "cuda" "gpu" = ("gpu:" ++ nat_to_str n)%string.
Proof.
  unfold py_replace. cbn -[nat_to_str]. try rewrite prefix_nil.
  rewrite replace_no; [reflexivity|]. apply contains_no_char, str_no_char. reflexivity.
Qed.
Lemma cuda_digits_int n : py_replace ("cuda:" ++ nat_to_str n) "cuda:" "" = nat_to_str n.
Proof.
  unfold py_replace. cbn -[nat_to_str]. try rewrite prefix_nil.
  rewrite replace_no; [reflexivity|]. apply contains_no_char, str_no_char. reflexivity.
Qed.
Lemma gpu_no_cuda p n : contains (String "c" p) ("gpu:" ++ nat_to_str n) = false.
Proof.
  apply contains_no_char. apply no_char_app. split; [apply no_char_mem; reflexivity|apply str_no_char; reflexivity].
Qed.
Lemma cpu_digits_no_cuda n : contains "cuda" ("cpu:" ++ nat_to_str n) = false.
Proof.
  cbn -[nat_to_str contains]. do 4 (cbn [contains]; apply orb_false_iff; split; [reflexivity|]).
  apply contains_no_char, str_no_char. reflexivity.
Qed.
Lemma device_named t i d : torch_device t i d -> device2str t i DNone = DStr (paddle_name d).
Proof.
  intros D. destruct D; unfold device2str; cbn [truthy].
  - rewrite int_to_str_nat. reflexivity.
  - rewrite cuda_digits. replace (contains "cuda" ("cuda:" ++ nat_to_str k)) with true by reflexivity.
    rewrite gpu_no_cuda. reflexivity.
  - rewrite int_to_str_nat. reflexivity.
  - reflexivity.
  - rewrite cpu_digits_no_cuda. reflexivity.
  - reflexivity.
  - reflexivity.
  - rewrite int_to_str_nat. reflexivity.
Qed.
Lemma device_by_keyword t d : torch_device t None d -> t <> DInt 0 -> device2str DNone None t = DStr (paddle_name d).
Proof.
  intros D N. rewrite <- (device_named t None d D). unfold device2str. cbn [truthy].
  replace (truthy t) with true; [reflexivity|]. symmetry. inversion D; subst; try reflexivity.
  unfold truthy. destruct (Z.eqb_spec (Z.of_nat k) 0) as [E|]; [rewrite E in N; congruence|reflexivity].
Qed.

(** *** [replace] leaves no occurrence behind *)
Definition R (s : string) : string := replace_aux "cuda" "gpu" 0 s.
Lemma R_first s x t : R s = String x t -> x <> "g"%char -> exists r, s = String x r /\ t = R r.
Proof.
  unfold R. destruct s as [|c r]; [discriminate|]. intros E N.
  cbn [replace_aux] in E. destruct (prefix "cuda" (String c r)); [injection E as <- _; congruence|].
  injection E as <- <-. eauto.
Qed.
Lemma R_clean n s : String.length s <= n -> contains "cuda" (R s) = false.
Proof.
  revert s. induction n as [|n IH]; intros s L.
  - destruct s; [reflexivity|cbn in L; lia].
  - destruct s as [|c r]; [reflexivity|]. unfold R. cbn [replace_aux].
    destruct (prefix "cuda" (String c r)) eqn:P.
    + apply prefix_spec in P as (t & E). injection E as -> ->. cbn [String.length] in L.
      change (replace_aux "cuda" "gpu" (pred (String.length "cuda")) ("uda" ++ t)) with (R t).
      cbn [append contains]. do 3 (apply orb_false_iff; split; [reflexivity|]). apply IH. lia.
    + cbn [contains]. apply orb_false_iff. split; [|apply (IH r); cbn in L; lia].
      fold (R r). apply not_true_iff_false. intros X. apply prefix_spec in X as (t & E0). injection E0 as -> E0.
      destruct (R_first _ _ _ E0 ltac:(discriminate)) as (r1 & -> & E1). symmetry in E1.
      destruct (R_first _ _ _ E1 ltac:(discriminate)) as (r2 & -> & E2). symmetry in E2.
      destruct (R_first _ _ _ E2 ltac:(discriminate)) as (r3 & -> & _).
      cbn in P. destruct r3; discriminate P.
Qed.
Lemma device_text_settled s r : device2str (DStr s) None DNone = DStr r ->
  contains "cuda" r = false /\ device2str (DStr r) None DNone = DStr r.
Proof.
  unfold device2str. cbn [truthy]. intros E.
  assert (C : contains "cuda" r = false /\ (r = "cpu" \/ contains "cpu" r = false)).
  { destruct (contains "cuda" s) eqn:A.
    - destruct (contains "cpu" (py_replace s "cuda" "gpu")) eqn:B.
      + injection E as <-. split; [reflexivity|left; reflexivity].
      + injection E as <-. split; [apply (R_clean (String.length s)); lia|right; exact B].
    - destruct (contains "cpu" s) eqn:B; injection E as <-; [split; [reflexivity|left; reflexivity]|split; [exact A|right; exact B]]. }
  destruct C as [C [->|B]]; [split; reflexivity|]. rewrite C, B. split; reflexivity.
Qed.

Lemma device_number k : device2int (DStr ("cuda:" ++ nat_to_str k)) = Ok (Z.of_nat k).
Proof. unfold device2int. rewrite cuda_digits_int, int_of_str. reflexivity. Qed.
Lemma strip_first c r : is_space c = false -> exists t, py_strip (String c r) = String c t.
Proof.
  intros A. unfold py_strip, strip_by. cbn [lstrip_by]. rewrite A. cbn [rstrip_by].
  destruct (rstrip_by is_space r); [rewrite A|]; eauto.
Qed.
Lemma paddle_text_refused k : device2int (DStr ("gpu:" ++ nat_to_str k)) = Raise "ValueError".
Proof.
  unfold device2int, py_replace. rewrite replace_no by apply gpu_no_cuda.
  replace (py_int ("gpu:" ++ nat_to_str k)) with (@None Z); [reflexivity|]. symmetry. unfold py_int.
  destruct (strip_first "g"%char ("pu:" ++ nat_to_str k) eq_refl) as (t & E).
  change (("gpu:" ++ nat_to_str k)%string) with (String "g" ("pu:" ++ nat_to_str k)). rewrite E. reflexivity.
Qed.
Lemma rng_index a k : no_char ":" a -> rng_state_index (DStr (a ++ ":" ++ nat_to_str k)) = Ok (Some (Z.of_nat k)).
Proof.
  intros A. unfold rng_state_index. change ((":" ++ nat_to_str k)%string) with (String ":" (nat_to_str k)). rewrite (split_on_app_nochar ":"%char a).
  2: exact A. rewrite split_on_single by (apply str_no_char; reflexivity).
  rewrite strip_digits by apply str_digits. rewrite isdigit_digits by auto using str_digits, str_nonempty.
  rewrite int_of_str. reflexivity.
Qed.

(** ** Maximum and minimum *)
Lemma rename_in old new d p v :
  NoDup (map fst d) -> ~ In new (map fst d) -> old <> new ->
  (In (p, v) (rename old new d) <-> (p = new /\ In (old, v) d) \/ (p <> old /\ In (p, v) d)).
Proof.
  intros N F D. unfold rename. change (map fst d) with (dkeys d) in *. destruct (dget String.eqb old d) as [w|] eqn:E.
  - assert (X : dset String.eqb new w (ddel String.eqb old d) = filter (fun kv => negb (String.eqb old (fst kv))) d ++ [(new, w)]).
    { rewrite (dset_fresh _ String.eqb_spec).
      - rewrite (ddel_filter _ String.eqb_spec) by exact N. reflexivity.
      - apply (dget_none_iff _ String.eqb_spec). intros I. apply F. revert I. apply (ddel_keys_sub _ String.eqb_spec). }
    rewrite X, in_app_iff, filter_In. cbn [fst In]. split.
    + intros [[I B]|[I|[]]].
      * right. split; [|exact I]. intros ->. rewrite String.eqb_refl in B. discriminate B.
      * injection I as <- <-. left. split; [reflexivity|apply (dget_some_in _ String.eqb_spec), E].
    + intros [[-> I]|[Q I]].
      * right. left. apply (dget_in_nodup _ String.eqb_spec) in I; [|exact N]. congruence.
      * left. split; [exact I|]. destruct (String.eqb_spec old p); [congruence|reflexivity].
  - apply (dget_none_iff _ String.eqb_spec) in E. split.
    + intros I. right. split; [|exact I]. intros ->. apply E. apply in_map_iff. exists (old, v). auto.
    + intros [[-> I]|[Q I]]; [|exact I]. exfalso. apply E. apply in_map_iff. exists (old, v). auto.
Qed.
Lemma rename_nodup old new d : NoDup (map fst d) -> ~ In new (map fst d) -> NoDup (map fst (rename old new d)).
Proof.
  intros N F. unfold rename. destruct (dget String.eqb old d) as [w|]; [|exact N].
  apply (dset_nodup _ String.eqb_spec), (ddel_nodup _ String.eqb_spec), N.
Qed.
Lemma del_in k (d : keywords) p v : NoDup (map fst d) -> (In (p, v) (ddel String.eqb k d) <-> p <> k /\ In (p, v) d).
Proof.
  intros N. rewrite (ddel_filter _ String.eqb_spec) by exact N. rewrite filter_In. cbn [fst].
  destruct (String.eqb_spec k p) as [->|Q]; cbn [negb]; intuition congruence.
Qed.
Lemma key_in {A} (d : list (string * A)) k : In k (map fst d) <-> exists v, In (k, v) d.
Proof. rewrite in_map_iff. split; [intros ([k' v] & <- & I); exists v; exact I|intros (v & I); exists (k, v); auto]. Qed.
Lemma nth_combine {A B} (l : list A) (m : list B) a b :
  In (a, b) (combine l m) -> exists i, nth_error l i = Some a /\ nth_error m i = Some b.
Proof.
  revert m. induction l as [|x l IH]; intros [|y m] I; [destruct I|destruct I|destruct I|].
  destruct I as [E|I]; [injection E as -> ->; exists 0; auto|]. destruct (IH m I) as (i & X & Y). exists (S i). auto.
Qed.
Lemma same_values_by_key params params' args kwargs kwargs' :
  NoDup params -> NoDup params' ->
  (forall p p' v, In (p, p') (combine params params') -> (In (p, v) kwargs <-> In (p', v) kwargs')) ->
  same_values params params' args args kwargs kwargs'.
Proof.
  intros N N' K p p' I v. unfold given. rewrite (K p p' v I).
  destruct (nth_combine _ _ _ _ I) as (i & A & B).
  assert (forall (l : list string) q j, NoDup l -> nth_error l i = Some q -> nth_error l j = Some q -> j = i) as U.
  { intros l q j D X Y. apply (proj1 (NoDup_nth_error l) D); [apply nth_error_Some; congruence|congruence]. }
  split; intros [(j & X & Y)|X]; try (right; exact X); left.
  - assert (j = i) as -> by (eapply (U params); eassumption). eauto.
  - assert (j = i) as -> by (eapply (U params'); eassumption). eauto.
Qed.
Lemma accepted_by_key params only params' only' args kwargs kwargs' :
  accepted params only args kwargs -> List.length params' = List.length params -> NoDup params' ->
  NoDup (map fst kwargs') ->
  (forall p' v, In (p', v) kwargs' ->
     In p' only' /\ ~ In p' params' \/
     exists p, In (p, p') (combine params params') /\ In (p, v) kwargs) ->
  accepted params' only' args kwargs'.
Proof.
  intros (L & N & K) E N' D R0. split; [lia|]. split; [exact D|]. intros k I. apply key_in in I as (v & I).
  destruct (R0 k v I) as [[J F]|(p & C & J)].
  - split; [apply in_app_iff; auto|]. intros X. apply F. rewrite <- (firstn_skipn (List.length args) params'). apply in_app_iff. auto.
  - destruct (nth_combine _ _ _ _ C) as (i & X & Y). split; [apply in_app_iff; left; eapply nth_error_In; exact Y|].
    intros F. apply (proj2 (K p ltac:(apply key_in; eauto))).
    apply In_nth_error in F as (j & F).
    assert (j < List.length args) as J1.
    { assert (j < List.length (firstn (List.length args) params')) by (apply nth_error_Some; congruence). rewrite firstn_length in *. lia. }
    assert (Z : nth_error params' j = Some k).
    { rewrite <- F. rewrite <- (firstn_skipn (List.length args) params') at 1. apply nth_error_app1. rewrite firstn_length. apply Nat.min_glb_lt; [lia|]. lia. }
    assert (j = i) as ->. { apply (proj1 (NoDup_nth_error params') N'); [apply nth_error_Some; congruence|congruence]. }
    apply (nth_error_In _ i). rewrite <- X. rewrite <- (firstn_skipn (List.length args) params) at 2. symmetry. apply nth_error_app1. rewrite firstn_length. apply Nat.min_glb_lt; lia.
Qed.

Ltac keys := cbn [app In combine]; intuition (subst; try discriminate; auto).
Lemma accepted_keys params only args kwargs k v : accepted params only args kwargs -> In (k, v) kwargs -> In k (params ++ only).
Proof. intros (_ & _ & K) I. apply K. apply key_in. eauto. Qed.
Lemma not_key params only args kwargs k : accepted params only args kwargs -> ~ In k (params ++ only) -> ~ In k (map fst kwargs).
Proof. intros (_ & _ & K) F I. apply F, K, I. Qed.

(** Keywords once [input] and [out] are taken care of *)
Definition first_step (kwargs : keywords) : keywords := ddel String.eqb "out" (rename "input" "x" kwargs).
Lemma first_step_in kwargs p v :
  NoDup (map fst kwargs) -> ~ In "x" (map fst kwargs) ->
  (In (p, v) (first_step kwargs) <-> p <> "out" /\ ((p = "x" /\ In ("input", v) kwargs) \/ (p <> "input" /\ In (p, v) kwargs))).
Proof.
  intros N F. unfold first_step. rewrite del_in by (apply rename_nodup; assumption).
  rewrite rename_in by (assumption || discriminate). tauto.
Qed.
Lemma first_step_nodup kwargs : NoDup (map fst kwargs) -> ~ In "x" (map fst kwargs) -> NoDup (map fst (first_step kwargs)).
Proof. intros N F. apply (ddel_nodup _ String.eqb_spec), rename_nodup; assumption. Qed.
Lemma rename_get old new k kwargs : k <> old -> k <> new -> dget String.eqb k (rename old new kwargs) = dget String.eqb k kwargs.
Proof.
  intros A B. unfold rename. destruct (dget String.eqb old kwargs); [|reflexivity].
  rewrite (dget_set_other _ String.eqb_spec) by auto. apply (ddel_get_other _ String.eqb_spec). auto.
Qed.

(** What [out] makes of a result *)
Definition with_out (kwargs : keywords) (plain : reply) (into : value -> reply) : reply :=
  match dget String.eqb "out" kwargs with
  | None => plain
  | Some o => match truth o with Ok true => into o | Ok false => plain | Raise e => Failed e end
  end.

Lemma extremum_along op args kwargs :
  accepted ["input"; "dim"; "keepdim"] ["out"] args kwargs ->
  (exists v, given ["input"; "dim"; "keepdim"] args kwargs "dim" v) ->
  (forall a b, args = [a; b] -> is_tensor b = false) ->
  exists k,
    let c := MkCall ("paddle." ++ op) args k in
    let d := MkCall ("paddle.arg" ++ op) args k in
    extremum op args kwargs = with_out kwargs (Pair c d) (StoredPair c d) /\
    accepted ["x"; "axis"; "keepdim"] [] args k /\
    same_values ["input"; "dim"; "keepdim"] ["x"; "axis"; "keepdim"] args args kwargs k.
Proof.
  intros A G T. pose proof A as (L & N & K).
  assert (FX : ~ In "x" (map fst kwargs)) by (eapply not_key; [exact A|keys]).
  assert (FA : ~ In "axis" (map fst kwargs)) by (eapply not_key; [exact A|keys]).
  assert (FO : ~ In "other" (map fst kwargs)) by (eapply not_key; [exact A|keys]).
  assert (N1 := first_step_nodup kwargs N FX).
  assert (F1 : ~ In "axis" (map fst (first_step kwargs))).
  { rewrite key_in. intros (v & I). apply first_step_in in I as (_ & [[X _]|[_ I]]); [discriminate X| |assumption|assumption]. apply FA, key_in. eauto. }
  exists (rename "dim" "axis" (first_step kwargs)). intros c d. split; [|split].
  - unfold extremum. fold (first_step kwargs).
    replace (dmem String.eqb "other" (first_step kwargs)) with false.
    2: { symmetry. apply (dmem_false _ String.eqb_spec). change (dkeys (first_step kwargs)) with (map fst (first_step kwargs)). rewrite key_in. intros (v & I).
         apply first_step_in in I as (_ & [[X _]|[_ I]]); [discriminate X| |assumption|assumption]. apply FO, key_in. eauto. }
    replace (match args with [_; b] => is_tensor b | _ => false end) with false.
    2: { destruct args as [|a [|b [|]]]; try reflexivity. symmetry. eapply T. reflexivity. }
    replace (dmem String.eqb "axis" (rename "dim" "axis" (first_step kwargs)) || (2 <=? List.length args)) with true.
    2: { symmetry. apply orb_true_iff. destruct G as (v & [(i & X & Y)|I]).
         - right. apply Nat.leb_le. assert (i < List.length args) by (apply nth_error_Some; congruence).
           destruct i as [|[|[|[|j]]]]; try discriminate X. lia.
         - left. apply (dmem_In _ String.eqb_spec). change (dkeys ?l) with (map fst l). apply key_in. exists v.
           apply rename_in; try assumption; [discriminate|]. left. split; [reflexivity|]. apply first_step_in; try assumption.
           split; [discriminate|]. right. split; [discriminate|exact I]. }
    unfold with_out. rewrite rename_get by discriminate. reflexivity.
  - eapply accepted_by_key; [exact A|reflexivity| | |].
    + repeat constructor; keys.
    + apply rename_nodup; assumption.
    + intros p' v I. right. apply rename_in in I; try assumption; [|discriminate].
      destruct I as [[-> I]|[Q I]].
      * apply first_step_in in I as (_ & [[X _]|[_ I]]); [discriminate X| |assumption|assumption]. exists "dim". split; [keys|exact I].
      * apply first_step_in in I as (P & [[-> I]|[P2 I]]); [| |assumption|assumption].
        -- exists "input". split; [keys|exact I].
        -- pose proof (accepted_keys _ _ _ _ _ _ A I) as J. cbn [app In] in J. destruct J as [J|[J|[J|[J|[]]]]]; try congruence.
           subst p'. exists "keepdim". split; [keys|exact I].
  - apply same_values_by_key; [repeat constructor; keys|repeat constructor; keys|].
    intros p p' v I. cbn [combine In] in I. rewrite rename_in by (assumption || discriminate).
    rewrite !first_step_in by assumption.
    destruct I as [I|[I|[I|[]]]]; injection I as <- <-.
    + split; [intros J; right; split; [discriminate|]; split; [discriminate|]; left; auto|].
      intros [[X _]|[_ (_ & [[_ J]|[_ J]])]]; [discriminate X|exact J|]. exfalso. apply FX, key_in. eauto.
    + split; [intros J; left; split; [reflexivity|]; split; [discriminate|]; right; split; [discriminate|exact J]|].
      intros [[_ (_ & [[X _]|[_ J]])]|[_ (_ & [[X _]|[_ J]])]]; try discriminate X; [exact J|]. exfalso. apply FA, key_in. eauto.
    + split; [intros J; right; split; [discriminate|]; split; [discriminate|]; right; split; [discriminate|exact J]|].
      intros [[X _]|[_ (_ & [[X _]|[_ J]])]]; try discriminate X. exact J.
Qed.
Lemma extremum_pairwise op args kwargs :
  accepted ["input"; "other"] ["out"] args kwargs ->
  (exists v, given ["input"; "other"] args kwargs "other" v) ->
  (forall a b, args = [a; b] -> is_tensor b = true) ->
  exists k,
    let c := MkCall ("paddle." ++ op ++ "imum") args k in
    extremum op args kwargs = with_out kwargs (Value c) (Stored c) /\
    accepted ["x"; "y"] [] args k /\
    same_values ["input"; "other"] ["x"; "y"] args args kwargs k.
Proof.
  intros A G T. pose proof A as (L & N & K).
  assert (FX : ~ In "x" (map fst kwargs)) by (eapply not_key; [exact A|keys]).
  assert (FY : ~ In "y" (map fst kwargs)) by (eapply not_key; [exact A|keys]).
  assert (N1 := first_step_nodup kwargs N FX).
  assert (F1 : ~ In "y" (map fst (first_step kwargs))).
  { rewrite key_in. intros (v & I). apply first_step_in in I as (_ & [[X _]|[_ I]]); [discriminate X| |assumption|assumption]. apply FY, key_in. eauto. }
  exists (rename "other" "y" (first_step kwargs)). intros c. split; [|split].
  - unfold extremum. fold (first_step kwargs). unfold with_out. rewrite rename_get by discriminate.
    destruct (dmem String.eqb "other" (first_step kwargs)) eqn:M; [reflexivity|].
    assert (E : rename "other" "y" (first_step kwargs) = first_step kwargs).
    { unfold rename. unfold dmem in M. destruct (dget String.eqb "other" (first_step kwargs)); [discriminate M|reflexivity]. }
    subst c. rewrite E.
    replace (match args with [_; b] => is_tensor b | _ => false end) with true; [reflexivity|].
    apply (dmem_false _ String.eqb_spec) in M.
    destruct G as (v & [(i & X & Y)|I]).
    + assert (i < List.length args) by (apply nth_error_Some; congruence).
      destruct i as [|[|[|j]]]; try discriminate X. cbn [List.length] in L.
      destruct args as [|a [|b [|]]]; cbn [List.length] in *; try lia. symmetry. eapply T. reflexivity.
    + exfalso. apply M. change (dkeys ?l) with (map fst l). apply key_in. exists v. apply first_step_in; try assumption.
      split; [discriminate|]. right. split; [discriminate|exact I].
  - eapply accepted_by_key; [exact A|reflexivity| | |].
    + repeat constructor; keys.
    + apply rename_nodup; assumption.
    + intros p' v I. right. apply rename_in in I; try assumption; [|discriminate].
      destruct I as [[-> I]|[Q I]].
      * apply first_step_in in I as (_ & [[X _]|[_ I]]); [discriminate X| |assumption|assumption]. exists "other". split; [keys|exact I].
      * apply first_step_in in I as (P & [[-> I]|[P2 I]]); [| |assumption|assumption].
        -- exists "input". split; [keys|exact I].
        -- pose proof (accepted_keys _ _ _ _ _ _ A I) as J. cbn [app In] in J. destruct J as [J|[J|[J|[]]]]; congruence.
  - apply same_values_by_key; [repeat constructor; keys|repeat constructor; keys|].
    intros p p' v I. cbn [combine In] in I. rewrite rename_in by (assumption || discriminate).
    rewrite !first_step_in by assumption.
    destruct I as [I|[I|[]]]; injection I as <- <-.
    + split; [intros J; right; split; [discriminate|]; split; [discriminate|]; left; auto|].
      intros [[X _]|[_ (_ & [[_ J]|[_ J]])]]; [discriminate X|exact J|]. exfalso. apply FX, key_in. eauto.
    + split; [intros J; left; split; [reflexivity|]; split; [discriminate|]; right; split; [discriminate|exact J]|].
      intros [[_ (_ & [[X _]|[_ J]])]|[_ (_ & [[X _]|[_ J]])]]; try discriminate X; [exact J|]. exfalso. apply FY, key_in. eauto.
Qed.
Lemma extremum_all op args kwargs :
  accepted ["input"] [] args kwargs ->
  exists k, extremum op args kwargs = Value (MkCall ("paddle." ++ op) args k) /\
    accepted ["x"] [] args k /\ same_values ["input"] ["x"] args args kwargs k.
Proof.
  intros A. pose proof A as (L & N & K). cbn [List.length] in L.
  assert (FX : ~ In "x" (map fst kwargs)) by (eapply not_key; [exact A|keys]).
  assert (ON : forall k, k <> "input" -> ~ In k (map fst kwargs)) by (intros k Q; eapply not_key; [exact A|keys]).
  assert (N1 := first_step_nodup kwargs N FX).
  assert (F1 : forall k, k <> "x" -> k <> "input" -> ~ In k (map fst (first_step kwargs))).
  { intros k Q Q2. rewrite key_in. intros (v & I). apply first_step_in in I as (_ & [[X _]|[_ I]]); [congruence| |assumption|assumption]. apply (ON k Q2), key_in. eauto. }
  exists (first_step kwargs).
  assert (E : rename "dim" "axis" (first_step kwargs) = first_step kwargs).
  { unfold rename. replace (dget String.eqb "dim" (first_step kwargs)) with (@None value); [reflexivity|]. symmetry.
    apply (dget_none_iff _ String.eqb_spec). apply F1; discriminate. }
  split; [|split].
  - unfold extremum. fold (first_step kwargs).
    replace (dmem String.eqb "other" (first_step kwargs)) with false by (symmetry; apply (dmem_false _ String.eqb_spec), F1; discriminate).
    replace (match args with [_; b] => is_tensor b | _ => false end) with false by (destruct args as [|a [|b [|]]]; cbn [List.length] in L; try lia; reflexivity).
    rewrite E. replace (dmem String.eqb "axis" (first_step kwargs)) with false by (symmetry; apply (dmem_false _ String.eqb_spec), F1; discriminate).
    replace (2 <=? List.length args) with false by (symmetry; apply Nat.leb_gt; lia). reflexivity.
  - eapply accepted_by_key; [exact A|reflexivity|repeat constructor; keys|exact N1|].
    intros p' v I. right. apply first_step_in in I as (P & [[-> I]|[P2 I]]); [| |assumption|assumption].
    + exists "input". split; [keys|exact I].
    + exfalso. apply (ON p' P2), key_in. eauto.
  - apply same_values_by_key; [repeat constructor; keys|repeat constructor; keys|].
    intros p p' v I. cbn [combine In] in I. rewrite first_step_in by assumption. destruct I as [I|[]]. injection I as <- <-.
    split; [intros J; split; [discriminate|]; left; auto|].
    intros (_ & [[_ J]|[_ J]]); [exact J|]. exfalso. apply FX, key_in. eauto.
Qed.

(** *** Methods *)
Lemma method_first params args kwargs (self : value) v :
  accepted ("self" :: params) [] (self :: args) kwargs -> In ("self", v) kwargs -> False.
Proof.
  intros (_ & _ & K) I. apply (proj2 (K "self" ltac:(apply key_in; eauto))). cbn [List.length firstn]. left. reflexivity.
Qed.
Lemma tensor_extremum_along op self args kwargs :
  accepted ["self"; "dim"; "keepdim"] [] (self :: args) kwargs ->
  (exists v, given ["self"; "dim"; "keepdim"] (self :: args) kwargs "dim" v) ->
  (forall b, args = [b] -> is_tensor b = false) ->
  exists k,
    tensor_extremum op self args kwargs =
      Pair (MkCall ("paddle." ++ op) (self :: args) k) (MkCall ("paddle.arg" ++ op) (self :: args) k) /\
    accepted ["x"; "axis"; "keepdim"] [] (self :: args) k /\
    same_values ["self"; "dim"; "keepdim"] ["x"; "axis"; "keepdim"] (self :: args) (self :: args) kwargs k.
Proof.
  intros A G T. pose proof A as (L & N & K).
  assert (FX : ~ In "x" (map fst kwargs)) by (eapply not_key; [exact A|keys]).
  assert (FA : ~ In "axis" (map fst kwargs)) by (eapply not_key; [exact A|keys]).
  assert (FO : ~ In "other" (map fst kwargs)) by (eapply not_key; [exact A|keys]).
  exists (rename "dim" "axis" kwargs). split; [|split].
  - unfold tensor_extremum.
    replace (dmem String.eqb "other" kwargs) with false by (symmetry; apply (dmem_false _ String.eqb_spec), FO).
    replace (match args with [b] => is_tensor b | _ => false end) with false by (destruct args as [|a [|]]; try reflexivity; symmetry; eapply T; reflexivity).
    replace (dmem String.eqb "axis" (rename "dim" "axis" kwargs) || (1 <=? List.length args)) with true; [reflexivity|].
    symmetry. apply orb_true_iff. destruct G as (v & [(i & X & Y)|I]).
    + right. apply Nat.leb_le. assert (i < List.length (self :: args)) by (apply nth_error_Some; congruence).
      destruct i as [|[|[|[|j]]]]; try discriminate X. cbn [List.length] in *. lia.
    + left. apply (dmem_In _ String.eqb_spec). change (dkeys ?l) with (map fst l). apply key_in. exists v.
      apply rename_in; try assumption; [discriminate|]. left. auto.
  - eapply accepted_by_key; [exact A|reflexivity|repeat constructor; keys|apply rename_nodup; assumption|].
    intros p' v I. right. apply rename_in in I; try assumption; [|discriminate]. destruct I as [[-> I]|[Q I]].
    + exists "dim". split; [keys|exact I].
    + pose proof (accepted_keys _ _ _ _ _ _ A I) as J. cbn [app In] in J. destruct J as [J|[J|[J|[]]]]; try congruence.
      * subst p'. exfalso. eapply method_first; eassumption.
      * subst p'. exists "keepdim". split; [keys|exact I].
  - apply same_values_by_key; [repeat constructor; keys|repeat constructor; keys|].
    intros p p' v I. cbn [combine In] in I. rewrite rename_in by (assumption || discriminate).
    destruct I as [I|[I|[I|[]]]]; injection I as <- <-.
    + split; [intros J; exfalso; eapply method_first; eassumption|].
      intros [[X _]|[_ J]]; [discriminate X|]. exfalso. apply FX, key_in. eauto.
    + split; [intros J; left; auto|]. intros [[_ J]|[_ J]]; [exact J|]. exfalso. apply FA, key_in. eauto.
    + split; [intros J; right; split; [discriminate|exact J]|]. intros [[X _]|[_ J]]; [discriminate X|exact J].
Qed.
Lemma tensor_extremum_pairwise op self args kwargs :
  accepted ["self"; "other"] [] (self :: args) kwargs ->
  (exists v, given ["self"; "other"] (self :: args) kwargs "other" v) ->
  (forall b, args = [b] -> is_tensor b = true) ->
  exists k,
    tensor_extremum op self args kwargs = Value (MkCall ("paddle." ++ op ++ "imum") (self :: args) k) /\
    accepted ["x"; "y"] [] (self :: args) k /\
    same_values ["self"; "other"] ["x"; "y"] (self :: args) (self :: args) kwargs k.
Proof.
  intros A G T. pose proof A as (L & N & K).
  assert (FX : ~ In "x" (map fst kwargs)) by (eapply not_key; [exact A|keys]).
  assert (FY : ~ In "y" (map fst kwargs)) by (eapply not_key; [exact A|keys]).
  exists (rename "other" "y" kwargs). split; [|split].
  - unfold tensor_extremum. destruct (dmem String.eqb "other" kwargs) eqn:M; [reflexivity|].
    assert (E : rename "other" "y" kwargs = kwargs).
    { unfold rename. unfold dmem in M. destruct (dget String.eqb "other" kwargs); [discriminate M|reflexivity]. }
    rewrite E. apply (dmem_false _ String.eqb_spec) in M.
    replace (match args with [b] => is_tensor b | _ => false end) with true; [reflexivity|].
    destruct G as (v & [(i & X & Y)|I]).
    + assert (i < List.length (self :: args)) by (apply nth_error_Some; congruence).
      destruct i as [|[|[|j]]]; try discriminate X. cbn [List.length] in *.
      destruct args as [|b [|]]; cbn [List.length] in *; try lia. symmetry. eapply T. reflexivity.
    + exfalso. apply M. change (dkeys ?l) with (map fst l). apply key_in. eauto.
  - eapply accepted_by_key; [exact A|reflexivity|repeat constructor; keys|apply rename_nodup; assumption|].
    intros p' v I. right. apply rename_in in I; try assumption; [|discriminate]. destruct I as [[-> I]|[Q I]].
    + exists "other". split; [keys|exact I].
    + pose proof (accepted_keys _ _ _ _ _ _ A I) as J. cbn [app In] in J. destruct J as [J|[J|[]]]; try congruence.
      subst p'. exfalso. eapply method_first; eassumption.
  - apply same_values_by_key; [repeat constructor; keys|repeat constructor; keys|].
    intros p p' v I. cbn [combine In] in I. rewrite rename_in by (assumption || discriminate).
    destruct I as [I|[I|[]]]; injection I as <- <-.
    + split; [intros J; exfalso; eapply method_first; eassumption|].
      intros [[X _]|[_ J]]; [discriminate X|]. exfalso. apply FX, key_in. eauto.
    + split; [intros J; left; auto|]. intros [[_ J]|[_ J]]; [exact J|]. exfalso. apply FY, key_in. eauto.
Qed.

(** ** Arithmetic *)
Lemma operand_scaled {T} (to_tensor : Q -> T) (scale : Q -> T -> T) args kwargs alpha y :
  (forall a q, to_tensor (a * q)%Q = scale a (to_tensor q)) -> (forall a t, (a == 1)%Q -> scale a t = t) ->
  operand_given args kwargs = Ok y ->
  exists o, scaled_operand to_tensor scale args kwargs alpha = Ok o /\
    denotes to_tensor o = scale (match alpha with Some a => a | None => 1%Q end) (denotes to_tensor y) /\
    ((exists t, o = Tensor t) <-> ~ (exists q a, y = Number q /\ alpha = Some a /\ (a == 1)%Q)).
Proof.
  intros S1 S2 Y. unfold scaled_operand. rewrite Y. cbn [bind]. destruct alpha as [a|].
  - destruct (Qeq_bool a 1) eqn:E; cbn [negb].
    + apply Qeq_bool_iff in E. exists y. split; [reflexivity|]. split; [symmetry; apply S2, E|].
      destruct y as [q|t]; [split; [intros (t & X); discriminate X|intros X; exfalso; apply X; eauto]|].
      split; [intros _ (q & b & X & _); discriminate X|eauto].
    + assert (NE : ~ (a == 1)%Q) by (intros X; apply Qeq_bool_iff in X; congruence).
      destruct y as [q|t]; eexists; (split; [reflexivity|]); (split; [cbn [denotes]; auto|]);
        (split; [intros _ (q' & b & _ & X & X2); injection X as <-; auto|eauto]).
  - destruct y as [q|t]; eexists; (split; [reflexivity|]); (split; [cbn [denotes]; symmetry; apply S2; reflexivity|]);
      (split; [intros _ (q' & b & _ & X & X2); discriminate X|eauto]).
Qed.
Lemma operand_plain {T} (to_tensor : Q -> T) args kwargs y :
  operand_given args kwargs = Ok y -> plain_operand to_tensor args kwargs = Ok (Tensor (denotes to_tensor y)).
Proof. intros Y. unfold plain_operand. rewrite Y. destruct y; reflexivity. Qed.

(** *** Rounding *)
Lemma power_positive d : (0 < Qpower 10 d)%Q.
Proof.
  assert (A : (0 <= Qpower 10 d)%Q) by (apply Qpower_pos; discriminate).
  assert (B : ~ (Qpower 10 d == 0)%Q) by (apply Qpower_not_0; discriminate).
  destruct (Qle_lt_or_eq _ _ A) as [X|X]; [exact X|]. exfalso. apply B. symmetry. exact X.
Qed.
Lemma floor_bounds (a u : Q) : (0 < u)%Q -> (0 <= a)%Q ->
  (0 <= inject_Z (Qfloor (a / u)) * u /\ inject_Z (Qfloor (a / u)) * u <= a /\ a - inject_Z (Qfloor (a / u)) * u < u)%Q.
Proof.
  intros U A. pose proof (Qfloor_le (a / u)) as F1. pose proof (Qlt_floor (a / u)) as F2. rewrite inject_Z_plus in F2.
  assert (D : (a == a / u * u)%Q) by (field; intros X; rewrite X in U; apply (Qlt_irrefl 0), U).
  assert (P : (0 <= a / u)%Q). { apply Qle_shift_div_l; [exact U|]. rewrite Qmult_0_l. exact A. }
  assert (Z : (0 <= inject_Z (Qfloor (a / u)))%Q).
  { change 0%Q with (inject_Z 0). rewrite <- Zle_Qle. change 0%Z with (Qfloor 0). apply Qfloor_resp_le, P. }
  set (f := inject_Z (Qfloor (a / u))) in *. set (w := (a / u)%Q) in *. change (inject_Z 1) with 1%Q in F2.
  split; [apply Qmult_le_0_compat; [exact Z|apply Qlt_le_weak, U]|]. split.
  - rewrite D. apply Qmult_le_compat_r; [exact F1|apply Qlt_le_weak, U].
  - rewrite D. assert (X : (w * u < (f + 1) * u)%Q) by (apply Qmult_lt_compat_r; assumption).
    setoid_replace ((f + 1) * u)%Q with (f * u + u)%Q in X by ring. lra.
Qed.
Lemma round_cut_off paddle_round d s : d <> 0%Z -> cut_off (Qpower 10 (- d)) s (round_element paddle_round (Some d) s).
Proof.
  intros D. unfold round_element. destruct (Z.eqb_spec d 0) as [E|_]; [congruence|].
  pose proof (power_positive (- d)) as U. set (u := Qpower 10 (- d)) in *.
  destruct (floor_bounds (Qabs s) u U (Qabs_nonneg s)) as (F0 & F1 & F2).
  set (k := Qfloor (Qabs s / u)) in *. set (x := (inject_Z k * u)%Q) in *.
  destruct (Qlt_le_dec s 0) as [NEG|POS].
  - assert (AS : (Qabs s == - s)%Q) by (apply Qabs_neg, Qlt_le_weak, NEG). rewrite AS in F1, F2.
    split; [exists (- k)%Z; unfold x; rewrite inject_Z_opp; ring|]. split.
    + setoid_replace (- x * s)%Q with (x * - s)%Q by ring. apply Qmult_le_0_compat; [exact F0|lra].
    + split.
      * rewrite Qabs_opp, (Qabs_pos x F0), AS. exact F1.
      * rewrite Qabs_neg; lra.
  - assert (AS : (Qabs s == s)%Q) by (apply Qabs_pos, POS). rewrite AS in F1, F2.
    split; [exists k; reflexivity|]. split; [apply Qmult_le_0_compat; assumption|]. split.
    + rewrite (Qabs_pos x F0), AS. exact F1.
    + rewrite Qabs_pos; lra.
Qed.

(** ** Regions of interest *)
Lemma reads_zeros {B} i n (b : list B) : reads_from i (repeat 0 n) b = [].
Proof. revert i b. induction n as [|n IH]; intros i b; [reflexivity|]. cbn [repeat reads_from firstn skipn map app]. apply IH. Qed.
Lemma boxes_list_read {B} batch (boxes : list (list B)) : paddle_reads (boxes_of_list batch boxes) = images_from 0 boxes.
Proof.
  unfold paddle_reads, boxes_of_list. cbn [fst snd]. generalize (batch - List.length boxes) as n. generalize 0 at 1 3 as i.
  induction boxes as [|l r IH]; intros i n; [apply reads_zeros|].
  cbn [map app reads_from List.concat images_from].
  rewrite firstn_app, Nat.sub_diag, firstn_O, app_nil_r, firstn_all.
  rewrite skipn_app, Nat.sub_diag, skipn_all. cbn [skipn app]. f_equal. apply IH.
Qed.
Lemma reads_images {B} nums i (b : list B) : Forall (fun r => i <= fst r) (reads_from i nums b).
Proof.
  revert i b. induction nums as [|n r IH]; intros i b; [constructor|]. cbn [reads_from]. apply Forall_app. split.
  - apply Forall_forall. intros x I. apply in_map_iff in I as (y & <- & _). cbn. lia.
  - eapply Forall_impl; [|apply IH]. cbn. intros x L. lia.
Qed.
Lemma reads_sorted {B} nums i (b : list B) : StronglySorted le (map fst (reads_from i nums b)).
Proof.
  revert i b. induction nums as [|n r IH]; intros i b; [constructor|]. cbn [reads_from]. rewrite map_app, map_map. cbn [fst].
  pose proof (reads_images r (S i) (skipn n b)) as F. specialize (IH (S i) (skipn n b)).
  induction (firstn n b) as [|x l IHl]; [exact IH|]. cbn [map app]. constructor; [exact IHl|].
  apply Forall_app. split.
  - apply Forall_forall. intros y J. apply in_map_iff in J as (z & <- & _). lia.
  - rewrite Forall_map. eapply Forall_impl; [|exact F]. cbn. intros z L. lia.
Qed.
Definition count {B} (rows : list (nat * B)) (i : nat) : nat := List.length (filter (fun r => fst r =? i) rows).
Lemma sorted_split {B} i (rows : list (nat * B)) :
  StronglySorted le (map fst rows) -> Forall (fun r => i <= fst r) rows ->
  exists e s, rows = map (pair i) e ++ s /\ Forall (fun r => S i <= fst r) s /\ StronglySorted le (map fst s).
Proof.
  induction rows as [|[k b] rows IH]; intros S F; [exists [], []; repeat constructor|].
  inversion F as [|? ? L F' E1]; subst. cbn [map fst] in S, L. inversion S as [|? ? S' M]; subst.
  destruct (Nat.eq_dec k i) as [->|N].
  - destruct (IH S' F') as (e & s & -> & A & C). exists (b :: e), s. split; [reflexivity|]. auto.
  - exists [], ((k, b) :: rows). split; [reflexivity|]. split; [|exact S]. constructor; [cbn; lia|].
    rewrite Forall_map in M. eapply Forall_impl; [|exact M]. cbn. intros r X. lia.
Qed.
Lemma boxes_tensor_read {B} n i (rows : list (nat * B)) :
  StronglySorted le (map fst rows) -> Forall (fun r => i <= fst r < i + n) rows ->
  reads_from i (map (count rows) (seq i n)) (map snd rows) = rows.
Proof.
  revert i rows. induction n as [|n IH]; intros i rows S F.
  - destruct rows as [|r rows]; [reflexivity|]. inversion F; lia.
  - destruct (sorted_split i rows S) as (e & s & -> & A & C); [eapply Forall_impl; [|exact F]; cbn; lia|].
    assert (CE : count (map (pair i) e ++ s) i = List.length e).
    { unfold count. rewrite filter_app, app_length.
      replace (filter (fun r => fst r =? i) (map (pair i) e)) with (map (pair i) e).
      - replace (filter (fun r => fst r =? i) s) with (@nil (nat * B)); [rewrite map_length; cbn; lia|].
        clear - A. induction s as [|x s IH]; [reflexivity|]. inversion A as [|? ? L A']; subst. cbn [filter]. destruct (Nat.eqb_spec (fst x) i); [lia|]. apply IH, A'.
      - clear. induction e as [|x e IH]; [reflexivity|]. cbn [map filter fst]. rewrite Nat.eqb_refl, <- IH. reflexivity. }
    cbn [seq map reads_from]. rewrite CE, map_app, map_map. cbn [snd]. rewrite map_id.
    rewrite firstn_app, Nat.sub_diag, firstn_O, app_nil_r, firstn_all, skipn_app, Nat.sub_diag, skipn_all. cbn [skipn app]. f_equal.
    rewrite (map_ext_in _ (count s)).
    + apply IH; [exact C|]. apply Forall_app in F as [_ F]. rewrite Forall_forall in *. intros r I. specialize (A r I). specialize (F r I). cbn in *. lia.
    + intros k I. apply in_seq in I. unfold count. rewrite filter_app, app_length.
      replace (filter (fun r => fst r =? k) (map (pair i) e)) with (@nil (nat * B)); [reflexivity|].
      clear - I. induction e as [|x e IH]; [reflexivity|]. cbn [map filter fst]. destruct (Nat.eqb_spec i k); [lia|exact IH].
Qed.
Lemma boxes_tensor_exact {B} batch (rows : list (nat * B)) :
  Forall (fun r => fst r < batch) rows ->
  (paddle_reads (boxes_of_tensor batch rows) = rows <-> StronglySorted le (map fst rows)).
Proof.
  intros F. unfold paddle_reads, boxes_of_tensor. cbn [fst snd]. split.
  - intros E. rewrite <- E. apply reads_sorted.
  - intros S. apply (boxes_tensor_read batch 0 rows S). eapply Forall_impl; [|exact F]. cbn. lia.
Qed.

(** ** Copying along an axis *)
Lemma scatter_length {A} index (source t : list A) : List.length (scatter index source t) = List.length t.
Proof. revert source t. induction index as [|i r IH]; intros [|s rs] t; cbn [scatter]; try reflexivity. rewrite IH, put_length. reflexivity. Qed.
Lemma scatter_other {A} index (source t : list A) k : ~ In k index -> nth_error (scatter index source t) k = nth_error t k.
Proof.
  revert source t. induction index as [|i r IH]; intros [|s rs] t N; cbn [scatter]; try reflexivity.
  rewrite IH by (intros X; apply N; right; exact X). apply put_other. intros ->. apply N. left. reflexivity.
Qed.
Lemma scatter_same {A} index (source t : list A) j k :
  NoDup index -> Forall (fun i => i < List.length t) index -> List.length source = List.length index ->
  nth_error index j = Some k -> nth_error (scatter index source t) k = nth_error source j.
Proof.
  revert source t j. induction index as [|i r IH]; intros source t j N F L E; [destruct j; discriminate E|].
  destruct source as [|s rs]; [discriminate L|]. inversion N as [|? ? N1 N2]; subst. inversion F as [|? ? F1 F2]; subst. cbn [scatter].
  destruct j as [|j].
  - cbn in E. injection E as ->. rewrite scatter_other by exact N1. apply put_same, F1.
  - cbn [nth_error] in E |- *. apply IH; try assumption; [rewrite put_length; exact F2|cbn in L; lia].
Qed.
Definition flat_index (outer : nat) (index : list nat) (step : nat) : list nat :=
  List.concat (map (fun i => map (fun k => k + i * step) index) (seq 0 outer)).
Lemma flat_in outer index step x : In x (flat_index outer index step) <-> exists i k, i < outer /\ In k index /\ x = k + i * step.
Proof.
  unfold flat_index. rewrite in_concat. split.
  - intros (l & I & J). apply in_map_iff in I as (i & <- & I). apply in_seq in I. apply in_map_iff in J as (k & <- & J). exists i, k. repeat split; [lia|exact J].
  - intros (i & k & L & I & ->). eexists. split; [apply in_map_iff; exists i; split; [reflexivity|apply in_seq; lia]|]. apply in_map_iff. exists k. auto.
Qed.
Lemma flat_nth outer index step i j k : i < outer -> nth_error index j = Some k ->
  nth_error (flat_index outer index step) (i * List.length index + j) = Some (k + i * step).
Proof.
  intros L E. unfold flat_index.
  assert (X : forall s n i, i < n -> nth_error (List.concat (map (fun i => map (fun k => k + i * step) index) (seq s n))) (i * List.length index + j) = Some (k + (s + i) * step)).
  { intros s n. revert s. induction n as [|n IH]; intros s i' L'; [lia|]. cbn [seq map List.concat].
    assert (LJ : j < List.length index) by (apply nth_error_Some; congruence).
    destruct i' as [|i'].
    - cbn [plus Nat.mul]. rewrite nth_error_app1 by (rewrite map_length; exact LJ). rewrite nth_error_map, E. cbn [option_map]. f_equal. f_equal. f_equal. lia.
    - rewrite nth_error_app2 by (rewrite map_length; cbn; lia). rewrite map_length.
      replace (S i' * List.length index + j - List.length index) with (i' * List.length index + j) by (cbn; lia).
      rewrite IH by lia. f_equal. f_equal. f_equal. lia. }
  apply (X 0 outer i L).
Qed.
Lemma flat_nodup outer index d : NoDup index -> Forall (fun k => k < d) index -> NoDup (flat_index outer index d).
Proof.
  intros N F. unfold flat_index. assert (X : forall s n, NoDup (List.concat (map (fun i => map (fun k => k + i * d) index) (seq s n)))).
  { intros s n. revert s. induction n as [|n IH]; intros s; [constructor|]. cbn [seq map List.concat].
    assert (N1 : NoDup (map (fun k => k + s * d) index)) by (apply FinFun.Injective_map_NoDup; [intros a b; lia|exact N]).
    assert (DJ : forall x, In x (map (fun k => k + s * d) index) -> ~ In x (List.concat (map (fun i => map (fun k => k + i * d) index) (seq (S s) n)))).
    { intros x I J. apply in_map_iff in I as (k & <- & I). apply in_concat in J as (l & J1 & J2). apply in_map_iff in J1 as (i & <- & J1).
      apply in_map_iff in J2 as (k' & E & J2). apply in_seq in J1. rewrite Forall_forall in F. pose proof (F k I). pose proof (F k' J2).
      assert ((S s) * d <= i * d) by (apply Nat.mul_le_mono_r; lia). cbn in *. lia. }
    revert N1 DJ. generalize (map (fun k => k + s * d) index) as l. intros l N1 DJ. induction l as [|a l IHl]; [apply IH|].
    cbn [app]. inversion N1 as [|? ? NA N1']; subst. constructor.
    - rewrite in_app_iff. intros [X|X]; [exact (NA X)|]. exact (DJ a (or_introl eq_refl) X).
    - apply IHl; [exact N1'|]. intros x I. apply DJ. right. exact I. }
  apply X.
Qed.
Lemma flat_length outer index step : List.length (flat_index outer index step) = outer * List.length index.
Proof.
  unfold flat_index. assert (X : forall s n, List.length (List.concat (map (fun i => map (fun k => k + i * step) index) (seq s n))) = n * List.length index).
  { intros s n. revert s. induction n as [|n IH]; intros s; [reflexivity|]. cbn [seq map List.concat]. rewrite app_length, map_length, IH. cbn. lia. }
  apply X.
Qed.
Lemma index_copy_right {A} outer d index (source t : list A) :
  NoDup index -> Forall (fun k => k < d) index -> (List.length index = d \/ outer = 1) ->
  List.length t = outer * d -> List.length source = outer * List.length index ->
  index_copied outer d index source t (index_copy outer index source t).
Proof.
  intros N F C LT LS. unfold index_copy. fold (flat_index outer index (List.length index)).
  assert (E : flat_index outer index (List.length index) = flat_index outer index d).
  { destruct C as [->| ->]; [reflexivity|]. unfold flat_index. cbn [seq map List.concat]. f_equal. }
  rewrite E. split; [apply scatter_length|]. intros i k LI LK. split.
  - intros j J. replace (i * d + k) with (k + i * d) by lia.
    rewrite (scatter_same (flat_index outer index d) source t (i * List.length index + j)).
    + reflexivity.
    + apply flat_nodup; assumption.
    + apply Forall_forall. intros x I. apply flat_in in I as (i' & k' & L' & I & ->). rewrite Forall_forall in F. specialize (F k' I). rewrite LT.
      assert (S i' * d <= outer * d) by (apply Nat.mul_le_mono_r; lia). cbn in *. lia.
    + rewrite flat_length. exact LS.
    + apply flat_nth; assumption.
  - intros NI. apply scatter_other. rewrite flat_in. intros (i' & k' & L' & I & X). rewrite Forall_forall in F. specialize (F k' I).
    assert (k = k'); [|congruence]. assert (i = i'); [|subst; lia].
    destruct (Nat.lt_trichotomy i i') as [Y|[Y|Y]]; [|exact Y|].
    + assert (S i * d <= i' * d) by (apply Nat.mul_le_mono_r; lia). cbn in *. lia.
    + assert (S i' * d <= i * d) by (apply Nat.mul_le_mono_r; lia). cbn in *. lia.
Qed.
Lemma list_max_in l : l <> [] -> In (list_max l) l.
Proof.
  induction l as [|a l IH]; [congruence|]. intros _. cbn [list_max fold_right]. fold (list_max l). destruct l as [|b l].
  - left. cbn. lia.
  - destruct (Nat.max_spec a (list_max (b :: l))) as [[_ ->]|[_ ->]]; [right; apply IH; discriminate|left; reflexivity].
Qed.
Lemma nth_error_repeat_eq {A} (a : A) n k : k < n -> nth_error (repeat a n) k = Some a.
Proof. revert k. induction n as [|n IH]; intros [|k] L; cbn; [lia|lia|reflexivity|apply IH; lia]. Qed.
Lemma index_copy_wrong outer d index :
  NoDup index -> Forall (fun k => k < d) index -> index <> [] -> List.length index <> d -> 2 <= outer ->
  ~ index_copied outer d index (repeat 1 (outer * List.length index)) (repeat 0 (outer * d))
      (index_copy outer index (repeat 1 (outer * List.length index)) (repeat 0 (outer * d))).
Proof.
  intros N F NE LN LO (_ & C).
  assert (LE : List.length index <= d).
  { rewrite <- (seq_length d 0). apply NoDup_incl_length; [exact N|]. intros x I. apply in_seq. rewrite Forall_forall in F. specialize (F x I). lia. }
  pose proof (list_max_in index NE) as M. set (k := list_max index) in *.
  assert (LK : k < d) by (rewrite Forall_forall in F; apply F, M).
  apply In_nth_error in M as (j & J).
  assert (LJ : j < List.length index) by (apply nth_error_Some; congruence).
  destruct (C (outer - 1) k ltac:(lia) LK) as [C1 _]. specialize (C1 j J).
  assert (B1 : (outer - 1) * List.length index + j < outer * List.length index).
  { destruct outer as [|o]; [lia|]. replace (S o - 1) with o by lia. cbn [Nat.mul]. lia. }
  assert (B2 : (outer - 1) * d + k < outer * d).
  { destruct outer as [|o]; [lia|]. replace (S o - 1) with o by lia. cbn [Nat.mul]. lia. }
  rewrite nth_error_repeat_eq in C1 by exact B1.
  unfold index_copy in C1. fold (flat_index outer index (List.length index)) in C1. rewrite scatter_other in C1.
  - rewrite nth_error_repeat_eq in C1 by exact B2. discriminate C1.
  - rewrite flat_in. intros (i' & k' & L' & I & X).
    assert (k' <= k). { unfold k. pose proof (proj1 (list_max_le index (list_max index)) (le_n _)) as Y. rewrite Forall_forall in Y. apply Y, I. }
    assert (i' * List.length index <= (outer - 1) * List.length index) by (apply Nat.mul_le_mono_r; lia).
    assert ((outer - 1) * List.length index < (outer - 1) * d) by (apply Nat.mul_lt_mono_pos_l; lia). lia.
Qed.

(** ** Linear systems *)
Lemma lu_solve_right {M} (mul : M -> M -> M) (herm : M -> M) (solve : trans -> M -> M -> M) (left adjoint : bool) (a b : M) :
  (forall x y, herm (mul x y) = mul (herm y) (herm x)) -> (forall x, herm (herm x) = x) ->
  (forall c, mul a (solve PlainT a c) = c) -> (forall c, mul (herm a) (solve HermT a c) = c) ->
  solves mul herm left adjoint a b (lu_solve solve herm left adjoint a b).
Proof.
  intros HM HH SP SH. unfold solves, lu_solve. destruct left, adjoint.
  - apply SH.
  - apply SP.
  - rewrite <- HM, SP. apply HH.
  - rewrite <- (HH a) at 2. rewrite <- HM, SH. apply HH.
Qed.

(** ** Casts *)
Definition kind_list : list (string * nat) :=
  List.concat (map (fun '(k, l) => map (fun t => (t, k)) l) (combine (seq 0 4) kinds)).
Lemma kind_listed t k : of_kind t k -> In (t, k) kind_list.
Proof. intros (l & E & I). destruct k as [|[|[|[|k]]]]; cbn in E; [| | | |destruct k; discriminate E]; injection E as <-; cbn in I |- *; intuition (subst; auto 20). Qed.
Lemma casts_checked :
  forallb (fun '(a, i) => forallb (fun '(b, j) => match can_cast a b with Ok r => Bool.eqb r (i <=? j) | Raise _ => false end) kind_list) kind_list = true.
Proof. vm_compute. reflexivity. Qed.
Lemma casts_right a i b j : of_kind a i -> of_kind b j -> can_cast a b = Ok (i <=? j).
Proof.
  intros A B. apply kind_listed in A, B. pose proof casts_checked as C. rewrite forallb_forall in C. specialize (C _ A). cbn beta iota in C.
  rewrite forallb_forall in C. specialize (C _ B). cbn beta iota in C. destruct (can_cast a b) as [r|e]; [|discriminate C]. apply eqb_prop in C. congruence.
Qed.
Lemma known_rows : forallb (fun row => existsb (fun p => String.eqb (fst p) (fst row)) kind_list && forallb (fun c => existsb (fun p => String.eqb (fst p) (fst c)) kind_list) (snd row)) can_cast_table = true.
Proof. vm_compute. reflexivity. Qed.
Lemma listed_kind t : existsb (fun p => String.eqb (fst p) t) kind_list = true -> exists k, of_kind t k.
Proof.
  intros E. apply existsb_exists in E as ([u k] & I & E). apply String.eqb_eq in E. cbn in E. subst u.
  exists k. cbn in I. repeat (destruct I as [I|I]; [injection I as <- <-; eexists; split; [reflexivity|]; cbn; auto 10|]). destruct I.
Qed.
Lemma casts_refused a b : (~ exists k, of_kind a k) \/ (~ exists k, of_kind b k) -> can_cast a b = Raise "KeyError".
Proof.
  intros C. unfold can_cast. destruct (dget String.eqb a can_cast_table) as [row|] eqn:E; [|reflexivity].
  apply (dget_some_in _ String.eqb_spec) in E. pose proof known_rows as K. rewrite forallb_forall in K. specialize (K _ E). cbn [fst snd] in K.
  apply andb_true_iff in K as [KA KB]. destruct C as [C|C]; [exfalso; apply C, listed_kind, KA|].
  destruct (dget String.eqb b row) as [r|] eqn:E2; [|reflexivity]. exfalso. apply C.
  apply (dget_some_in _ String.eqb_spec) in E2. rewrite forallb_forall in KB. specialize (KB _ E2). apply listed_kind, KB.
Qed.

(** ** Reduce and scatter *)
Lemma skipn_twice {A} a b (l : list A) : skipn a (skipn b l) = skipn (b + a) l.
Proof. revert l. induction b as [|b IH]; intros l; [reflexivity|]. destruct l; [destruct a; reflexivity|]. cbn [skipn plus]. apply IH. Qed.
Lemma chunks_nth {A} c s (l : list A) r : r < c -> nth_error (chunks c s l) r = Some (firstn s (skipn (r * s) l)).
Proof.
  revert l r. induction c as [|c IH]; intros l r L; [lia|]. destruct r as [|r]; [reflexivity|]. cbn [chunks nth_error].
  rewrite IH by lia. rewrite skipn_twice. reflexivity.
Qed.
Lemma chunks_length {A} c s (l : list A) : List.length (chunks c s l) = c.
Proof. revert l. induction c as [|c IH]; intros l; cbn [chunks List.length]; [reflexivity|]. rewrite IH. reflexivity. Qed.
Lemma row_at {A} r (l : list A) a : nth_error l r = Some a -> firstn 1 (skipn r l) = [a].
Proof. revert r. induction l as [|b l IH]; intros [|r] E; try discriminate E; [injection E as ->; reflexivity|apply IH, E]. Qed.
Lemma pieces_right {A} world (input : list A) : 0 < world -> List.length input mod world = 0 ->
  exists l, scatter_pieces world input = Ok l /\ List.length l = world /\ forall r, r < world -> nth_error l r = Some (part world r input).
Proof.
  intros W D. unfold scatter_pieces. destruct (Nat.eqb_spec (List.length input) world) as [E|N].
  - eexists. split; [reflexivity|]. rewrite map_length. split; [exact E|]. intros r L. rewrite nth_error_map.
    destruct (nth_error input r) as [a|] eqn:X; [|apply nth_error_None in X; lia].
    cbn [option_map]. unfold part. rewrite E, Nat.div_same, Nat.mul_1_r by lia. rewrite (row_at _ _ _ X). reflexivity.
  - destruct (Nat.eqb_spec world 0); [lia|]. rewrite D. cbn [Nat.eqb negb orb].
    eexists. split; [reflexivity|]. split; [apply chunks_length|]. intros r L. apply chunks_nth, L.
Qed.
Lemma pieces_refused {A} world (input : list A) : 0 < world -> List.length input mod world <> 0 -> scatter_pieces world input = Raise "ValueError".
Proof.
  intros W D. unfold scatter_pieces. destruct (Nat.eqb_spec (List.length input) world) as [E|N]; [rewrite E, Nat.mod_same in D by lia; congruence|].
  destruct (Nat.eqb_spec (List.length input mod world) 0); [congruence|]. rewrite orb_true_r. reflexivity.
Qed.

(** ** Head masks *)
Lemma mask_shape layers heads shape : mask_for layers heads shape -> head_mask_5d shape layers = Ok [layers; 1; heads; 1; 1].
Proof. intros []; reflexivity. Qed.

(** More of what the converted program runs (C127-C130). *)
From Verif Require Import PyStr PyStrFacts PyDict PyDictFacts Ast Args TablesData Generate PropertiesGenerate.
From Verif Require Import Helpers HelpersFacts Helpers2 PropertiesHelpers ImportFacts3.
From Coq Require Import Lia.
Open Scope string_scope.
Open Scope list_scope.
Open Scope nat_scope.

(** ** C127: rotary embeddings *)
(** The rotation flash_attn computes for a head at one position (without interleaving): the
    components [i] and [r + i] are turned by the angle of component [i], the rest stays. *)
Definition turned {A} (add sub mul : A -> A -> A) (x cos sin out : list A) : Prop :=
  let r := List.length cos in
  List.length out = List.length x /\
  (forall i a b c s, i < r -> nth_error x i = Some a -> nth_error x (r + i) = Some b -> nth_error cos i = Some c -> nth_error sin i = Some s ->
    nth_error out i = Some (sub (mul a c) (mul b s)) /\ nth_error out (r + i) = Some (add (mul a s) (mul b c))) /\
  (forall i, r + r <= i -> nth_error out i = nth_error x i).

Section Rotary.
Variable A : Type.
Variable add sub mul : A -> A -> A.
Variable opp : A -> A.
Hypothesis add_comm : forall a b, add a b = add b a.
Hypothesis sub_add : forall a b, sub a b = add a (opp b).
Hypothesis mul_opp : forall a b, mul (opp a) b = opp (mul a b).

Lemma elementwise_ok (op : A -> A -> A) : forall a b, List.length a = List.length b ->
  exists r, elementwise A op a b = Ok r /\ List.length r = List.length a /\
    forall i x y, nth_error a i = Some x -> nth_error b i = Some y -> nth_error r i = Some (op x y).
Proof.
  induction a as [|x a IH]; intros [|y b] L; try discriminate L; cbn [elementwise].
  - exists []. split; [reflexivity|]. split; [reflexivity|]. intros [|i] ? ? H; discriminate H.
  - injection L as L. destruct (IH b L) as (r & -> & Lr & N). exists (op x y :: r). split; [reflexivity|]. split; [cbn; lia|].
    intros [|i] u v Hu Hv; cbn [nth_error] in *; [congruence|]. exact (N i u v Hu Hv).
Qed.
Lemma firstn_nth (l : list A) n i : i < n -> nth_error (firstn n l) i = nth_error l i.
Proof.
  revert n i. induction l as [|x l IH]; intros [|n] [|i] L; try lia; try reflexivity. cbn. apply IH. lia.
Qed.
Lemma skipn_nth (l : list A) n i : nth_error (skipn n l) i = nth_error l (n + i).
Proof. revert n. induction l as [|x l IH]; intros [|n]; try reflexivity; [destruct i; reflexivity|]. cbn. apply IH. Qed.
Lemma row_ok x cos sin : List.length sin = List.length cos -> List.length cos + List.length cos <= List.length x ->
  exists out, rotate_row A add mul opp x cos sin = Ok out /\ turned add sub mul x cos sin out.
Proof.
  intros Ls Lx. unfold rotate_row. set (r := List.length cos) in *.
  rewrite app_length. fold r. set (t := firstn (r + r) x).
  assert (Lt : List.length t = r + r) by (unfold t; rewrite firstn_length; lia).
  destruct (elementwise_ok mul t (cos ++ cos)) as (a & -> & La & Na); [rewrite app_length; fold r; lia|]. cbn [bind].
  unfold rotate_half. rewrite Lt. replace (Nat.even (r + r)) with true by (replace (r + r) with (2 * r) by lia; rewrite Nat.even_mul; reflexivity).
  replace (Nat.div2 (r + r)) with r by (replace (r + r) with (2 * r) by lia; rewrite Nat.div2_double; reflexivity). cbn [bind].
  destruct (elementwise_ok mul (map opp (skipn r t) ++ firstn r t) (sin ++ sin)) as (b & -> & Lb & Nb).
  { rewrite !app_length, map_length, skipn_length, firstn_length. lia. }
  rewrite app_length, map_length, skipn_length, firstn_length in Lb. cbn [bind].
  destruct (elementwise_ok add a b) as (c & -> & Lc & Nc); [lia|]. cbn [bind].
  eexists. split; [reflexivity|]. unfold turned. fold r. split; [rewrite app_length, skipn_length; lia|]. split.
  - intros i u v co si Li Hu Hv Hc Hs.
    assert (Tu : nth_error t i = Some u) by (unfold t; rewrite firstn_nth; [exact Hu|lia]).
    assert (Tv : nth_error t (r + i) = Some v) by (unfold t; rewrite firstn_nth; [exact Hv|lia]).
    assert (Lm : List.length (map opp (skipn r t)) = r) by (rewrite map_length, skipn_length; lia).
    split; rewrite nth_error_app1 by lia.
    + rewrite (Nc i (mul u co) (mul (opp v) si)); [rewrite mul_opp, <- sub_add; reflexivity| |].
      * apply Na; [exact Tu|]. rewrite nth_error_app1 by (fold r; lia). exact Hc.
      * apply Nb; [|rewrite nth_error_app1 by lia; exact Hs]. rewrite nth_error_app1 by lia. rewrite nth_error_map, skipn_nth, Tv. reflexivity.
    + rewrite (Nc (r + i) (mul v co) (mul u si)); [rewrite add_comm; reflexivity| |].
      * apply Na; [exact Tv|]. rewrite nth_error_app2 by (fold r; lia). fold r. replace (r + i - r) with i by lia. exact Hc.
      * apply Nb; [|rewrite nth_error_app2 by lia; replace (r + i - List.length sin) with i by lia; exact Hs].
        rewrite nth_error_app2 by lia. rewrite Lm. replace (r + i - r) with i by lia. rewrite firstn_nth by lia. exact Tu.
  - intros i Li. rewrite nth_error_app2 by lia. rewrite skipn_nth. f_equal. lia.
Qed.
Lemma each_ok {B C} (f : B -> res C) (R : B -> C -> Prop) l : (forall x, In x l -> exists y, f x = Ok y /\ R x y) ->
  exists r, each f l = Ok r /\ Forall2 R l r.
Proof.
  induction l as [|x l IH]; intros H; cbn [each]; [exists []; split; [reflexivity|constructor]|].
  destruct (H x (or_introl eq_refl)) as (y & -> & Y). destruct IH as (r & -> & F); [intros z I; apply H; right; exact I|].
  exists (y :: r). split; [reflexivity|]. constructor; assumption.
Qed.
Lemma each_raise {B C} (f : B -> res C) l x e : In x l -> f x = Raise e -> exists e', each f l = Raise e'.
Proof.
  induction l as [|y l IH]; intros I E; [destruct I|]. cbn [each]. destruct I as [->|I]; [rewrite E; exists e; reflexivity|].
  destruct (f y) as [z|e0]; [|exists e0; reflexivity]. cbn [bind]. destruct (IH I E) as [e' ->]. exists e'. reflexivity.
Qed.
(** A sequence: what happens at position [i]. *)
Definition all_turned (x : list (list (list A))) (cos sin : list (list A)) (out : list (list (list A))) : Prop :=
  List.length out = List.length x /\
  forall i p c s, nth_error x i = Some p -> nth_error cos i = Some c -> nth_error sin i = Some s ->
    exists q, nth_error out i = Some q /\ Forall2 (fun h h' => turned add sub mul h c s h') p q.
Lemma sequence_ok : forall x cos sin, List.length x = List.length cos -> List.length sin = List.length cos ->
  (forall i p c s, nth_error x i = Some p -> nth_error cos i = Some c -> nth_error sin i = Some s ->
     List.length s = List.length c /\ forall h, In h p -> List.length c + List.length c <= List.length h) ->
  exists out, rotate_sequence A add mul opp x cos sin = Ok out /\ all_turned x cos sin out.
Proof.
  induction x as [|p x IH]; intros [|c cos] [|s sin] L1 L2 H; try discriminate; cbn [rotate_sequence].
  - exists []. split; [reflexivity|]. split; [reflexivity|]. intros [|i] ? ? ? X; discriminate X.
  - destruct (H 0 p c s eq_refl eq_refl eq_refl) as [Ls Lh].
    destruct (each_ok (fun h => rotate_row A add mul opp h c s) (fun h h' => turned add sub mul h c s h') p) as (q & -> & F).
    { intros h I. apply row_ok; [exact Ls|exact (Lh h I)]. }
    injection L1 as L1. injection L2 as L2. destruct (IH cos sin L1 L2) as (r & -> & Lr & Nr); [intros i; exact (H (S i))|].
    exists (q :: r). split; [reflexivity|]. split; [cbn; lia|]. intros [|i] p' c' s' Hp Hc Hs; cbn [nth_error] in *.
    + injection Hp as <-. injection Hc as <-. injection Hs as <-. exists q. auto.
    + exact (Nr i p' c' s' Hp Hc Hs).
Qed.
Lemma sequence_raise : forall x cos sin, List.length x <> List.length cos -> exists e, rotate_sequence A add mul opp x cos sin = Raise e.
Proof.
  induction x as [|p x IH]; intros [|c cos] [|s sin] L; try (cbn in L; congruence); try (eexists; reflexivity). cbn [rotate_sequence].
  destruct (each _ p) as [q|e]; [|exists e; reflexivity]. cbn [bind]. destruct (IH cos sin) as [e ->]; [cbn in L; lia|]. exists e. reflexivity.
Qed.
Lemma stretched_same {B} (l : list B) n : List.length l = n -> stretched n l = l.
Proof. destruct l as [|a [|b l]]; cbn; intros <-; reflexivity. Qed.
Lemma stretched_other {B} (l : list B) n : List.length l <> 1 -> stretched n l = l.
Proof. destruct l as [|a [|b l]]; cbn; congruence. Qed.
End Rotary.

(** The helper rotates as flash_attn does, if the tables have a row for every position and no
    other.  The laws are those that also hold for floating-point numbers. *)
Theorem C127_rotation : forall (A : Type) (add sub mul : A -> A -> A) (opp : A -> A) x cos sin,
  (forall a b, add a b = add b a) -> (forall a b, sub a b = add a (opp b)) -> (forall a b, mul (opp a) b = opp (mul a b)) ->
  List.length sin = List.length cos ->
  (forall seq, In seq x -> List.length seq = List.length cos) ->
  (forall seq i p c s, In seq x -> nth_error seq i = Some p -> nth_error cos i = Some c -> nth_error sin i = Some s ->
     List.length s = List.length c /\ forall h, In h p -> List.length c + List.length c <= List.length h) ->
  exists out, apply_rotary A add mul opp x cos sin = Ok out /\
    Forall2 (fun seq seq' => List.length seq' = List.length seq /\
      forall i p c s, nth_error seq i = Some p -> nth_error cos i = Some c -> nth_error sin i = Some s ->
        exists q, nth_error seq' i = Some q /\ Forall2 (fun h h' => turned add sub mul h c s h') p q) x out.
Proof.
  intros A add sub mul opp x cos sin C S M Ls Lx H. unfold apply_rotary.
  apply (each_ok (fun s => rotate_sequence A add mul opp s (stretched (List.length s) cos) (stretched (List.length s) sin)) (fun seq seq' => all_turned A add sub mul seq cos sin seq')).
  intros seq I. rewrite !stretched_same by (rewrite (Lx seq I); congruence).
  apply sequence_ok; auto. intros i p c s. exact (H seq i p c s I).
Qed.
Print Assumptions C127_rotation.
(** Expected but not true: longer tables may be passed, as for flash_attn, which uses the
    first rows.  Every such call fails. *)
Theorem C127_longer_tables_refuted : forall (A : Type) (add mul : A -> A -> A) (opp : A -> A) x cos sin seq,
  In seq x -> List.length seq < List.length cos -> 1 < List.length cos ->
  exists e, apply_rotary A add mul opp x cos sin = Raise e.
Proof.
  intros A add mul opp x cos sin seq I L L1. unfold apply_rotary.
  destruct (sequence_raise A add mul opp seq cos (stretched (List.length seq) sin)) as [e E]; [lia|].
  apply (each_raise (fun s => rotate_sequence A add mul opp s (stretched (List.length s) cos) (stretched (List.length s) sin)) x seq e I).
  rewrite (stretched_other cos) by lia. exact E.
Qed.
Print Assumptions C127_longer_tables_refuted.
(** Two positions, one head of five components of which four are turned. *)
Example C127_nonvacuous :
  apply_rotary Z Z.add Z.mul Z.opp [[[[1; 2; 3; 4; 9]]; [[5; 6; 7; 8; 9]]]]%Z [[10; 20]; [30; 40]]%Z [[1; 2]; [3; 4]]%Z =
    Ok [[[[7; 32; 31; 84; 9]]; [[129; 208; 225; 344; 9]]]]%Z /\
  turned Z.add Z.sub Z.mul [1; 2; 3; 4; 9]%Z [10; 20]%Z [1; 2]%Z [7; 32; 31; 84; 9]%Z.
Proof.
  split; [reflexivity|]. split; [reflexivity|]. split.
  - intros [|[|i]] a b c s L Ha Hb Hc Hs; cbn in *; [| |lia];
      injection Ha as <-; injection Hb as <-; injection Hc as <-; injection Hs as <-; split; reflexivity.
  - intros i L. cbn in L. destruct i as [|[|[|[|i]]]]; try lia. reflexivity.
Qed.

(** ** C128: the path of a saved model *)
(** [torch.jit.save(m, f)]: the path is the text of [f] before its last dot. *)
Theorem C128_save_text : forall m f : string,
  PropertiesGenerate.rewrite "torch.jit.save" None [m; f] [] =
    Some (Ret ("paddle.jit.save(layer=" ++ written m ++ ", path=" ++ written f ++ ".rsplit('.', 1)[0])", false)%string).
Proof. intros m f. vm_compute. reflexivity. Qed.
Print Assumptions C128_save_text.
(** A file name with a suffix loses just the suffix; a path without dots is kept. *)
Theorem C128_suffix_removed : forall path suffix : string, no_char "."%char suffix ->
  before_last_dot (path ++ "." ++ suffix) = path.
Proof. intros p s N. unfold before_last_dot. cbn [append]. rewrite rsplit1_last by exact N. reflexivity. Qed.
Print Assumptions C128_suffix_removed.
Theorem C128_no_suffix : forall path : string, no_char "."%char path -> before_last_dot path = path.
Proof. intros p N. unfold before_last_dot. rewrite rsplit1_none by exact N. reflexivity. Qed.
Print Assumptions C128_no_suffix.
(** Expected but not true: a path whose last component has no suffix is kept.  If a
    directory has a dot in its name, what follows that dot is lost. *)
Theorem C128_directory_with_dot_refuted : forall dir rest name : string,
  no_char "."%char rest -> no_char "."%char name ->
  before_last_dot (dir ++ "." ++ rest ++ "/" ++ name) = dir /\ before_last_dot (dir ++ "." ++ rest ++ "/" ++ name) <> (dir ++ "." ++ rest ++ "/" ++ name)%string.
Proof.
  intros d r n Nr Nn.
  assert (N : no_char "."%char (r ++ "/" ++ n)) by (apply no_char_app; split; [exact Nr|]; split; [discriminate|exact Nn]).
  rewrite (C128_suffix_removed d _ N). split; [reflexivity|]. intros E. apply (f_equal String.length) in E. rewrite length_app_s in E. cbn in E. lia.
Qed.
Print Assumptions C128_directory_with_dot_refuted.
Example C128_nonvacuous :
  before_last_dot "out/model.pt" = "out/model" /\ before_last_dot "out/model" = "out/model" /\ before_last_dot "./model" = "".
Proof. repeat split. Qed.

(** ** C129: numbers of threads *)
(** What a program does with the two numbers. *)
Inductive thread_call := SetThreads (n : Z) | SetInterop (n : Z).
Definition run_thread_call (env : environment) (c : thread_call) : environment :=
  match c with SetThreads n => set_num_threads n env | SetInterop n => set_num_interop_threads n env end.
(** The number set last. *)
Definition last_interop (l : list thread_call) : option Z :=
  fold_left (fun r c => match c with SetInterop n => Some n | _ => r end) l None.
Definition last_threads (l : list thread_call) : option Z :=
  fold_left (fun r c => match c with SetThreads n => Some n | _ => r end) l None.
Lemma rstrip_digits s : all_digits s = true -> rstrip_by is_space s = s.
Proof.
  induction s as [|c s IH]; [reflexivity|]. intros A. cbn [all_digits] in A. apply andb_true_iff in A as [A B].
  cbn [rstrip_by]. rewrite IH by exact B. destruct s; [destruct (digit_chars c A) as [-> _]; reflexivity|reflexivity].
Qed.
Lemma int_back n : py_int (int_to_str n) = Some n.
Proof.
  unfold int_to_str. destruct (Z.ltb_spec n 0) as [L|L].
  - pose proof (str_digits (Z.to_nat (- n))) as D. pose proof (str_nonempty (Z.to_nat (- n))) as N. pose proof (int_of_str (Z.to_nat (- n))) as V.
    rewrite (int_of_digits _ D N) in V. unfold py_int, py_strip, strip_by. cbn [append lstrip_by].
    change (is_space "-"%char) with false. cbn [rstrip_by]. rewrite rstrip_digits by exact D.
    destruct (nat_to_str (Z.to_nat (- n))) as [|c t] eqn:E; [congruence|]. cbn [option_map]. rewrite V. cbn [option_map]. f_equal. lia.
  - rewrite int_of_str. rewrite Z2Nat.id by exact L. reflexivity.
Qed.
Lemma interop_key l : forall env r, (forall n, r = Some n -> dget String.eqb "OMP_NUM_THREADS" env = Some (int_to_str n)) ->
  forall n, fold_left (fun r c => match c with SetInterop n => Some n | _ => r end) l r = Some n ->
  dget String.eqb "OMP_NUM_THREADS" (fold_left run_thread_call l env) = Some (int_to_str n).
Proof.
  induction l as [|[k|k] l IH]; intros env r H n E; cbn [fold_left] in *; [exact (H n E)| |]; (eapply IH; [|exact E]); intros m Em; cbn [run_thread_call].
  - unfold set_num_threads. rewrite (dget_set_other String.eqb String.eqb_spec) by discriminate. exact (H m Em).
  - injection Em as <-. unfold set_num_interop_threads. rewrite (dget_set_same String.eqb String.eqb_spec). reflexivity.
Qed.
Lemma threads_key l : forall env r, (forall n, r = Some n -> dget String.eqb "CPU_NUM" env = Some (int_to_str n)) ->
  forall n, fold_left (fun r c => match c with SetThreads n => Some n | _ => r end) l r = Some n ->
  dget String.eqb "CPU_NUM" (fold_left run_thread_call l env) = Some (int_to_str n).
Proof.
  induction l as [|[k|k] l IH]; intros env r H n E; cbn [fold_left] in *; [exact (H n E)| |]; (eapply IH; [|exact E]); intros m Em; cbn [run_thread_call].
  - injection Em as <-. unfold set_num_threads. rewrite (dget_set_same String.eqb String.eqb_spec). reflexivity.
  - unfold set_num_interop_threads. rewrite (dget_set_other String.eqb String.eqb_spec) by discriminate. exact (H m Em).
Qed.
(** The texts the calls become. *)
Theorem C129_thread_texts : forall n : string,
  PropertiesGenerate.rewrite "torch.set_num_threads" None [n] [] = Some (Ret (nls ++ "_set_num_threads(" ++ written n ++ ")" ++ nls, true)%string) /\
  PropertiesGenerate.rewrite "torch.set_num_interop_threads" None [n] [] = Some (Ret (nls ++ "_set_num_interop_threads(" ++ written n ++ ")" ++ nls, true)%string).
Proof. intros n. split; vm_compute; reflexivity. Qed.
Print Assumptions C129_thread_texts.
(** After any calls, the number of interop threads read is the one set last. *)
Theorem C129_interop_read_back : forall env calls n, last_interop calls = Some n ->
  get_num_interop_threads (fold_left run_thread_call calls env) = Ok (VInt n).
Proof.
  intros env calls n H. unfold get_num_interop_threads.
  rewrite (interop_key calls env None ltac:(discriminate) n H), int_back. reflexivity.
Qed.
Print Assumptions C129_interop_read_back.
(** Expected but not true: so is the number of threads.  It is the text of the number. *)
Theorem C129_threads_are_text_refuted : forall env calls n, last_threads calls = Some n ->
  get_num_threads (fold_left run_thread_call calls env) = Ok (VStr (int_to_str n)) /\
  get_num_threads (fold_left run_thread_call calls env) <> Ok (VInt n).
Proof.
  intros env calls n H. unfold get_num_threads. rewrite (threads_key calls env None ltac:(discriminate) n H). split; [reflexivity|discriminate].
Qed.
Print Assumptions C129_threads_are_text_refuted.
(** Expected but not true: the number of interop threads can be read without having been set. *)
Theorem C129_interop_unset_refuted : forall env, dget String.eqb "OMP_NUM_THREADS" env = None ->
  get_num_interop_threads env = Raise "KeyError" /\ get_num_threads [] = Ok (VInt 1).
Proof. intros env H. unfold get_num_interop_threads. rewrite H. split; reflexivity. Qed.
Print Assumptions C129_interop_unset_refuted.
Example C129_nonvacuous : last_interop [SetInterop 4; SetThreads 2; SetInterop 8] = Some 8%Z /\ last_threads [SetThreads 2; SetInterop 8] = Some 2%Z /\
  get_num_interop_threads (fold_left run_thread_call [SetInterop 4; SetThreads 2; SetInterop 8] []) = Ok (VInt 8).
Proof. repeat split. Qed.

(** ** C130: the variables a launcher sets *)
(** A process of a launch. *)
Definition of_launch (p : process) : Prop := machine p < machines p /\ on_machine p < per_machine p.
(** What torchrun puts into the two variables. *)
Definition torchrun_number (p : process) (key : string) : option Z :=
  if String.eqb key "WORLD_SIZE" then Some (Z.of_nat (machines p * per_machine p))
  else if String.eqb key "LOCAL_RANK" then Some (Z.of_nat (on_machine p))
  else None.
Definition quoted (s : string) : string := (String quote2 (String quote2 (String quote2 s)) ++ String quote2 (String quote2 (String quote2 "")))%string.
Theorem C130_environ_texts : forall default : string,
  PropertiesGenerate.rewrite "os.environ.get" None [quoted "WORLD_SIZE"; default] [] = Some (Ret ("paddle.distributed.get_world_size()", false)) /\
  PropertiesGenerate.rewrite "os.environ.get" None [quoted "LOCAL_RANK"; default] [] = Some (Ret ("paddle.distributed.get_rank()", false)).
Proof. intros d. split; vm_compute; reflexivity. Qed.
Print Assumptions C130_environ_texts.
(** The size is the size; the local rank is right exactly on the first machine. *)
Theorem C130_world_size : forall p, exists z, converted_environ p "WORLD_SIZE" = Some (VInt z) /\ torchrun_number p "WORLD_SIZE" = Some z.
Proof. intros p. eexists. split; reflexivity. Qed.
Print Assumptions C130_world_size.
Theorem C130_local_rank_exactly : forall p, of_launch p ->
  (exists z, converted_environ p "LOCAL_RANK" = Some (VInt z) /\ torchrun_number p "LOCAL_RANK" = Some z) <-> machine p = 0.
Proof.
  intros p [M O]. split.
  - intros (z & A & B). injection A as A. injection B as B. unfold get_rank in A.
    assert (E : machine p * per_machine p + on_machine p = on_machine p) by lia. destruct (machine p) as [|m]; [reflexivity|]. cbn in E. lia.
  - intros E. eexists. split; [reflexivity|]. unfold torchrun_number, get_rank. cbn [String.eqb]. rewrite E. reflexivity.
Qed.
Print Assumptions C130_local_rank_exactly.
(** Expected but not true: LOCAL_RANK is the number on the machine, below the number of its
    processes.  On every further machine it is too large. *)
Theorem C130_local_rank_refuted : forall p, of_launch p -> machine p <> 0 ->
  exists z, converted_environ p "LOCAL_RANK" = Some (VInt z) /\ (Z.of_nat (per_machine p) <= z)%Z.
Proof. intros p [M O] N. eexists. split; [reflexivity|]. unfold get_rank. destruct (machine p) as [|m]; [congruence|]. cbn. lia. Qed.
Print Assumptions C130_local_rank_refuted.
Example C130_nonvacuous : of_launch (MkProcess 1 2 4 2) /\ converted_environ (MkProcess 1 2 4 2) "LOCAL_RANK" = Some (VInt 6) /\
  torchrun_number (MkProcess 1 2 4 2) "LOCAL_RANK" = Some 2%Z /\ converted_environ (MkProcess 1 2 4 2) "WORLD_SIZE" = Some (VInt 8).
Proof. split; [split; cbn; lia|]. repeat split. Qed.

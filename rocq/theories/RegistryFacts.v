(** Proofs about fresh names, the helper registry and helper writing. *)
From Coq Require Import Lia.
From Verif Require Import PyStr PyStrFacts PyDict PyDictFacts UtilsFile UtilsSpec UtilsFacts.

(** * Decimal rendering is injective *)

Fixpoint dec_val (acc : nat) (s : string) : nat :=
  match s with
  | EmptyString => acc
  | String c r => dec_val (10 * acc + (nat_of_ascii c - 48)) r
  end.

Lemma digit_val d : (d < 10)%nat -> nat_of_ascii (digit d) - 48 = d.
Proof. intros H. unfold digit. rewrite nat_ascii_embedding by lia. lia. Qed.

Lemma dec_val_aux fuel : forall n acc, (n < fuel)%nat ->
  dec_val 0 (nat_to_str_aux fuel n acc) = dec_val n acc.
Proof.
  induction fuel as [|f IH]; intros n acc H; [lia|]. cbn [nat_to_str_aux].
  assert (M : (n mod 10 < 10)%nat) by (apply Nat.mod_upper_bound; lia).
  pose proof (Nat.div_mod n 10 ltac:(lia)) as D.
  destruct (n <? 10)%nat eqn:L.
  - apply Nat.ltb_lt in L. cbn [dec_val]. rewrite digit_val by exact M.
    rewrite Nat.mod_small by exact L. f_equal.
  - apply Nat.ltb_ge in L. rewrite IH.
    + cbn [dec_val]. rewrite digit_val by exact M. f_equal. lia.
    + assert (n / 10 < n)%nat by (apply Nat.div_lt; lia). lia.
Qed.

Lemma nat_to_str_inj a b : nat_to_str a = nat_to_str b -> a = b.
Proof.
  unfold nat_to_str. intros H. apply (f_equal (dec_val 0)) in H.
  rewrite !dec_val_aux in H by lia. exact H.
Qed.

Definition is_digit (c : ascii) : bool := in_range 48 57 c.

Lemma digit_is_digit d : (d < 10)%nat -> is_digit (digit d) = true.
Proof.
  intros H. unfold is_digit, in_range, digit. rewrite nat_ascii_embedding by lia.
  apply andb_true_iff. rewrite !Nat.leb_le. lia.
Qed.

Lemma nat_to_str_digits_aux fuel : forall n acc,
  all_chars is_digit acc = true -> all_chars is_digit (nat_to_str_aux fuel n acc) = true.
Proof.
  induction fuel as [|f IH]; intros n acc H; [exact H|]. cbn [nat_to_str_aux].
  assert (A : all_chars is_digit (String (digit (n mod 10)) acc) = true).
  { cbn [all_chars]. rewrite digit_is_digit by (apply Nat.mod_upper_bound; lia). exact H. }
  destruct (n <? 10)%nat; [exact A|apply IH, A].
Qed.

Lemma nat_to_str_digits n : all_chars is_digit (nat_to_str n) = true.
Proof. apply nat_to_str_digits_aux. reflexivity. Qed.

Lemma digits_no_us s : all_chars is_digit s = true -> no_char "_" s.
Proof.
  induction s as [|c r IH]; simpl; [auto|]. intros H. apply andb_true_iff in H as [H1 H2].
  split; [|auto]. intros E. subst c. discriminate.
Qed.

Lemma last_sep_inj c a b s t :
  no_char c s -> no_char c t -> a ++ String c s = b ++ String c t -> a = b /\ s = t.
Proof.
  revert b. induction a as [|x a IH]; intros b Hs Ht E; destruct b as [|y b]; simpl in E.
  - injection E as ->. auto.
  - injection E as -> ->. apply no_char_app in Hs as [_ Hs]. simpl in Hs. tauto.
  - injection E as -> <-. apply no_char_app in Ht as [_ Ht]. simpl in Ht. tauto.
  - injection E as -> E. destruct (IH b Hs Ht E). subst. auto.
Qed.

(** * Fresh names *)

Definition count_of (st : ids) (k : string) : nat :=
  match dget String.eqb k st with Some n => n | None => 0 end.

Fixpoint occurrences (k : string) (l : list string) : nat :=
  match l with
  | [] => 0
  | x :: r => (if String.eqb k x then 1 else 0) + occurrences k r
  end.

Lemma unique_names_nth keys : forall st i k,
  nth_error keys i = Some k ->
  nth_error (unique_names st keys) i
  = Some (k ++ "_" ++ nat_to_str (count_of st k + occurrences k (firstn i keys))).
Proof.
  induction keys as [|x keys IH]; intros st i k H; [destruct i; discriminate|].
  cbn [unique_names]. unfold unique_name. destruct i as [|i].
  - simpl in H. injection H as ->. cbn [nth_error firstn occurrences]. rewrite Nat.add_0_r. reflexivity.
  - simpl in H. cbn [nth_error firstn occurrences].
    rewrite (IH _ _ _ H). do 4 f_equal.
    unfold count_of. destruct (String.eqb_spec k x) as [->|Ne].
    + rewrite (dget_set_same _ String.eqb_spec). lia.
    + rewrite (dget_set_other _ String.eqb_spec) by exact Ne. lia.
Qed.

Lemma unique_names_length keys : forall st, List.length (unique_names st keys) = List.length keys.
Proof. induction keys; intros st; simpl; [reflexivity|]. rewrite IHkeys. reflexivity. Qed.

Lemma occurrences_mono k l i j : (i <= j)%nat -> (occurrences k (firstn i l) <= occurrences k (firstn j l))%nat.
Proof.
  revert i j. induction l as [|x l IH]; intros i j H; [rewrite !firstn_nil; lia|].
  destruct i, j; simpl; try lia. specialize (IH i j ltac:(lia)). lia.
Qed.

Lemma occurrences_strict k l i j : (i < j)%nat -> nth_error l i = Some k ->
  (occurrences k (firstn i l) < occurrences k (firstn j l))%nat.
Proof.
  revert i j. induction l as [|x l IH]; intros i j H N; [destruct i; discriminate|].
  destruct i as [|i]; destruct j as [|j]; try lia.
  - simpl in N. injection N as ->. simpl. rewrite String.eqb_refl. lia.
  - simpl in N. simpl. specialize (IH i j ltac:(lia) N). lia.
Qed.

Lemma unique_names_nodup st keys : NoDup (unique_names st keys).
Proof.
  apply NoDup_nth_error. intros i j Hi E. rewrite unique_names_length in Hi.
  destruct (nth_error keys i) as [ki|] eqn:Ki; [|apply nth_error_None in Ki; lia].
  rewrite (unique_names_nth _ _ _ _ Ki) in E.
  destruct (nth_error keys j) as [kj|] eqn:Kj.
  2:{ apply nth_error_None in Kj. assert (X : nth_error (unique_names st keys) j = None).
      { apply nth_error_None. rewrite unique_names_length. exact Kj. } congruence. }
  rewrite (unique_names_nth _ _ _ _ Kj) in E. injection E as E.
  apply last_sep_inj in E as [-> E]; try apply digits_no_us, nat_to_str_digits.
  apply nat_to_str_inj in E.
  destruct (Nat.lt_trichotomy i j) as [L|[->|L]]; [|reflexivity|].
  - pose proof (occurrences_strict kj keys i j L Ki). lia.
  - pose proof (occurrences_strict kj keys j i L Kj). lia.
Qed.

(** * Registry *)

Lemma dmem_none {K V} (eqb : K -> K -> bool) k (d : dict K V) : dmem eqb k d = false -> dget eqb k d = None.
Proof. unfold dmem. destruct (dget eqb k d); [discriminate|reflexivity]. Qed.

Definition trim : string -> string := rstrip_by (Ascii.eqb nl).

Section Hash.
  Variable hash : string -> Z.

  (** Keys are the hashes of the values. *)
  Definition hashed (cm : dict Z string) : Prop := Forall (fun kv => fst kv = hash (snd kv)) cm.

  Lemma probe_inj fuel cm code :
    hashed cm -> injective_on hash (code :: dvals cm) ->
    get_code_hash hash fuel cm code = Some (hash code) /\
    (dmem Z.eqb (hash code) cm = true <-> In code (dvals cm)).
  Proof.
    intros Hc Hi. unfold get_code_hash.
    assert (D : forall v, dget Z.eqb (hash code) cm = Some v -> v = code).
    { intros v G. apply (dget_some_in _ Z.eqb_spec) in G.
      unfold hashed in Hc. rewrite Forall_forall in Hc. specialize (Hc _ G). simpl in Hc.
      symmetry. apply Hi; [left; reflexivity|right|exact Hc].
      apply (in_map snd) in G. exact G. }
    split.
    - destruct fuel; cbn [probe]; destruct (dget Z.eqb (hash code) cm) as [v|] eqn:G; try reflexivity;
        rewrite (D v eq_refl), String.eqb_refl; reflexivity.
    - unfold dmem. destruct (dget Z.eqb (hash code) cm) as [v|] eqn:G; split; intros H; try discriminate; auto.
      + rewrite (D v eq_refl) in G. apply (dget_some_in _ Z.eqb_spec) in G.
        apply (in_map snd) in G. exact G.
      + exfalso. unfold dvals in H. apply in_map_iff in H as ((k, v) & E & I). simpl in E. subst v.
        unfold hashed in Hc. rewrite Forall_forall in Hc. specialize (Hc _ I). simpl in Hc. subst k.
        apply (dget_none_iff _ Z.eqb_spec) in G. apply G.
        apply (in_map fst) in I. exact I.
  Qed.

  Lemma add_all_inj fuel codes : forall h,
    has_file h = true -> hashed (code_map h) ->
    injective_on hash (dvals (code_map h) ++ map trim codes) ->
    exists h', add_all hash fuel h codes = Some h' /\ file_name h' = file_name h /\
      dir_mode h' = dir_mode h /\ hashed (code_map h') /\
      dvals (code_map h') = (dvals (code_map h) ++
         filter (fun y => negb (mem_str y (dvals (code_map h)))) (keep_first (map trim codes)))%list.
  Proof.
    induction codes as [|c codes IH]; intros h Hf Hc Hi.
    - exists h. simpl. rewrite app_nil_r. auto.
    - cbn [add_all]. unfold add_code. rewrite Hf. change (rstrip_by (Ascii.eqb nl) c) with (trim c).
      destruct (probe_inj fuel (code_map h) (trim c) Hc) as [G M].
      { intros x y Hx Hy E. apply Hi; [| |exact E]; rewrite in_app_iff; simpl.
        - destruct Hx as [<-|Hx]; auto.
        - destruct Hy as [<-|Hy]; auto. }
      rewrite G. cbv zeta.
      destruct (dmem Z.eqb (hash (trim c)) (code_map h)) eqn:DM.
      + assert (I : In (trim c) (dvals (code_map h))) by (apply M; reflexivity).
        destruct (IH h Hf Hc) as (h' & A & F & D & Hh & V).
        { intros x y Hx Hy E. apply Hi; auto; rewrite in_app_iff in *; simpl; tauto. }
        exists h'. repeat split; auto. rewrite V. f_equal. cbn [map keep_first filter].
        assert (mem_str (trim c) (dvals (code_map h)) = true) as -> by (apply mem_str_In; exact I).
        cbn [negb]. set (L := keep_first (map trim codes)). clearbody L. clear -I.
        induction L as [|y L IH]; [reflexivity|]. cbn [filter].
        destruct (String.eqb_spec (trim c) y) as [<-|Ne]; cbn [negb].
        * assert (mem_str (trim c) (dvals (code_map h)) = true) as -> by (apply mem_str_In; exact I).
          exact IH.
        * cbn [filter]. destruct (mem_str y (dvals (code_map h))); cbn [negb]; [exact IH|].
          f_equal. exact IH.
      + assert (NI : ~ In (trim c) (dvals (code_map h))).
        { intros I. apply M in I. discriminate. }
        assert (DS : dset Z.eqb (hash (trim c)) (trim c) (code_map h)
                     = (code_map h ++ [(hash (trim c), trim c)])%list).
        { apply (dset_fresh _ Z.eqb_spec). apply dmem_none. exact DM. }
        rewrite DS. set (h1 := MkHelper _ _ _).
        assert (V1 : dvals (code_map h1) = (dvals (code_map h) ++ [trim c])%list).
        { unfold h1. cbn [code_map]. unfold dvals. rewrite map_app. reflexivity. }
        destruct (IH h1) as (h' & A & F & D & Hh & V).
        { exact Hf. }
        { unfold h1, hashed. cbn [code_map]. apply Forall_app. split; [exact Hc|]. repeat constructor. }
        { rewrite V1. intros x y Hx Hy E. apply Hi; auto; rewrite !in_app_iff in *; simpl in *; tauto. }
        exists h'. split; [exact A|]. split; [exact F|]. split; [exact D|]. split; [exact Hh|].
        rewrite V, V1, <- app_assoc. f_equal. cbn [map keep_first filter].
        assert (mem_str (trim c) (dvals (code_map h)) = false) as -> by (apply mem_str_false; exact NI).
        cbn [negb app]. f_equal.
        set (L := keep_first (map trim codes)). clearbody L. clear.
        induction L as [|y L IH]; [reflexivity|]. cbn [filter].
        assert (X : mem_str y (dvals (code_map h) ++ [trim c]) = mem_str y (dvals (code_map h)) || String.eqb (trim c) y).
        { unfold mem_str. rewrite existsb_app. cbn [existsb]. rewrite orb_false_r, (String.eqb_sym y). reflexivity. }
        rewrite X. destruct (String.eqb (trim c) y); cbn [negb].
        * rewrite orb_true_r. cbn [negb]. exact IH.
        * rewrite orb_false_r. cbn [filter]. destruct (mem_str y (dvals (code_map h))); cbn [negb]; [exact IH|].
          f_equal. exact IH.
  Qed.

  (** Whatever the hash, a registration that returns leaves the text registered and
      keeps the earlier ones, in order. *)
  Lemma probe_sound fuel : forall cm code base k,
    probe hash fuel cm code base = Some k ->
    dget Z.eqb k cm = None \/ dget Z.eqb k cm = Some code.
  Proof.
    induction fuel as [|f IH]; intros cm code base k; cbn [probe];
      destruct (dget Z.eqb base cm) as [v|] eqn:G; intros H.
    - destruct (String.eqb_spec v code) as [->|]; [|discriminate]. injection H as <-. auto.
    - injection H as <-. auto.
    - destruct (String.eqb_spec v code) as [->|]; [injection H as <-; auto|]. apply (IH _ _ _ _ H).
    - injection H as <-. auto.
  Qed.

  Lemma add_code_sound fuel h c h' k :
    add_code hash fuel h c = Added h' k ->
    file_name h' = file_name h /\ dir_mode h' = dir_mode h /\
    dget Z.eqb k (code_map h') = Some (trim c) /\
    (code_map h' = code_map h \/ code_map h' = (code_map h ++ [(k, trim c)])%list).
  Proof.
    unfold add_code. destruct (has_file h); [|discriminate].
    change (rstrip_by (Ascii.eqb nl) c) with (trim c). cbv zeta.
    destruct (get_code_hash hash fuel (code_map h) (trim c)) as [k0|] eqn:G; [|discriminate].
    unfold get_code_hash in G. pose proof (probe_sound _ _ _ _ _ G) as S.
    destruct (dmem Z.eqb k0 (code_map h)) eqn:M; intros H; injection H as <- <-.
    - repeat split; auto. unfold dmem in M. destruct S as [S|S]; [rewrite S in M; discriminate|exact S].
    - cbn [file_name dir_mode code_map]. repeat split; auto.
      + apply (dget_set_same _ Z.eqb_spec).
      + right. apply (dset_fresh _ Z.eqb_spec). apply dmem_none. exact M.
  Qed.

  Lemma add_all_sound fuel codes : forall h h',
    add_all hash fuel h codes = Some h' ->
    file_name h' = file_name h /\ dir_mode h' = dir_mode h /\
    (exists more, dvals (code_map h') = (dvals (code_map h) ++ more)%list /\
       forall t, In t more -> In t (map trim codes)) /\
    (forall c, In c codes -> In (trim c) (dvals (code_map h'))).
  Proof.
    induction codes as [|c codes IH]; intros h h' H.
    - injection H as <-. split; [reflexivity|]. split; [reflexivity|]. split; [|intros ? []].
      exists []. rewrite app_nil_r. split; [reflexivity|intros ? []].
    - cbn [add_all] in H. destruct (add_code hash fuel h c) as [|h1 k|] eqn:A; try discriminate.
      destruct (add_code_sound _ _ _ _ _ A) as (F1 & D1 & G1 & C1).
      destruct (IH _ _ H) as (F & D & (more & V & S) & P).
      assert (I1 : In (trim c) (dvals (code_map h1))).
      { apply (dget_some_in _ Z.eqb_spec) in G1. apply (in_map snd) in G1. exact G1. }
      repeat split; [congruence|congruence| |].
      + destruct C1 as [C1|C1].
        * exists more. rewrite V, C1. split; [reflexivity|]. intros t Ht. right. auto.
        * exists (trim c :: more). rewrite V, C1. unfold dvals. rewrite map_app, <- app_assoc. split; [reflexivity|].
          intros t [<-|Ht]; [left; reflexivity|right; auto].
      + intros d [<-|Hd]; [|auto]. rewrite V, in_app_iff. auto.
  Qed.

  (** Exactly when a registration loops for ever. *)
  Lemma probe_two fuel cm code base c1 c2 :
    dget Z.eqb base cm = Some c1 -> c1 <> code ->
    dget Z.eqb (hash (code ++ "_" ++ nat_to_str (List.length cm))) cm = Some c2 -> c2 <> code ->
    probe hash fuel cm code base = None.
  Proof.
    revert base c1. induction fuel as [|f IH]; intros base c1 G1 N1 G2 N2; cbn [probe]; rewrite G1;
      destruct (String.eqb_spec c1 code); try congruence.
    eapply IH; eauto.
  Qed.

  Lemma probe_loops_iff cm code :
    (forall fuel, get_code_hash hash fuel cm code = None) <->
    (exists c1, dget Z.eqb (hash code) cm = Some c1 /\ c1 <> code) /\
    (exists c2, dget Z.eqb (hash (code ++ "_" ++ nat_to_str (List.length cm))) cm = Some c2 /\ c2 <> code).
  Proof.
    unfold get_code_hash. split.
    - intros H. pose proof (H 1) as H1. cbn [probe] in H1. clear H. revert H1.
      destruct (dget Z.eqb (hash code) cm) as [c1|]; [|discriminate].
      destruct (String.eqb_spec c1 code); [discriminate|].
      destruct (dget Z.eqb (hash (code ++ "_" ++ nat_to_str (Datatypes.length cm))) cm) as [c2|]; [|discriminate].
      destruct (String.eqb_spec c2 code); [discriminate|]. intros _. split; eauto.
    - intros [(c1 & G1 & N1) (c2 & G2 & N2)] fuel. eapply probe_two; eauto.
  Qed.
End Hash.

(** * Writing *)

Lemma split_on_app sep a b : split_on sep (a ++ String sep b) = (split_on sep a ++ split_on sep b)%list.
Proof.
  induction a as [|c a IH]; cbn [append split_on].
  - rewrite Ascii.eqb_refl. reflexivity.
  - destruct (Ascii.eqb c sep); [rewrite IH; reflexivity|].
    rewrite IH. pose proof (split_on_nonempty sep a) as N.
    destruct (split_on sep a); [congruence|reflexivity].
Qed.

Lemma join_app sep a b : a <> [] -> b <> [] -> join sep (a ++ b)%list = join sep a ++ sep ++ join sep b.
Proof.
  unfold join. intros Na Nb. induction a as [|x a IH]; [congruence|].
  destruct a as [|y a].
  - destruct b as [|z b]; [congruence|]. reflexivity.
  - cbn [app] in *. rewrite !concat_cons2. rewrite IH by discriminate.
    rewrite !app_assoc_s. reflexivity.
Qed.

Lemma splitlines_no_nl_aux n : forall s, (String.length s <= n)%nat -> Forall (no_char nl) (splitlines s).
Proof.
  induction n as [|n IH]; intros s H.
  - destruct s; [constructor|simpl in H; lia].
  - destruct s as [|c r]; [constructor|]. cbn [splitlines]. simpl in H.
    destruct (is_linebreak c) eqn:L.
    + destruct r as [|d r']; [repeat constructor|].
      destruct (Ascii.eqb c "013" && Ascii.eqb d "010").
      * constructor; [exact I|]. apply IH. simpl in H. lia.
      * constructor; [exact I|]. apply IH. simpl in *. lia.
    + assert (Nc : c <> nl) by (intros ->; discriminate).
      specialize (IH r ltac:(lia)). destruct (splitlines r) as [|h t].
      * repeat constructor. exact Nc.
      * inversion_clear IH. constructor; [|assumption]. split; assumption.
Qed.
Lemma splitlines_no_nl s : Forall (no_char nl) (splitlines s).
Proof. eapply splitlines_no_nl_aux, Nat.le_refl. Qed.

Lemma split_join_or_blank ls : Forall (no_char nl) ls -> split_on nl (join nls ls) = or_blank ls.
Proof.
  intros H. destruct ls as [|x r]; [reflexivity|].
  apply (split_join nl (x :: r)); [discriminate|exact H].
Qed.

Lemma splitlines_nl r : splitlines (String nl r) = "" :: splitlines r.
Proof. destruct r; reflexivity. Qed.

Lemma splitlines_other c r : is_linebreak c = false ->
  splitlines (String c r) = match splitlines r with [] => [String c ""] | h :: t => String c h :: t end.
Proof. intros H. cbn [splitlines]. rewrite H. reflexivity. Qed.

Lemma splitlines_nonnil c r : splitlines (String c r) <> [].
Proof.
  cbn [splitlines]. destruct (is_linebreak c).
  - destruct r as [|d r']; [discriminate|].
    destruct (Ascii.eqb c "013" && Ascii.eqb d "010"); discriminate.
  - destruct (splitlines r); discriminate.
Qed.

(** Only newline characters break lines in ordinary text. *)
Lemma splitlines_plain s :
  (forall a c b, s = a ++ String c b -> is_linebreak c = true -> c = nl) ->
  or_blank (splitlines s) = split_on nl s \/ (splitlines s ++ [""])%list = split_on nl s.
Proof.
  induction s as [|c r IH]; intros H; [left; reflexivity|].
  assert (Hr : forall a c b, r = a ++ String c b -> is_linebreak c = true -> c = nl).
  { intros a d b E. apply (H (String c a) d b). rewrite E. reflexivity. }
  specialize (IH Hr).
  destruct (is_linebreak c) eqn:L.
  - assert (c = nl) as -> by (apply (H "" c r eq_refl L)).
    rewrite splitlines_nl. cbn [split_on]. rewrite Ascii.eqb_refl.
    destruct r as [|d r']; [right; reflexivity|].
    destruct IH as [IH|IH]; rewrite <- IH.
    + left. pose proof (splitlines_nonnil d r') as N.
      destruct (splitlines (String d r')); [congruence|reflexivity].
    + right. reflexivity.
  - rewrite splitlines_other by exact L. cbn [split_on].
    destruct (Ascii.eqb_spec c nl) as [->|Nc]; [discriminate|].
    destruct r as [|d r']; [left; reflexivity|].
    pose proof (splitlines_nonnil d r') as N.
    destruct IH as [IH|IH]; rewrite <- IH; destruct (splitlines (String d r')); try congruence;
      [left|right]; reflexivity.
Qed.

Lemma insert_code_file h : dir_mode h = false ->
  exists mid, insert_code h = nls ++ mid ++ nls ++ nls /\
    (split_on nl mid ++ [""])%list = file_block (dvals (code_map h)).
Proof.
  intros D. unfold insert_code. rewrite D. set (vs := dvals (code_map h)).
  eexists. split; [|reflexivity]. unfold file_block.
  set (e0 := "############################## 相关utils函数，如上 ##############################").
  set (s0 := "############################## 相关utils函数，如下 ##############################").
  assert (J1 : join nls ([s0] ++ vs ++ [e0])%list = join nls ([s0] ++ vs)%list ++ nls ++ e0).
  { rewrite app_assoc, join_app by (discriminate || (destruct vs; discriminate)). reflexivity. }
  assert (J2 : join nls ([START_CONTENT] ++ vs ++ [END_CONTENT])%list
               = join nls ([START_CONTENT] ++ vs)%list ++ nls ++ END_CONTENT).
  { rewrite app_assoc, join_app by (discriminate || (destruct vs; discriminate)). reflexivity. }
  rewrite J1, J2.
  assert (J3 : join nls ([START_CONTENT] ++ vs)%list = nls ++ join nls ([s0] ++ vs)%list).
  { unfold join. cbn [app]. destruct vs; [reflexivity|]. rewrite !concat_cons2. reflexivity. }
  rewrite J3. unfold END_CONTENT. fold e0. rewrite !app_assoc_s. reflexivity.
Qed.

Lemma file_write_lines isort h existing content :
  has_file h = true -> code_map h <> [] -> dir_mode h = false -> existing = Some content ->
  exists k out,
    write_code isort h existing =
      Written (match isort out with Some t => t | None => out end) (MkHelper (file_name h) false []) /\
    find_import_insert_idx (splitlines content) = Some k /\
    (k <= List.length (splitlines content))%nat /\
    split_on nl out =
      (or_blank (firstn k (splitlines content)) ++ file_block (dvals (code_map h)) ++
       or_blank (skipn k (splitlines content)))%list.
Proof.
  intros Hf Hc Hd ->. set (lines := splitlines content).
  destruct (find_idx_spec lines) as (H & B & R & E & F & _).
  exists (List.length H).
  unfold write_code. rewrite Hf, Hd.
  destruct (code_map h) as [|kv r] eqn:CM; [congruence|]. fold lines. rewrite F.
  exists (splice lines (List.length H) (insert_code h)). split; [reflexivity|]. split; [reflexivity|].
  split; [rewrite E, app_length; lia|].
  unfold splice.
  destruct (insert_code_file h Hd) as (mid & I & Bl). rewrite I, CM in *.
  rewrite !app_assoc_s.
  change (nls ++ mid ++ nls ++ nls ++ join nls (skipn (Datatypes.length H) lines))
    with (String nl (mid ++ String nl (String nl (join nls (skipn (Datatypes.length H) lines))))).
  rewrite !split_on_app. cbn [split_on]. rewrite Ascii.eqb_refl.
  assert (NL : Forall (no_char nl) lines) by apply splitlines_no_nl.
  assert (NL2 : Forall (no_char nl) (firstn (List.length H) lines) /\ Forall (no_char nl) (skipn (List.length H) lines)).
  { apply Forall_app. rewrite firstn_skipn. exact NL. }
  rewrite !split_join_or_blank by tauto. rewrite <- Bl, <- app_assoc. reflexivity.
Qed.

Lemma run_jobs_first_file hash isort fuel js : forall h ws,
  run_jobs hash isort fuel (Some h) js = Some ws ->
  Forall (fun w => match w with None => True | Some (f, _) => f = file_name h end) ws.
Proof.
  induction js as [|j js IH]; intros h ws H.
  - injection H as <-. constructor.
  - cbn [run_jobs] in H. destruct (run_job hash isort fuel (Some h) j) as [[w h2]|] eqn:RJ; [|discriminate].
    destruct (run_jobs hash isort fuel (Some h2) js) as [ws'|] eqn:RJS; [|discriminate].
    injection H as <-. unfold run_job in RJ. cbn [construct] in RJ.
    destruct (add_all hash fuel h (job_codes j)) as [h1|] eqn:A; [|discriminate].
    destruct (add_all_sound _ _ _ _ _ A) as (F1 & _).
    assert (X : match w with None => True | Some (f, _) => f = file_name h end /\ file_name h2 = file_name h).
    { unfold write_code in RJ. destruct (has_file h1).
      - destruct (code_map h1) eqn:CM; [injection RJ as <- <-; auto|].
        destruct (dir_mode h1); [injection RJ as <- <-; auto|].
        destruct (job_existing j); [|discriminate].
        destruct (find_import_insert_idx (splitlines s)); [|discriminate]. injection RJ as <- <-. auto.
      - injection RJ as <- <-. auto. }
    destruct X as [X1 X2]. constructor; [exact X1|].
    specialize (IH _ _ RJS). eapply Forall_impl; [|exact IH].
    intros [[f c]|]; [|auto]. congruence.
Qed.

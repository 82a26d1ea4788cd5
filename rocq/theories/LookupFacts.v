(** Proofs about table lookup. *)
From Verif Require Import PyStr PyStrFacts PyDict PyDictFacts Args ArgsSpec ArgsFacts TablesData Lookup LookupSpec TableCheck.
From Coq Require Import Sorted Lia.

Opaque api_mapping attribute_mapping alias_mapping wildcard_mapping matcher_classes.

(** ** Lookup in lists *)
Lemma find_row_some n t r : find_row n t = Some r -> In r t /\ r_name r = n.
Proof.
  induction t as [|a t IH]; cbn; [discriminate|].
  destruct (String.eqb_spec n (r_name a)) as [->|N]; [intros [= <-]; auto|].
  intros H. destruct (IH H). auto.
Qed.
Lemma find_row_none n t : find_row n t = None <-> ~ In n (map r_name t).
Proof.
  induction t as [|a t IH]; cbn; [tauto|].
  destruct (String.eqb_spec n (r_name a)) as [->|N]; [split; [discriminate|tauto]|].
  rewrite IH. split; intros H; [intros [E|I]; [congruence|tauto]|tauto].
Qed.
Lemma find_row_in r t : NoDup (map r_name t) -> In r t -> find_row (r_name r) t = Some r.
Proof.
  induction t as [|a t IH]; intros ND I; [destruct I|]. cbn in ND. inversion_clear ND as [|? ? N1 N2].
  cbn. destruct I as [->|I]; [rewrite String.eqb_refl; reflexivity|].
  destruct (String.eqb_spec (r_name r) (r_name a)) as [E|_]; [|auto].
  exfalso. apply N1. rewrite <- E. apply in_map, I.
Qed.
Lemma dget_in {V} n (d : dict string V) v : dget String.eqb n d = Some v -> In (n, v) d.
Proof.
  induction d as [|[k w] d IH]; cbn; [discriminate|].
  destruct (String.eqb_spec n k) as [->|N]; [intros [= ->]; auto|auto].
Qed.
Lemma dmem_in {V} n (d : dict string V) : dmem String.eqb n d = true -> In n (dkeys d).
Proof.
  unfold dmem. destruct (dget String.eqb n d) eqn:E; [|discriminate]. intros _.
  apply dget_in in E. apply (in_map fst) in E. exact E.
Qed.
Lemma dget_none_notin {V} n (d : dict string V) : dget String.eqb n d = None -> ~ In n (dkeys d).
Proof.
  induction d as [|[k w] d IH]; cbn; [tauto|].
  destruct (String.eqb_spec n k) as [->|N]; [discriminate|]. intros H [E|I]; [congruence|]. apply IH; auto.
Qed.
Lemma mem_str_In x l : mem_str x l = true <-> In x l.
Proof.
  unfold mem_str. rewrite existsb_exists. split.
  - intros (y & I & E). apply String.eqb_eq in E. congruence.
  - intros I. exists x. split; [exact I|apply String.eqb_refl].
Qed.

(** ** Facts checked on the shipped tables *)
Definition api_names := map r_name api_mapping.
Definition attr_names := map r_name attribute_mapping.
Definition alias_names := dkeys alias_mapping.

Lemma api_sorted : StronglySorted slt api_names.
Proof. apply sortedb_ok. vm_compute. reflexivity. Qed.
Lemma attr_sorted : StronglySorted slt attr_names.
Proof. apply sortedb_ok. vm_compute. reflexivity. Qed.
Lemma alias_sorted : StronglySorted slt alias_names.
Proof. apply sortedb_ok. vm_compute. reflexivity. Qed.

Lemma api_attr_disjoint n : In n api_names -> In n attr_names -> False.
Proof.
  intros H1 H2. pose proof (common_ok _ _ _ api_sorted attr_sorted H1 H2) as H.
  replace (common api_names attr_names) with (@nil string) in H by (vm_compute; reflexivity). exact H.
Qed.
Lemma alias_attr_disjoint n : In n alias_names -> In n attr_names -> False.
Proof.
  intros H1 H2. pose proof (common_ok _ _ _ alias_sorted attr_sorted H1 H2) as H.
  replace (common alias_names attr_names) with (@nil string) in H by (vm_compute; reflexivity). exact H.
Qed.
Lemma alias_api_common n : In n alias_names -> In n api_names -> n = clashing_alias.
Proof.
  intros H1 H2. pose proof (common_ok _ _ _ alias_sorted api_sorted H1 H2) as H.
  replace (common alias_names api_names) with [clashing_alias] in H by (vm_compute; reflexivity).
  destruct H as [H|[]]. congruence.
Qed.

Lemma alias_targets_final n t : In (n, t) alias_mapping -> dget String.eqb t alias_mapping = None.
Proof.
  intros I.
  assert (H : forallb (fun kv => negb (dmem String.eqb (snd kv) alias_mapping)) alias_mapping = true)
    by (vm_compute; reflexivity).
  rewrite forallb_forall in H. specialize (H _ I). cbn in H. unfold dmem in H.
  destruct (dget String.eqb t alias_mapping); [discriminate|reflexivity].
Qed.

Lemma matchers_exist r m : In r (api_mapping ++ attribute_mapping ++ wildcard_mapping)%list ->
  r_matcher r = Some m -> In m matcher_classes.
Proof.
  intros I E. apply tree_of_ok.
  assert (H : (let t := tree_of matcher_classes in
               forallb (fun r => match r_matcher r with Some m => tmem m t | None => true end)
                 (api_mapping ++ attribute_mapping ++ wildcard_mapping)%list) = true)
    by (vm_compute; reflexivity).
  cbv zeta in H. rewrite forallb_forall in H. specialize (H _ I). rewrite E in H. exact H.
Qed.

(** ** Wildcards *)
Lemma wildcards : wildcard_mapping =
  [R "einops.layers.torch.*" (Some "EinopsTorchMatcher") false false (bare None);
   R "transformers.*" (Some "TransformersGenericMatcher") true false (bare None)].
Proof. vm_compute. reflexivity. Qed.

Definition einops_row := R "einops.layers.torch.*" (Some "EinopsTorchMatcher") false false (bare None).

Lemma re_match_char p pr s : p <> "."%char -> re_match (String p pr) s = true ->
  exists r, s = String p r /\ re_match pr r = true.
Proof.
  intros N. cbn [re_match]. apply Ascii.eqb_neq in N. rewrite N. destruct s as [|c r]; [discriminate|].
  intros H. apply andb_true_iff in H as [H1 H2]. apply Ascii.eqb_eq in H1. subst. eauto.
Qed.

(** The two patterns cannot match the same name: different first letters. *)
Lemma wild_first n : re_match "einops.layers.torch.*" n = true -> exists r, n = String "e"%char r.
Proof. intros H. apply re_match_char in H as (r & -> & _); [eauto|discriminate]. Qed.
Lemma wild_first2 n : re_match "transformers.*" n = true -> exists r, n = String "t"%char r.
Proof. intros H. apply re_match_char in H as (r & -> & _); [eauto|discriminate]. Qed.
Lemma first_last_wildcard n : first_wildcard n = last_wildcard n.
Proof.
  unfold first_wildcard, last_wildcard. rewrite wildcards. cbn [find fold_left r_name].
  destruct (re_match "einops.layers.torch.*" n) eqn:E1, (re_match "transformers.*" n) eqn:E2; try reflexivity.
  exfalso. apply wild_first in E1 as [r ->]. apply wild_first2 in E2 as [r' E]. discriminate.
Qed.

(** What a wildcard lookup can give. *)
Lemma wildcard_matcher n c : make_matcher n (last_wildcard c) <> LNone ->
  re_match "einops.layers.torch.*" c = true /\ make_matcher n (last_wildcard c) = LMatcher n "EinopsTorchMatcher" einops_row.
Proof.
  unfold last_wildcard. rewrite wildcards. cbn [fold_left r_name].
  destruct (re_match "einops.layers.torch.*" c) eqn:E1, (re_match "transformers.*" c) eqn:E2; intros H.
  - exfalso. apply H. reflexivity.
  - split; [reflexivity|]. vm_compute. reflexivity.
  - exfalso. apply H. reflexivity.
  - exfalso. apply H. reflexivity.
Qed.

Lemma no_e_package p : In p (dkeys torch_package_mapping) -> match p with String c _ => Ascii.eqb c "e"%char = false | _ => False end.
Proof.
  intros I.
  assert (H : forallb (fun p => match p with String c _ => negb (Ascii.eqb c "e"%char) | _ => false end)
     (dkeys torch_package_mapping) = true) by reflexivity.
  rewrite forallb_forall in H. specialize (H _ I). destruct p as [|c p]; [discriminate|].
  apply negb_true_iff, H.
Qed.
Lemma torch_name_not_einops n : torch_name n -> re_match "einops.layers.torch.*" n = false.
Proof.
  intros (pkg & rest & I & ->). apply no_e_package in I.
  destruct (re_match "einops.layers.torch.*" (pkg ++ "." ++ rest)) eqn:E; [|reflexivity].
  apply wild_first in E as [r E]. destruct pkg as [|c p]; [destruct I|].
  cbn in E. injection E as -> _. cbn in I. discriminate.
Qed.
Lemma names_not_einops n : In n (attr_names ++ map snd alias_mapping)%list ->
  re_match "einops.layers.torch.*" n = false.
Proof.
  intros I.
  assert (H : forallb (fun n => negb (re_match "einops.layers.torch.*" n)) (attr_names ++ map snd alias_mapping)%list = true)
    by (vm_compute; reflexivity).
  rewrite forallb_forall in H. apply negb_true_iff, (H _ I).
Qed.

(** ** get_matcher *)
Lemma make_matcher_known n r t : In r t -> incl t (api_mapping ++ attribute_mapping ++ wildcard_mapping)%list ->
  make_matcher n (Some r) <> LNameError.
Proof.
  intros I J. unfold make_matcher. destruct (r_disable r); [discriminate|].
  destruct (r_matcher r) as [m|] eqn:E; [|discriminate].
  rewrite (proj2 (mem_str_In m matcher_classes)); [discriminate|]. apply (matchers_exist r); auto.
Qed.
Lemma make_matcher_not_assert n r : make_matcher n r <> LAssert.
Proof.
  unfold make_matcher. destruct r as [r|]; [|discriminate].
  destruct (r_disable r); [discriminate|]. destruct (r_matcher r); [|discriminate].
  destruct (mem_str _ _); discriminate.
Qed.
Lemma wildcard_not_name_error n c : make_matcher n (last_wildcard c) <> LNameError.
Proof.
  intros H. destruct (wildcard_matcher n c) as [_ E]; congruence.
Qed.
Lemma get_matcher_not_name_error t n : incl t (api_mapping ++ attribute_mapping ++ wildcard_mapping)%list ->
  get_matcher t n <> LNameError.
Proof.
  intros J. unfold get_matcher. destruct (_ && _); [discriminate|]. cbv zeta.
  destruct (find_row (canonical n) t) as [r|] eqn:E.
  - apply find_row_some in E as [I _]. apply (make_matcher_known _ r t I J).
  - apply wildcard_not_name_error.
Qed.
Lemma get_matcher_assert t n :
  get_matcher t n = LAssert <-> In n alias_names /\ In n (map r_name t).
Proof.
  unfold get_matcher. destruct (dmem String.eqb n alias_mapping) eqn:A; cbn [andb].
  - apply dmem_in in A. destruct (find_row n t) as [r|] eqn:E; cbn.
    + apply find_row_some in E as [I N]. split; [|reflexivity]. intros _. split; [exact A|].
      rewrite <- N. apply in_map, I.
    + split; [intros H; exfalso; apply (make_matcher_not_assert _ _ H)|].
      intros [_ H]. apply find_row_none in E. tauto.
  - cbn. split; [intros H; exfalso; apply (make_matcher_not_assert _ _ H)|].
    intros [H _]. exfalso. unfold dmem in A. destruct (dget String.eqb n alias_mapping) eqn:E; [discriminate|].
    apply dget_none_notin in E. apply E, H.
Qed.
Lemma api_incl : incl api_mapping (api_mapping ++ attribute_mapping ++ wildcard_mapping)%list.
Proof. intros x I. apply in_app_iff. auto. Qed.
Lemma attr_incl : incl attribute_mapping (api_mapping ++ attribute_mapping ++ wildcard_mapping)%list.
Proof. intros x I. apply in_app_iff. right. apply in_app_iff. auto. Qed.

Lemma canonical_cases n :
  (dget String.eqb n alias_mapping = None /\ canonical n = n) \/
  (exists t, In (n, t) alias_mapping /\ canonical n = t /\ dget String.eqb t alias_mapping = None).
Proof.
  unfold canonical. destruct (dget String.eqb n alias_mapping) as [t|] eqn:E; [right|left; auto].
  exists t. apply dget_in in E. split; [exact E|]. split; [reflexivity|]. eapply alias_targets_final, E.
Qed.
Lemma canonical_idem n : canonical (canonical n) = canonical n.
Proof.
  destruct (canonical_cases n) as [[E ->]|(t & I & -> & E)]; unfold canonical; rewrite E; reflexivity.
Qed.
Lemma get_matcher_canonical t n : get_matcher t n <> LAssert -> get_matcher t (canonical n) = get_matcher t n.
Proof.
  intros H. unfold get_matcher in *.
  replace (dmem String.eqb (canonical n) alias_mapping) with false.
  2:{ destruct (canonical_cases n) as [[E ->]|(x & I & -> & E)]; unfold dmem; rewrite E; reflexivity. }
  cbn [andb]. rewrite canonical_idem.
  destruct (_ && _); [congruence|reflexivity].
Qed.

(** ** Renaming collisions *)
Definition tagged (e : entry) : list (string * key) :=
  flat_map (fun p => map (fun x => (p, x)) (new_names e [] (Some p))) (accepted e).
Fixpoint clash (l : list (string * key)) : bool :=
  match l with
  | [] => false
  | (p, x) :: r => existsb (fun qy => negb (String.eqb p (fst qy)) && key_eqb x (snd qy)) r || clash r
  end.
Lemma clash_spec l : clash l = true <-> exists p q x, In (p, x) l /\ In (q, x) l /\ p <> q.
Proof.
  induction l as [|[p x] l IH]; cbn [clash].
  - split; [discriminate|]. intros (p & q & x & [] & _).
  - rewrite orb_true_iff, IH, existsb_exists. split.
    + intros [([q y] & I & E)|(p' & q & y & I1 & I2 & N)].
      * cbn in E. apply andb_true_iff in E as [E1 E2].
        apply negb_true_iff, String.eqb_neq in E1. destruct (key_eqb_spec x y) as [->|]; [|discriminate].
        exists p, q, y. split; [left; reflexivity|]. split; [right; exact I|exact E1].
      * exists p', q, y. split; [right; exact I1|]. split; [right; exact I2|exact N].
    + intros (p' & q & y & [I1|I1] & [I2|I2] & N).
      * congruence.
      * injection I1 as <- <-. left. exists (q, x). split; [exact I2|]. cbn.
        apply String.eqb_neq in N. rewrite N. cbn. destruct (key_eqb_spec x x); congruence.
      * injection I2 as <- <-. left. exists (p', x). split; [exact I1|]. cbn.
        assert (N' : p <> p') by congruence. apply String.eqb_neq in N'. rewrite N'. cbn.
        destruct (key_eqb_spec x x); congruence.
      * right. exists p', q, y. auto.
Qed.
Lemma tagged_in e p x : In (p, x) (tagged e) <-> In p (accepted e) /\ In x (new_names e [] (Some p)).
Proof.
  unfold tagged. rewrite in_flat_map. split.
  - intros (q & I & J). apply in_map_iff in J as (y & [= -> ->] & J). auto.
  - intros [I J]. exists p. split; [exact I|]. apply in_map_iff. exists x. auto.
Qed.
Lemma collides_clash e : collides e <-> clash (tagged e) = true.
Proof.
  rewrite clash_spec. unfold collides. split.
  - intros (p & q & x & I1 & I2 & N & J1 & J2). exists p, q, x.
    rewrite !tagged_in. auto.
  - intros (p & q & x & I1 & I2 & N). exists p, q, x. rewrite tagged_in in I1, I2. tauto.
Qed.
Lemma shipped_collisions r : In r shipped -> (collides (r_entry r) <-> In (r_name r) colliding).
Proof.
  intros I.
  assert (H : forallb (fun r => Bool.eqb (clash (tagged (r_entry r))) (mem_str (r_name r) colliding)) shipped = true)
    by (vm_compute; reflexivity).
  rewrite forallb_forall in H. specialize (H _ I). apply Bool.eqb_prop in H.
  rewrite collides_clash, H. apply mem_str_In.
Qed.
Lemma new_names_unuse e u k x : In x (new_names e u k) -> In x (new_names e [] k).
Proof.
  destruct k as [k|]; [|tauto]. cbn [new_names].
  destruct (dget String.eqb k (kwargs_change e)) as [[|n|ns]|]; try tauto.
  destruct (mem_str k u); [intros []|]. cbn. tauto.
Qed.

(** ** Prefix change *)
Lemma pkg_no_dot p : In p (dkeys torch_package_mapping) -> no_char "."%char p /\ p <> "".
Proof.
  intros I.
  assert (H : forallb (fun p => negb (mem_char "."%char p) && negb (String.eqb p "")) (dkeys torch_package_mapping) = true)
    by reflexivity.
  rewrite forallb_forall in H. specialize (H _ I). apply andb_true_iff in H as [H1 H2].
  apply negb_true_iff in H1. apply negb_true_iff, String.eqb_neq in H2. split; [|exact H2].
  apply no_char_mem, H1.
Qed.
Lemma first_component_dot p rest : no_char "."%char p -> first_component (p ++ "." ++ rest) = p.
Proof.
  intros H. unfold first_component. change ("." ++ rest) with (String "."%char rest).
  rewrite split_on_app_nochar by exact H. reflexivity.
Qed.
Lemma first_component_nodot p : no_char "."%char p -> first_component p = p.
Proof. intros H. unfold first_component. rewrite split_on_single by exact H. reflexivity. Qed.
Lemma first_component_prefix n : exists rest, n = first_component n ++ rest /\
  (rest = "" \/ exists r, rest = String "."%char r).
Proof.
  unfold first_component. induction n as [|c n IH]; [exists ""; auto|].
  cbn [split_on]. destruct (Ascii.eqb_spec c "."%char) as [->|N].
  - cbn. eauto.
  - destruct IH as (rest & E & H). destruct (split_on "."%char n) as [|h t] eqn:S.
    + exfalso. apply (split_on_nonempty _ _ S).
    + cbn in *. exists rest. rewrite E at 1. auto.
Qed.
Lemma pkg_contains_dot p rest : no_char "."%char p -> p <> "" -> contains p rest = false ->
  contains p (String "."%char rest) = false.
Proof.
  intros ND NE H. cbn [contains]. rewrite H, orb_false_r.
  destruct p as [|c p]; [congruence|]. destruct ND as [N _]. cbn [prefix].
  destruct (ascii_dec c "."); [congruence|reflexivity].
Qed.
Lemma change_prefix_exact p target rest o :
  dget String.eqb p torch_package_mapping = Some target ->
  contains p rest = false ->
  change_prefix_name false (p ++ "." ++ rest) o = Some (target ++ "." ++ rest).
Proof.
  intros H C. assert (I : In p (dkeys torch_package_mapping)).
  { apply dmem_in. unfold dmem. rewrite H. reflexivity. }
  destruct (pkg_no_dot _ I) as [ND NE]. unfold change_prefix_name.
  rewrite first_component_dot by exact ND. rewrite H. unfold py_replace.
  rewrite replace_aux_match by exact NE. do 2 f_equal.
  apply (replace_no p target (String "."%char rest)), pkg_contains_dot; auto.
Qed.

(** ** Shipped rows: prefix change, generated names, minimal calls *)
Definition cut (p s : string) : option string :=
  if prefix (p ++ ".") s then Some (substring (S (String.length p)) (String.length s) s) else None.
Lemma cut_ok p s r : cut p s = Some r -> s = p ++ "." ++ r.
Proof.
  unfold cut. destruct (prefix (p ++ ".") s) eqn:E; [|discriminate]. intros [= <-].
  apply prefix_spec in E as [t ->].
  assert (G : forall p m, (String.length t <= m)%nat -> substring (S (String.length p)) m (p ++ String "."%char t) = t).
  { clear p. induction p as [|c p IH]; intros m L.
    - cbn [String.length append substring].
      revert m L. induction t as [|c t IH]; intros [|m] L; cbn in *; try lia; try reflexivity.
      rewrite IH; [reflexivity|lia].
    - cbn [String.length append]. cbn [substring]. apply IH, L. }
  replace ((p ++ ".") ++ t) with (p ++ String "."%char t) by (rewrite app_assoc_s; reflexivity).
  rewrite G; [reflexivity|].
  clear. induction p as [|c p IH]; cbn [append String.length]; lia.
Qed.
Definition prefix_row_ok (r : row) : bool :=
  let p := first_component (r_name r) in
  match cut p (r_name r), dget String.eqb p torch_package_mapping with
  | Some rest, Some _ => negb (contains p rest)
  | _, _ => false
  end.
Lemma shipped_prefix r :
  In r shipped -> r_matcher r = Some "ChangePrefixMatcher" -> r_name r <> "torch.torch.int32" ->
  exists p target rest, r_name r = p ++ "." ++ rest /\
    dget String.eqb p torch_package_mapping = Some target /\ contains p rest = false.
Proof.
  intros I M N.
  assert (H : forallb (fun r => if is_prefix_matcher (r_matcher r) then
                          prefix_row_ok r || String.eqb (r_name r) "torch.torch.int32" else true) shipped = true)
    by (vm_compute; reflexivity).
  rewrite forallb_forall in H. specialize (H _ I). rewrite M in H. cbn in H.
  apply String.eqb_neq in N. rewrite N, orb_false_r in H. unfold prefix_row_ok in H. cbv zeta in H.
  destruct (cut _ _) as [rest|] eqn:C; [|discriminate].
  destruct (dget _ _ _) as [t|] eqn:D; [|discriminate].
  apply cut_ok in C. apply negb_true_iff in H. eauto 10.
Qed.

Definition names_torch_package (api : string) : bool :=
  dmem String.eqb (first_component api) torch_package_mapping.
Lemma shipped_paddle_api r p :
  In r shipped -> paddle_api (r_entry r) = Some p -> r_name r <> "torch.distributed.Backend" ->
  ~ In (first_component p) (dkeys torch_package_mapping).
Proof.
  intros I E N.
  assert (H : forallb (fun r => match paddle_api (r_entry r) with
                                | Some p => negb (names_torch_package p) || String.eqb (r_name r) "torch.distributed.Backend"
                                | None => true end) shipped = true)
    by (vm_compute; reflexivity).
  rewrite forallb_forall in H. specialize (H _ I). rewrite E in H.
  apply String.eqb_neq in N. rewrite N, orb_false_r in H. apply negb_true_iff in H.
  unfold names_torch_package, dmem in H.
  destruct (dget String.eqb (first_component p) torch_package_mapping) eqn:D; [discriminate|].
  apply dget_none_notin, D.
Qed.
Lemma target_ok p t : dget String.eqb p torch_package_mapping = Some t ->
  no_char "."%char t /\ ~ In t (dkeys torch_package_mapping).
Proof.
  intros H. apply dget_in in H.
  assert (C : forallb (fun kv => negb (mem_char "."%char (snd kv)) && negb (dmem String.eqb (snd kv) torch_package_mapping)) torch_package_mapping = true)
    by reflexivity.
  rewrite forallb_forall in C. specialize (C _ H). cbn in C. apply andb_true_iff in C as [C1 C2].
  apply negb_true_iff in C1, C2. split; [apply no_char_mem, C1|].
  unfold dmem in C2. destruct (dget String.eqb t torch_package_mapping) eqn:D; [discriminate|].
  apply dget_none_notin, D.
Qed.
Lemma change_prefix_first n o out : change_prefix_name false n o = Some out ->
  exists t, dget String.eqb (first_component n) torch_package_mapping = Some t /\ first_component out = t.
Proof.
  unfold change_prefix_name. destruct (dget _ _ _) as [t|] eqn:D; [|discriminate]. intros [= <-].
  exists t. split; [reflexivity|].
  assert (I : In (first_component n) (dkeys torch_package_mapping)).
  { apply dmem_in. unfold dmem. rewrite D. reflexivity. }
  destruct (pkg_no_dot _ I) as [ND NE]. destruct (target_ok _ _ D) as [NT _].
  destruct (first_component_prefix n) as (rest & E & R). set (p := first_component n) in *.
  rewrite E. unfold py_replace. rewrite replace_aux_match by exact NE.
  destruct R as [->|[r ->]].
  - cbn. rewrite append_nil_r. apply first_component_nodot, NT.
  - replace (replace_aux p t 0 (String "." r)) with ("." ++ replace_aux p t 0 r).
    + apply first_component_dot, NT.
    + cbn [replace_aux]. destruct p as [|c p']; [congruence|]. destruct ND as [Nc _].
      cbn [prefix]. destruct (ascii_dec c "."); [congruence|reflexivity].
Qed.

(** Minimal positional calls. *)
Lemma nth_error_firstn_lt {A} (l : list A) n j : (j < n)%nat -> nth_error (firstn n l) j = nth_error l j.
Proof.
  revert n j. induction l as [|x l IH]; intros [|n] [|j] H; try lia; try reflexivity.
  cbn. apply IH. lia.
Qed.
Definition minimal_ok (e : entry) : bool :=
  (min_input_args e <=? List.length (position_args e))%nat &&
  forallb (fun k => negb (mem_str k (unsupport_args e))) (firstn (min_input_args e) (position_args e)).
Lemma minimal_call e args : minimal_ok e = true -> List.length args = min_input_args e ->
  Forall (fun a => e_starred a = false) args ->
  exists t, parse_args_and_kwargs e false false args [] = (Bound t, []).
Proof.
  intros H L F. apply andb_true_iff in H as [H1 H2]. apply Nat.leb_le in H1.
  unfold parse_args_and_kwargs.
  replace (existsb _ args) with false.
  2:{ symmetry. apply not_true_is_false. intros X. apply existsb_exists in X as (a & I & E).
      rewrite Forall_forall in F. rewrite (F _ I) in E. discriminate. }
  cbn [check_kwargs List.length]. rewrite Nat.add_0_r, Nat.sub_0_r, L, Nat.ltb_irrefl.
  replace (List.length (position_args e) <? min_input_args e)%nat with false
    by (symmetry; apply Nat.ltb_ge; lia).
  destruct (bind_args_exists e args 0 []) as [t E]; [lia| |rewrite E; eauto].
  intros j k J K. rewrite forallb_forall in H2.
  apply mem_str_false. apply negb_true_iff, H2.
  apply nth_error_In with j. rewrite nth_error_firstn_lt; [exact K|lia].
Qed.
Lemma shipped_generic_minimal r : In r shipped -> r_matcher r = Some "GenericMatcher" -> minimal_ok (r_entry r) = true.
Proof.
  intros I M.
  assert (H : forallb (fun r => match r_matcher r with
                                | Some m => if String.eqb m "GenericMatcher" then minimal_ok (r_entry r) else true
                                | None => true end) shipped = true)
    by (vm_compute; reflexivity).
  rewrite forallb_forall in H. specialize (H _ I). rewrite M in H. exact H.
Qed.

(** [get_paddle_api] on shipped rows. *)
Lemma shipped_returns r m : In r shipped -> r_matcher r = Some m ->
  get_paddle_api_returns (r_name r) m (r_entry r) = true <-> r_name r <> "torch.autograd.Function.backward".
Proof.
  intros I M.
  assert (H : forallb (fun r => match r_matcher r with
                                | Some m => Bool.eqb (get_paddle_api_returns (r_name r) m (r_entry r))
                                              (negb (String.eqb (r_name r) "torch.autograd.Function.backward"))
                                | None => true end) shipped = true)
    by (vm_compute; reflexivity).
  rewrite forallb_forall in H. specialize (H _ I). rewrite M in H. apply Bool.eqb_prop in H.
  rewrite H. rewrite negb_true_iff, String.eqb_neq. reflexivity.
Qed.

(** Min mode. *)
Lemma get_matcher_unfold t n : get_matcher t n <> LAssert ->
  get_matcher t n = make_matcher (canonical n)
    (match find_row (canonical n) t with Some r => Some r | None => last_wildcard (canonical n) end).
Proof.
  unfold get_matcher. destruct (dmem String.eqb n alias_mapping); cbn [andb]; [|reflexivity].
  destruct (find_row n t); [|reflexivity]. intros H. exfalso. apply H. reflexivity.
Qed.
Lemma wildcard_usable c w : last_wildcard c = Some w ->
  usable_matcher (Some w) = Some (Some "EinopsTorchMatcher") \/ usable_matcher (Some w) = None.
Proof.
  unfold last_wildcard. rewrite wildcards. cbn [fold_left r_name].
  destruct (re_match "einops.layers.torch.*" c), (re_match "transformers.*" c); intros [= <-];
    (left; reflexivity) || (right; reflexivity).
Qed.
Definition or_else (a b : option row) : option row := match a with Some r => Some r | None => b end.
Definition min_choice (ra rb : option row) : bool :=
  match usable_matcher ra with
  | Some m => is_prefix_matcher m
  | None => match usable_matcher rb with Some m => is_prefix_matcher m | None => false end
  end.
Lemma usable_spec c r : make_matcher c r <> LNameError ->
  match usable_matcher r with
  | None => make_matcher c r = LNone
  | Some m => is_prefix_matcher m = true <-> exists c' r', make_matcher c r = LMatcher c' "ChangePrefixMatcher" r'
  end.
Proof.
  destruct r as [r|]; [|reflexivity]. intros NE. cbn [usable_matcher make_matcher] in *.
  destruct (empty_row r) eqn:EE.
  - cbn [orb]. assert (ER : r_matcher r = None).
    { destruct r as [nm [m|] d a en]; [discriminate EE|reflexivity]. }
    rewrite ER. destruct (r_disable r); reflexivity.
  - cbn [orb]. destruct (r_disable r); [reflexivity|].
    destruct (r_matcher r) as [m|]; cbn [is_prefix_matcher].
    + destruct (mem_str m matcher_classes); [|exfalso; apply NE; reflexivity].
      destruct (String.eqb_spec m "ChangePrefixMatcher") as [->|N].
      * split; eauto.
      * split; [discriminate|]. intros (c' & r' & H). injection H as _ H _. contradiction.
    + split; [discriminate|]. intros (c' & r' & H). discriminate.
Qed.
Lemma min_core c fa fb w :
  fa = None \/ fb = None ->
  (forall x, w = Some x -> usable_matcher (Some x) = Some (Some "EinopsTorchMatcher") \/ usable_matcher (Some x) = None) ->
  (forall b, fb = Some b -> make_matcher c w = LNone) ->
  make_matcher c (or_else fa w) <> LNameError -> make_matcher c (or_else fb w) <> LNameError ->
  (min_choice (or_else fa w) (or_else fb w) = true <->
   (exists c' r, make_matcher c (or_else fa w) = LMatcher c' "ChangePrefixMatcher" r) \/
   (exists c' r, make_matcher c (or_else fb w) = LMatcher c' "ChangePrefixMatcher" r)).
Proof.
  intros D W B NEa NEb.
  pose proof (usable_spec c _ NEa) as Ua. pose proof (usable_spec c _ NEb) as Ub. unfold min_choice.
  assert (NW : forall c' r, make_matcher c w <> LMatcher c' "ChangePrefixMatcher" r).
  { intros c' r H. destruct w as [w|]; [|discriminate]. destruct (W w eq_refl) as [X|X];
    cbn [usable_matcher] in X; cbn [make_matcher] in H;
    destruct (empty_row w) eqn:EE; cbn [orb] in X; try discriminate;
    try (assert (ER : r_matcher w = None) by (destruct w as [nm [m|] d a en]; [discriminate EE|reflexivity]);
         rewrite ER in H; destruct (r_disable w); discriminate);
    destruct (r_disable w); try discriminate.
    injection X as X. rewrite X in H. destruct (mem_str _ _); discriminate. }
  destruct (usable_matcher (or_else fa w)) as [ma|] eqn:Ea.
  - rewrite Ua. split; [tauto|]. intros [H|(c' & r' & H)]; [exact H|]. exfalso.
    destruct fb as [b|]; cbn [or_else] in H; [|apply (NW _ _ H)].
    destruct D as [->|]; [|discriminate]. cbn [or_else] in Ea. specialize (B b eq_refl).
    destruct w as [w|]; [|discriminate]. destruct (W w eq_refl) as [X|X]; [|congruence].
    cbn [usable_matcher] in X. cbn [make_matcher] in B.
    destruct (empty_row w); [discriminate|]. cbn [orb] in X. destruct (r_disable w); [discriminate|].
    injection X as X. rewrite X in B. destruct (mem_str "EinopsTorchMatcher" matcher_classes) eqn:M; [discriminate|].
    discriminate.
  - rewrite Ua. destruct (usable_matcher (or_else fb w)) as [mb|] eqn:Eb.
    + rewrite Ub. split; [tauto|]. intros [(c' & r' & H)|H]; [discriminate|exact H].
    + rewrite Ub. split; [discriminate|]. intros [(c' & r' & H)|(c' & r' & H)]; discriminate.
Qed.
Lemma in_min_mode_spec n :
  get_api_matcher n <> LAssert ->
  (in_min_mode true n = true <->
   (exists c r, get_api_matcher n = LMatcher c "ChangePrefixMatcher" r) \/
   (exists c r, get_attribute_matcher n = LMatcher c "ChangePrefixMatcher" r)).
Proof.
  intros NA. assert (NB : get_attribute_matcher n <> LAssert).
  { intros H. apply get_matcher_assert in H as [H1 H2]. apply (alias_attr_disjoint n H1 H2). }
  pose proof (get_matcher_not_name_error api_mapping n api_incl) as NEa.
  pose proof (get_matcher_not_name_error attribute_mapping n attr_incl) as NEb.
  unfold get_api_matcher, get_attribute_matcher in *.
  rewrite get_matcher_unfold in NEa by exact NA. rewrite get_matcher_unfold in NEb by exact NB.
  rewrite (get_matcher_unfold _ _ NA), (get_matcher_unfold _ _ NB). clear NA NB.
  unfold in_min_mode. cbn [negb]. cbv zeta. rewrite first_last_wildcard.
  apply (min_core (canonical n) (find_row (canonical n) api_mapping) (find_row (canonical n) attribute_mapping)
           (last_wildcard (canonical n))); [| | |exact NEa|exact NEb].
  - destruct (find_row (canonical n) api_mapping) as [x|] eqn:E1; [right|left; reflexivity].
    apply find_row_none. intros I2. apply find_row_some in E1 as [I1 N1].
    apply (api_attr_disjoint (canonical n)); [rewrite <- N1; apply in_map, I1|exact I2].
  - intros x. apply wildcard_usable.
  - intros b Eb. apply find_row_some in Eb as [Ib Nb].
    destruct (make_matcher (canonical n) (last_wildcard (canonical n))) eqn:M; try reflexivity; exfalso;
    (assert (WM : make_matcher (canonical n) (last_wildcard (canonical n)) <> LNone) by (rewrite M; discriminate));
    apply wildcard_matcher in WM as [WM _];
    (rewrite names_not_einops in WM; [discriminate|]; apply in_app_iff; left; rewrite <- Nb; apply in_map, Ib).
Qed.

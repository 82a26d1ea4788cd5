(** Proofs about the import pass. *)
From Verif Require Import PyStr PyStrFacts PyDict PyDictFacts TablesData Lookup LookupFacts Ast AstFacts ImportPass ImportSpec.
From Coq Require Import Lia.
Opaque api_mapping attribute_mapping alias_mapping wildcard_mapping matcher_classes.

(** ** Packages *)
Lemma listed_ok p : In p listed_packages -> no_char "."%char p /\ p <> "".
Proof.
  intros H.
  assert (E : forallb (fun p => negb (mem_char "."%char p) && negb (String.eqb p "")) listed_packages = true)
    by (vm_compute; reflexivity).
  rewrite forallb_forall in E. specialize (E p H). apply andb_prop in E as [E1 E2]. split.
  - apply no_char_mem. destruct (mem_char "."%char p); [discriminate|reflexivity].
  - intros ->. discriminate.
Qed.

Lemma in_package_first p m : no_char "."%char p -> in_package p m = String.eqb (first_component m) p.
Proof.
  intros Hp. unfold in_package. destruct (String.eqb_spec (first_component m) p) as [E|E].
  - destruct (first_component_prefix m) as (rest & Em & Hr).
    destruct Hr as [->|(r & ->)].
    + rewrite app_nil_r_s in Em. rewrite E in Em. subst m. rewrite String.eqb_refl. apply orb_true_r.
    + rewrite E in Em. rewrite Em. unfold startswith.
      replace (p ++ String "."%char r) with ((p ++ ".") ++ r) by (rewrite app_assoc_s; reflexivity).
      rewrite prefix_app. reflexivity.
  - destruct (startswith m (p ++ ".")) eqn:S.
    + exfalso. apply E. unfold startswith in S. apply prefix_spec in S as (t & ->). rewrite app_assoc_s.
      apply first_component_dot, Hp.
    + destruct (String.eqb_spec p m) as [<-|]; [|reflexivity]. exfalso. apply E, first_component_nodot, Hp.
Qed.

Lemma torch_package_spec m : torch_package_of m = if torch_module m then Some (first_component m) else None.
Proof.
  unfold torch_package_of, torch_module. pose proof listed_ok as H.
  induction listed_packages as [|p l IH]; [reflexivity|].
  cbn [find mem_str existsb]. unfold mem_str in *. cbn [existsb].
  rewrite in_package_first by (apply H; left; reflexivity).
  destruct (String.eqb_spec (first_component m) p) as [->|N]; [reflexivity|].
  cbn [orb]. apply IH. intros q Hq. apply H. right. exact Hq.
Qed.

Lemma renamed_package_spec m :
  renamed_package_of m = if renames m then Some ("audiotools", "paddlespeech.audiotools") else None.
Proof.
  unfold renamed_package_of, renames, import_package_mapping. cbn [find fst].
  change ("audiotools" ++ ".") with "audiotools.". rewrite (String.eqb_sym "audiotools" m). reflexivity.
Qed.

(** ** Strings *)
Lemma join_first full t first rest : split_on "."%char t = first :: rest ->
  exists tail, t = first ++ tail /\ join "." (full :: rest) = full ++ tail /\ first_component t = first.
Proof.
  intros E. pose proof (join_split "."%char t) as J. rewrite E in J. unfold first_component. rewrite E.
  unfold join in *. destruct rest as [|y r].
  - exists "". cbn in J. rewrite !app_nil_r_s. cbn [concat nth]. auto.
  - exists ("." ++ String.concat "." (y :: r)). cbn [nth].
    rewrite <- J. split; [|split; [|reflexivity]]; reflexivity.
Qed.

(** ** Nodes *)
Lemma self_in n : In n (nodes n).
Proof. destruct n; left; reflexivity. Qed.
Lemma flat_map_flat_map {A B C} (f : A -> list B) (g : B -> list C) l :
  flat_map g (flat_map f l) = flat_map (fun x => flat_map g (f x)) l.
Proof. induction l as [|x l IH]; [reflexivity|]. cbn [flat_map]. rewrite flat_map_app, IH. reflexivity. Qed.
Lemma nodes_children n : nodes n = n :: flat_map nodes (children n).
Proof.
  destruct n as [i|v a|f a k|l|m l i|k fs]; cbn [nodes children flat_map]; rewrite ?app_nil_r; try reflexivity.
  - rewrite flat_map_app. reflexivity.
  - f_equal. rewrite flat_map_flat_map. apply flat_map_ext. intros [nm c|nm l|nm x]; cbn [flat_map]; rewrite ?app_nil_r; reflexivity.
Qed.
Lemma child_nodes n c m : In c (children n) -> In m (nodes c) -> In m (nodes n).
Proof. intros H1 H2. rewrite nodes_children. right. apply in_flat_map. eauto. Qed.

Lemma nodes_trans root : forall n x, In n (nodes root) -> In x (nodes n) -> In x (nodes root).
Proof.
  induction root as [i|v a IH|f a k Hf Ha Hk|l|m l lv|k fs Hfs] using node_ind2; intros n x H1 H2;
    cbn [nodes] in H1; destruct H1 as [<-|H1]; try exact H2; try contradiction.
  - cbn [nodes]. right. eauto.
  - cbn [nodes]. right. rewrite !in_app_iff in *. rewrite !in_flat_map in *. rewrite Forall_forall in Ha, Hk.
    destruct H1 as [H1|[(y & Hy & H1)|(y & Hy & H1)]]; [left; eauto|right; left; eauto|right; right; eauto].
  - cbn [nodes]. right. rewrite in_flat_map in *. destruct H1 as (f & Hf & H1). exists f. split; [exact Hf|].
    rewrite Forall_forall in Hfs. specialize (Hfs f Hf). destruct f as [nm c|nm l|nm y]; [|..|contradiction].
    + eauto.
    + rewrite in_flat_map in *. pose proof (proj1 (Forall_forall _ _) Hfs) as Hfs'. destruct H1 as (y & Hy & H1). eauto.
Qed.

(** ** One statement *)
Section Spec.
  Variable e : env.
  Variable K : string -> string -> Prop.

  Definition known (s : ist) : Prop :=
    (forall x full, dget String.eqb x (imports s) = Some full -> K x full) /\
    (forall x full, dget String.eqb x (name_aliases s) = Some full -> K x full).

  Lemma record_known x full s s' : K x full -> known s -> record_import x full s = Ok s' -> known s'.
  Proof.
    intros Hk [H1 H2] E. unfold record_import in E. destruct (mem_str x bookkeeping); [discriminate|].
    injection E as <-. split; cbn [imports name_aliases with_imports]; [|exact H2].
    intros y f D. destruct (String.eqb_spec y x) as [->|N].
    - rewrite (dget_set_same _ String.eqb_spec) in D. injection D as <-. exact Hk.
    - rewrite (dget_set_other _ String.eqb_spec) in D by exact N. auto.
  Qed.
  Lemma note_package_known pkg s : known s -> known (note_package pkg s).
  Proof. unfold note_package. destruct (mem_str pkg may_torch_package_list); intros H; exact H. Qed.

  Lemma import_names_spec l : forall s l' s',
    import_names e l s = Ok (l', s') ->
    l' = flat_map (new_alias e) (upto_local e l) /\
    ((forall x full, In (x, full) (bindings e (Import l)) -> K x full) -> known s -> known s').
  Proof.
    induction l as [|a r IH]; intros s l' s' E; cbn [import_names] in E.
    - injection E as <- <-. auto.
    - cbn [upto_local bindings]. destruct (is_local e (al_name a)) eqn:L.
      + injection E as <- <-. unfold new_alias. cbn [flat_map]. rewrite L. split; [reflexivity|]. intros _ H. exact H.
      + rewrite torch_package_spec in E. cbn [flat_map]. unfold new_alias at 1. rewrite L.
        destruct (torch_module (al_name a)) eqn:T; cbn [negb andb].
        * destruct (record_import (bound_name a) (al_name a) _) as [s1|] eqn:R; [|discriminate]. cbn [bind] in E.
          destruct (import_names e r s1) as [[rest s2]|] eqn:N; [|discriminate]. cbn [bind] in E.
          injection E as <- <-. destruct (IH _ _ _ N) as [-> Hk]. split.
          -- destruct (min_mode e); reflexivity.
          -- intros HB Hs. apply Hk.
             ++ intros x full I. apply HB. cbn [bindings]. apply in_or_app. right. exact I.
             ++ eapply record_known; [|apply note_package_known; exact Hs|exact R].
                apply HB. left. reflexivity.
        * rewrite renamed_package_spec in E. destruct (renames (al_name a)) eqn:Rn.
          -- destruct (import_names e r s) as [[rest s2]|] eqn:N; [|discriminate]. cbn [bind] in E.
             injection E as <- <-. destruct (IH _ _ _ N) as [-> Hk]. split; [|exact Hk].
             unfold renamed. destruct (al_asname a); reflexivity.
          -- destruct (import_names e r _) as [[rest s2]|] eqn:N; [|discriminate]. cbn [bind] in E.
             injection E as <- <-. destruct (IH _ _ _ N) as [-> Hk]. split; [reflexivity|].
             intros HB Hs. apply Hk; [exact HB|exact Hs].
  Qed.

  Lemma remove_import_spec stack s r s' : remove_import stack s = Ok (r, s') ->
    (spliced r = [] \/ spliced r = [pass_node]) /\ (known s -> known s').
  Proof.
    unfold remove_import. destruct (parent stack) as [p|]; [|discriminate]. cbn [bind].
    destruct (mem_str (kind_of p) _ && _); intros E; injection E as <- <-; cbn [spliced]; auto.
  Qed.

  Lemma note_others_known l : forall s, known s -> known (note_others l s).
  Proof.
    unfold note_others. induction l as [|a l IH]; intros s H; [exact H|]. cbn [fold_left]. apply IH.
    destruct (al_asname a); [exact H|]. destruct (String.eqb (al_name a) "*"); exact H.
  Qed.
  Lemma record_from_known m l : forall s s', record_from m l s = Ok s' ->
    (forall a, In a l -> K (bound_name a) (m ++ "." ++ al_name a)) -> known s -> known s'.
  Proof.
    induction l as [|a l IH]; intros s s' E HK Hs; cbn [record_from] in E.
    - injection E as <-. exact Hs.
    - destruct (record_import _ _ s) as [s1|] eqn:R; [|discriminate]. cbn [bind] in E.
      apply (IH _ _ E); [intros b Hb; apply HK; right; exact Hb|].
      eapply record_known; [|exact Hs|exact R]. apply HK. left. reflexivity.
  Qed.

  Lemma import_stmt_spec n stack s r s' : is_import n = true ->
    import_post e n stack s = Ok (r, s') ->
    replaces e n (spliced r) /\
    ((forall x full, In (x, full) (bindings e n) -> K x full) -> known s -> known s').
  Proof.
    intros I E. destruct n as [| | |names|m names level|]; try discriminate I; cbn [import_post] in E.
    - unfold visit_import in E. destruct (import_names e names s) as [[l' s1]|] eqn:N; [|discriminate]. cbn [bind] in E.
      destruct (import_names_spec _ _ _ _ N) as [Hl Hk]. unfold replaces. cbn [rewritten].
      destruct l' as [|a l'].
      + rewrite <- Hl. destruct (remove_import_spec _ _ _ _ E) as [[->| ->] Hr]; auto.
      + rewrite <- Hl. injection E as <- <-. auto.
    - unfold visit_import_from in E. destruct (from_module e m level) as [[[m' level']|]|] eqn:F; [| |discriminate];
      cbn [bind] in E; unfold replaces; cbn [rewritten bindings]; rewrite F.
      + rewrite torch_package_spec in E. destruct (torch_module m') eqn:T.
        * destruct (record_from m' names _) as [s1|] eqn:R; [|discriminate]. cbn [bind] in E.
          assert (Hk : (forall x full, In (x, full) (map (fun a => (bound_name a, m' ++ "." ++ al_name a)) names) -> K x full) ->
                       known s -> known s1).
          { intros HB Hs. apply (record_from_known _ _ _ _ R); [|apply note_package_known; exact Hs].
            intros a Ha. apply HB. apply in_map_iff. exists a. auto. }
          destruct (min_mode e).
          -- injection E as <- <-. auto.
          -- destruct (remove_import_spec _ _ _ _ E) as [[->| ->] Hr]; auto.
        * rewrite renamed_package_spec in E. destruct (renames m'); injection E as <- <-; split; auto.
          intros _ Hs. apply note_others_known, Hs.
      + injection E as <- <-. split; [auto|]. intros _ Hs. apply note_others_known, Hs.
  Qed.

  (** ** Names *)
  Lemma get_full_attr_dotted n t : dotted n = Some t -> get_full_attr n = t.
  Proof.
    revert t. induction n as [i|v a IH|f aa k Hf Ha Hk|l|m l lv|k fs Hfs] using node_ind2; intros t H; cbn [dotted] in H; try discriminate.
    - injection H as <-. reflexivity.
    - destruct (dotted v) as [u|]; [|discriminate]. injection H as <-. cbn [get_full_attr]. rewrite (IH u eq_refl). reflexivity.
  Qed.
  Lemma get_full_attr_other n : dotted n = None ->
    get_full_attr n = "None" \/ exists t, get_full_attr n = "None" ++ "." ++ t.
  Proof.
    induction n as [i|v a IH|f aa k Hf Ha Hk|l|m l lv|k fs Hfs] using node_ind2; intros H; cbn [dotted] in H; try discriminate; cbn [get_full_attr]; auto.
    destruct (dotted v) as [u|]; [discriminate|]. right. destruct (IH eq_refl) as [->|(t & ->)]; [eauto|].
    exists (t ++ "." ++ a). rewrite !app_assoc_s. reflexivity.
  Qed.

  Hypothesis HNone : forall full, ~ K "None" full.

  Lemma get_torch_api_spec n s api : known s -> get_torch_api n s = Ok (Some api) ->
    exists first rest full, dotted n = Some (first ++ rest) /\ first_component (first ++ rest) = first /\
      K first full /\ api = full ++ rest.
  Proof.
    intros [H1 _] E. unfold get_torch_api in E.
    destruct (split_on "."%char (get_full_attr n)) as [|first rest] eqn:Sp; [discriminate|].
    destruct (dget String.eqb first (imports s)) as [full|] eqn:D.
    - assert (api = join "." (full :: rest)) as -> by congruence. clear E. destruct (join_first full _ _ _ Sp) as (tail & Et & Ej & Ef).
      specialize (H1 _ _ D). exists first, tail, full. rewrite Ej. rewrite Et in Ef. repeat split; auto.
      destruct (dotted n) as [t|] eqn:Dn; [rewrite <- Et; rewrite (get_full_attr_dotted _ _ Dn); reflexivity|].
      exfalso. assert (first = "None") as ->; [|exact (HNone _ H1)].
      rewrite <- Ef, <- Et. destruct (get_full_attr_other _ Dn) as [->|(t & ->)]; [reflexivity|].
      apply first_component_dot. cbn. repeat split; discriminate.
    - destruct (mem_str first bookkeeping); discriminate.
  Qed.

  Lemma with_kept_known s api : known s -> known (with_kept s api).
  Proof. intros H. exact H. Qed.

  (** An emitted node is the node itself or the expanded name. *)
  Lemma emit_spec api n s r s' : emit e api n s = (r, s') ->
    (r = VNode n \/ r = VNode (parse_dotted (canonical api))) /\ (known s -> known s').
  Proof.
    unfold emit. destruct (in_min_mode (min_mode e) api); intros E; injection E as <- <-; auto.
  Qed.
End Spec.

(** ** Dotted text with a dot is an attribute *)
Lemma fold_attr_not_name l n t : l <> [] \/ (forall t, n <> Name t) -> fold_left Attribute l n <> Name t.
Proof.
  revert n. induction l as [|a l IH]; intros n [H|H]; cbn [fold_left]; [congruence|apply H| |];
    apply IH; right; discriminate.
Qed.
Lemma split_dot a b : split_on "."%char (a ++ String "."%char b) <> [] /\
  exists x y l, split_on "."%char (a ++ String "."%char b) = x :: y :: l.
Proof.
  split; [apply split_on_nonempty|].
  induction a as [|c a (x & y & l & IH)].
  - cbn [append split_on]. rewrite Ascii.eqb_refl.
    destruct (split_on "."%char b) as [|y l] eqn:E; [exfalso; exact (split_on_nonempty _ _ E)|]. eauto.
  - cbn [append split_on]. rewrite IH. destruct (Ascii.eqb c "."%char); eauto.
Qed.
Lemma parse_dotted_dot a b t : parse_dotted (a ++ String "."%char b) <> Name t.
Proof.
  unfold parse_dotted. destruct (split_dot a b) as [_ (x & y & l & ->)]. apply fold_attr_not_name. left. discriminate.
Qed.

Lemma alias_targets_dotted n t : In (n, t) alias_mapping -> exists a b, t = a ++ String "."%char b.
Proof.
  intros H.
  assert (E : forallb (fun kv => mem_char "."%char (snd kv)) alias_mapping = true) by (vm_compute; reflexivity).
  rewrite forallb_forall in E. specialize (E _ H). cbn [snd] in E. clear H. revert E.
  induction t as [|c t IH]; [discriminate|]. cbn [mem_char]. rewrite eqb_sym_ascii. destruct (Ascii.eqb_spec c "."%char) as [->|N].
  - intros _. exists "", t. reflexivity.
  - intros E. destruct IH as (a & b & ->); [|exists (String c a), b; reflexivity].
    cbn in E. exact E.
Qed.
Lemma canonical_not_name a b t : parse_dotted (canonical (a ++ String "."%char b)) <> Name t.
Proof.
  destruct (canonical_cases (a ++ String "."%char b)) as [[_ ->]|(u & H & -> & _)]; [apply parse_dotted_dot|].
  destruct (alias_targets_dotted _ _ H) as (a' & b' & ->). apply parse_dotted_dot.
Qed.

Lemma first_component_no_char n : no_char "."%char (first_component n).
Proof.
  unfold first_component. pose proof (split_on_no_char "."%char n) as F.
  destruct (split_on "."%char n); [exact I|]. inversion F. assumption.
Qed.
Lemma first_component_not_all a b : first_component (a ++ String "."%char b) <> a ++ String "."%char b.
Proof.
  intros H. pose proof (first_component_no_char (a ++ String "."%char b)) as N. rewrite H in N.
  apply no_char_app in N as [_ N]. destruct N as [N _]. congruence.
Qed.

(** ** The whole traversal *)
Section Main.
  Variable e : env.
  Variable K : string -> string -> Prop.
  Hypothesis HNone : forall full, ~ K "None" full.
  Notation rw := (rw e K). Notation rws := (rws e K). Notation rwfs := (rwfs e K).
  Notation known := (known K).

  Definition fit (n : node) : Prop :=
    grammatical n /\
    (forall i x full, In i (imports_of n) -> In (x, full) (bindings e i) -> K x full) /\
    (forall t i txt full,
       In (Other "Assign" [Many "targets" [Name t]; One "value" (Name i); Data "type_comment" txt]) (nodes n) ->
       K i full -> K t full).
  Lemma imports_child n c i : In c (children n) -> In i (imports_of c) -> In i (imports_of n).
  Proof.
    unfold imports_of. rewrite !filter_In. intros H [H1 H2]. split; [|exact H2]. eapply child_nodes; eassumption.
  Qed.
  Lemma fit_child n c : fit n -> In c (children n) -> fit c.
  Proof.
    intros (G & B & C) I. split; [|split].
    - intros m Hm. apply G. eapply child_nodes; eassumption.
    - intros i x full Hi. apply B. eapply imports_child; eassumption.
    - intros t i txt full Hm. apply (C t i txt full). eapply child_nodes; eassumption.
  Qed.

  (** A tree without imports is related to itself. *)
  Lemma no_imports_child n c : imports_of n = [] -> In c (children n) -> imports_of c = [] /\ is_import c = false.
  Proof.
    intros H I. split.
    - destruct (imports_of c) as [|i l] eqn:E; [reflexivity|]. exfalso.
      assert (In i (imports_of n)) by (eapply imports_child; [exact I|rewrite E; left; reflexivity]).
      rewrite H in H0. exact H0.
    - destruct (is_import c) eqn:E; [|reflexivity]. exfalso.
      assert (In c (imports_of n)).
      { unfold imports_of. apply filter_In. split; [|exact E]. eapply child_nodes; [exact I|apply self_in]. }
      rewrite H in H0. exact H0.
  Qed.
  Lemma rw_refl n : imports_of n = [] -> rw n n.
  Proof.
    assert (L : forall l, Forall (fun n => imports_of n = [] -> rw n n) l ->
                (forall c, In c l -> imports_of c = [] /\ is_import c = false) -> rws l l).
    { induction 1 as [|x l Hx Hl IH]; intros H; constructor.
      - apply H. left. reflexivity.
      - apply Hx, H. left. reflexivity.
      - apply IH. intros c Hc. apply H. right. exact Hc. }
    induction n as [i|v a IH|f aa k Hf Ha Hk|l|m l lv|k fs Hfs] using node_ind2; intros H; try discriminate H.
    - constructor.
    - constructor. apply IH. apply (no_imports_child (Attribute v a)); [exact H|left; reflexivity].
    - assert (C : forall c, In c (f :: aa ++ k) -> imports_of c = [] /\ is_import c = false)
        by (intros c; apply (no_imports_child (Call f aa k)), H).
      constructor.
      + apply Hf, C. left. reflexivity.
      + apply L; [exact Ha|]. intros c Hc. apply C. right. apply in_or_app. auto.
      + apply L; [exact Hk|]. intros c Hc. apply C. right. apply in_or_app. auto.
    - assert (C : forall c, In c (children (Other k fs)) -> imports_of c = [] /\ is_import c = false)
        by (intros c; apply no_imports_child, H).
      constructor. clear H. cbn [children] in C. induction Hfs as [|f fs Hf Hfs IH]; [constructor|].
      assert (C' : rwfs fs fs) by (apply IH; intros c Hc; apply C; cbn [flat_map]; apply in_or_app; auto).
      destruct f as [nm c|nm l|nm x]; constructor; try exact C'; cbn [field_all] in Hf.
      + apply Hf, C. cbn [flat_map]. left. reflexivity.
      + apply L; [exact Hf|]. intros c Hc. apply C. cbn [flat_map]. apply in_or_app. auto.
  Qed.

  Definition copy_ok (n : node) (p : pos) (st : list frame) : Prop :=
    forall fr rest t i full, st = fr :: rest -> p_field p = "value" -> assign_target (e_node fr) = Some t ->
      n = Name i -> K i full -> K t full.
  Definition at_target (p : pos) (st : list frame) : Prop :=
    p_field p = "targets" /\ exists fr rest fs, st = fr :: rest /\ e_node fr = Other "Assign" fs.
  Definition outcome (n : node) (p : pos) (st : list frame) (r : visited) : Prop :=
    if is_import n then replaces e n (spliced r)
    else exists n', r = VNode n' /\ rw n n' /\
         (forall t, n' = Name t -> exists i, n = Name i /\ (at_target p st -> i = t)).
  Definition P (n : node) (p : pos) (st : list frame) (u : ist) (r : visited) (u' : ist) : Prop :=
    fit n -> copy_ok n p st -> known u -> known u' /\ outcome n p st r.

  (** Lists *)
  Lemma in_list_rws nm st i l u l' u' : in_list P nm st i l u l' u' ->
    (forall x, In x l -> fit x) ->
    (forall fr rs, st = fr :: rs -> nm = "value" -> assign_target (e_node fr) = None) ->
    known u -> known u' /\ rws l l'.
  Proof.
    induction 1 as [i u|i x l u r u1 rest u2 Hx Hl IH]; intros Hf Hn Hk; [split; [exact Hk|constructor]|].
    destruct (Hx (Hf x (or_introl eq_refl))) as [K1 O]; [|exact Hk|].
    { intros fr rs t j full Es Hv A. cbn [p_field] in Hv. rewrite (Hn fr rs Es Hv) in A. discriminate A. }
    destruct (IH (fun y Hy => Hf y (or_intror Hy)) Hn K1) as [K2 R]. split; [exact K2|].
    unfold outcome in O. destruct (is_import x) eqn:I.
    - apply rws_import; assumption.
    - destruct O as (n' & -> & Hrw & _). cbn [spliced app]. constructor; assumption.
  Qed.
  Lemma in_list_targets fr rs fs i l u l' u' : in_list P "targets" (fr :: rs) i l u l' u' ->
    e_node fr = Other "Assign" fs ->
    (forall x, In x l -> fit x /\ is_import x = false) -> known u ->
    List.length l' = List.length l /\ forall t, l' = [Name t] -> l = [Name t].
  Proof.
    intros H Efr. remember (fr :: rs) as st eqn:Est.
    induction H as [i u|i x l u r u1 rest u2 Hx Hl IH]; intros Hf Hk.
    - split; [reflexivity|discriminate].
    - destruct (Hf x (or_introl eq_refl)) as [F I].
      destruct (Hx F) as [K1 O]; [|exact Hk|].
      { intros fr' rs' t j full _ Hv. cbn in Hv. congruence. }
      destruct (IH (fun y Hy => Hf y (or_intror Hy)) K1) as [L _].
      unfold outcome in O. rewrite I in O. destruct O as (n' & -> & _ & HN). cbn [spliced app List.length].
      split; [f_equal; exact L|]. intros t E. injection E as -> ->.
      destruct l; [|discriminate L]. destruct (HN t eq_refl) as (j & -> & Ht). f_equal. f_equal. apply Ht.
      split; [reflexivity|]. exists fr, rs, fs. auto.
  Qed.

  Lemma assign_target_kind n t : assign_target n = Some t -> exists fs, n = Other "Assign" fs.
  Proof.
    destruct n as [| | | | |k fs]; try discriminate. intros A. exists fs. f_equal.
    cbn [assign_target] in A.
    repeat (destruct k as [|[[] [] [] [] [] [] [] []] k]; try discriminate A). reflexivity.
  Qed.
  Lemma assign_target_other k fs : k <> "Assign" -> assign_target (Other k fs) = None.
  Proof.
    intros N. destruct (assign_target (Other k fs)) as [t|] eqn:A; [|reflexivity]. exfalso.
    destruct (assign_target_kind _ _ A) as [fs' E]. congruence.
  Qed.

  (** Fields *)
  Lemma in_fields_rw k p st done todo u fs' u' : in_fields P k p st done todo u fs' u' -> k <> "Assign" ->
    (forall nm c, In (One nm c) todo -> fit c /\ is_import c = false) ->
    (forall nm l x, In (Many nm l) todo -> In x l -> fit x) ->
    known u -> known u' /\ exists new, fs' = (done ++ new)%list /\ rwfs todo new.
  Proof.
    intros H Hk. induction H as [done u|done nm x todo u fs u' H IH|done nm c todo u v u1 fs u' Hc H IH|done nm l todo u l' u1 fs u' Hl H IH];
      intros H1 H2 Ku.
    - split; [exact Ku|]. exists []. rewrite app_nil_r. split; [reflexivity|constructor].
    - destruct IH as [K' (new & -> & R)]; [intros; eapply H1; right; eassumption|intros; eapply H2; [right|]; eassumption|exact Ku|].
      split; [exact K'|]. exists (Data nm x :: new). rewrite <- app_assoc. split; [reflexivity|constructor; exact R].
    - destruct (H1 nm c (or_introl eq_refl)) as [F I]. destruct (Hc F) as [K1 O]; [|exact Ku|].
      { intros fr rs t i full E _ A. injection E as <- <-. cbn [e_node] in A.
        rewrite (assign_target_other _ _ Hk) in A. discriminate A. }
      unfold outcome in O. rewrite I in O. destruct O as (n' & -> & Hrw & _). cbn [set_field] in *.
      destruct IH as [K' (new & -> & R)]; [intros; eapply H1; right; eassumption|intros; eapply H2; [right|]; eassumption|exact K1|].
      split; [exact K'|]. exists (One nm n' :: new). rewrite <- app_assoc. split; [reflexivity|constructor; assumption].
    - destruct (in_list_rws _ _ _ _ _ _ _ Hl) as [K1 R1].
      { intros x Hx. exact (H2 nm l x (or_introl eq_refl) Hx). }
      { intros fr rs E _. injection E as <- <-. cbn [e_node]. apply assign_target_other, Hk. }
      { exact Ku. }
      destruct IH as [K' (new & -> & R)]; [intros; eapply H1; right; eassumption|intros; eapply H2; [right|]; eassumption|exact K1|].
      split; [exact K'|]. exists (Many nm l' :: new). rewrite <- app_assoc. split; [reflexivity|constructor; assumption].
  Qed.

  Definition same_class (n n' : node) : Prop :=
    match n, n' with
    | Name i, Name j => i = j
    | Attribute _ a, Attribute _ b => a = b
    | Call _ _ _, Call _ _ _ => True
    | Other k _, Other k' _ => k = k'
    | _, _ => False
    end.
  Lemma generic_rw p st n u n' u' : generic P p st n u n' u' -> is_import n = false -> fit n -> known u ->
    known u' /\ rw n n' /\ same_class n n'.
  Proof.
    intros G I F Ku. pose proof F as (Gr & _ & _). specialize (Gr n (self_in n)).
    destruct G as [i u|l u|m l i u|v a u r u1 Hv|f a k u r u1 a' u2 k' u3 Hf Ha Hk|k fs u fs' u' Hfs]; try discriminate I.
    - split; [exact Ku|]. split; [constructor|]. reflexivity.
    - cbn [local_ok] in Gr. assert (Iv : is_import v = false).
      { destruct v; try reflexivity; discriminate Gr. }
      destruct Hv as [K1 O]; [apply (fit_child _ _ F); left; reflexivity| |exact Ku|].
      { intros fr rs t i full E _ A. injection E as <- <-. discriminate A. }
      unfold outcome in O. rewrite Iv in O. destruct O as (v' & -> & Hrw & _). cbn [attr_of kind_of].
      split; [exact K1|]. split; [constructor; exact Hrw|]. reflexivity.
    - cbn [local_ok] in Gr.
      destruct Hf as [K1 O]; [apply (fit_child _ _ F); left; reflexivity| |exact Ku|].
      { intros fr rs t i full E Hv. discriminate Hv. }
      unfold outcome in O. rewrite (Gr f (or_introl eq_refl)) in O. destruct O as (f' & -> & Hrw & _). cbn [call_of] in *.
      destruct (in_list_rws _ _ _ _ _ _ _ Ha) as [K2 Ra].
      { intros x Hx. apply (fit_child _ _ F). right. apply in_or_app. auto. }
      { intros fr rs E Hv. discriminate Hv. }
      { exact K1. }
      destruct (in_list_rws _ _ _ _ _ _ _ Hk) as [K3 Rk].
      { intros x Hx. apply (fit_child _ _ F). right. apply in_or_app. auto. }
      { intros fr rs E Hv. discriminate Hv. }
      { exact K2. }
      split; [exact K3|]. split; [constructor; assumption|]. constructor.
    - cbn [local_ok] in Gr. destruct Gr as (G1 & G2 & G3).
      assert (C1 : forall nm c, In (One nm c) fs -> fit c /\ is_import c = false).
      { intros nm c Hc. split; [|exact (G1 nm c Hc)]. apply (fit_child _ _ F). cbn [children]. apply in_flat_map.
        exists (One nm c). split; [exact Hc|left; reflexivity]. }
      assert (C2 : forall nm l x, In (Many nm l) fs -> In x l -> fit x).
      { intros nm l x Hl Hx. apply (fit_child _ _ F). cbn [children]. apply in_flat_map.
        exists (Many nm l). split; [exact Hl|exact Hx]. }
      destruct (String.eqb_spec k "Assign") as [->|N].
      + destruct (G3 eq_refl) as (ts & v & txt & ->).
        assert (It : forall x, In x ts -> fit x /\ is_import x = false).
        { intros x Hx. split; [exact (C2 "targets" ts x (or_introl eq_refl) Hx)|].
          destruct (is_import x) eqn:Ix; [|reflexivity]. exfalso.
          pose proof (G2 "targets" ts x (or_introl eq_refl) Hx Ix) as B. cbn in B. intuition discriminate. }
        inversion Hfs as [| | |d nm l td w l' u1 fs0 u0 Hl Hr]; subst.
        pose proof (in_list_targets _ _ _ _ _ _ _ _ Hl eq_refl It Ku) as [_ Ht].
        destruct (in_list_rws _ _ _ _ _ _ _ Hl (fun x Hx => proj1 (It x Hx))) as [K1 R1].
        { intros fr rs E Hv. discriminate Hv. }
        { exact Ku. }
        cbn [app] in Hr.
        inversion Hr as [| |d nm c td w vv u2 fs0 u0 Hc Hr2|]; subst.
        destruct (C1 "value" v (or_intror (or_introl eq_refl))) as [Fv Iv].
        destruct (Hc Fv) as [K2 O]; [|exact K1|].
        { intros fr rs t i full E _ A -> Hi. injection E as <- <-. cbn [e_node app] in A.
          cbn in A. destruct l' as [|x [|y l']]; cbn in A; try discriminate A.
          - destruct x; try discriminate A. injection A as ->. rewrite (Ht t eq_refl) in F.
            destruct F as (_ & _ & Cp). apply (Cp t i txt full); [left; reflexivity|exact Hi].
          - destruct x; discriminate A. }
        unfold outcome in O. rewrite Iv in O. destruct O as (v' & -> & Hrw & _). cbn [set_field app] in Hr2.
        inversion Hr2 as [|d nm x td w fs0 u0 Hr3| |]; subst. cbn [app] in Hr3.
        inversion Hr3; subst.
        split; [assumption|]. split; [repeat constructor; assumption|]. reflexivity.
      + destruct (in_fields_rw _ _ _ _ _ _ _ _ Hfs N C1 C2 Ku) as [K1 (new & -> & R)]. cbn [app].
        split; [exact K1|]. split; [constructor; exact R|]. reflexivity.
  Qed.

  (** Attributes *)
  Lemma finish_attribute_rw n n' v a u r u' : n' = Attribute v a -> rw n n' -> known u ->
    finish_attribute e n' u = Ok (r, u') ->
    known u' /\ exists m, r = VNode m /\ rw n m /\ (forall t, m <> Name t).
  Proof.
    intros En Hrw Ku E. unfold finish_attribute in E.
    destruct (get_torch_api n' u) as [[api|]|] eqn:G; [| |discriminate]; cbn [bind] in E.
    - destruct (get_torch_api_spec K HNone _ _ _ Ku G) as (first & rest & full & D & Fc & Hk & ->).
      assert (Keep : rw n n' /\ forall t, n' <> Name t) by (split; [exact Hrw|rewrite En; discriminate]).
      destruct (String.eqb (full ++ rest) "").
      + injection E as <- <-. split; [exact Ku|]. exists n'. tauto.
      + injection E as E. destruct (emit_spec e K _ _ _ _ _ E) as [[->| ->] Hk2]; (split; [exact (Hk2 Ku)|]).
        * exists n'. tauto.
        * exists (parse_dotted (canonical (full ++ rest))). split; [reflexivity|].
          split; [eapply rw_expand; eassumption|].
          assert (exists b, rest = String "."%char b) as [b ->]; [|apply canonical_not_name].
          destruct (first_component_prefix (first ++ rest)) as (rest' & Er & [->|(b & ->)]).
          -- exfalso. rewrite Fc, app_nil_r_s in Er. rewrite Er in D, Fc. subst n'. cbn [dotted] in D.
             destruct (dotted v) as [tv|]; [|discriminate].
             assert (D' : tv ++ String "."%char a = first) by (injection D as D; exact D).
             apply (first_component_not_all tv a). rewrite D'. exact Fc.
          -- rewrite Fc in Er. exists b. exact (app_inj_l _ _ _ Er).
    - injection E as <- <-. split; [exact Ku|]. exists n'. split; [reflexivity|]. split; [exact Hrw|]. subst. discriminate.
  Qed.

  (** Names *)
  Lemma visit_name_rw id p st u r u' : no_char "."%char id -> copy_ok (Name id) p st -> known u ->
    visit_name e id (MkFrame (Name id) p :: st) u = Ok (r, u') ->
    known u' /\ exists m, r = VNode m /\ rw (Name id) m /\
      (forall t, m = Name t -> at_target p st -> id = t).
  Proof.
    intros Nd Hc Ku E. unfold visit_name in E.
    destruct (name_position id (MkFrame (Name id) p :: st) u) as [w|] eqn:N; [|discriminate]. cbn [bind] in E.
    assert (T : at_target p st -> w = inr (false, false)).
    { intros (Hf & fr & rs & fs & -> & Efr). unfold name_position in N. cbn [parent bind e_pos] in N. rewrite Efr in N.
      cbn [kind_of] in N. unfold field_is in N. rewrite Hf in N. cbn in N.
      destruct rs; injection N as <-; reflexivity. }
    assert (Keep : r = VNode (Name id) /\ u' = u -> known u' /\ exists m, r = VNode m /\ rw (Name id) m /\
              (forall t, m = Name t -> at_target p st -> id = t)).
    { intros [-> ->]. split; [exact Ku|]. exists (Name id). split; [reflexivity|]. split; [constructor|].
      intros t H. injection H as ->. reflexivity. }
    assert (Exp : forall full s, K id full -> known s -> emit e full (Name id) s = (r, u') -> (~ at_target p st) ->
              known u' /\ exists m, r = VNode m /\ rw (Name id) m /\ (forall t, m = Name t -> at_target p st -> id = t)).
    { intros full s Hk Ks Em Nt. destruct (emit_spec e K _ _ _ _ _ Em) as [[->| ->] H]; (split; [exact (H Ks)|]).
      - exists (Name id). split; [reflexivity|]. split; [constructor|]. intros t _ A. contradiction.
      - exists (parse_dotted (canonical full)). split; [reflexivity|]. split; [|intros t _ A; contradiction].
        rewrite <- (app_nil_r_s full) at 1. apply (rw_expand e K (Name id) (Name id) id "" full).
        + constructor.
        + rewrite app_nil_r_s. reflexivity.
        + rewrite app_nil_r_s. apply first_component_nodot, Nd.
        + exact Hk. }
    destruct w as [api|[[] assigned]].
    - injection E as E. apply (Exp api u); [|exact Ku|exact E|].
      + unfold name_position in N. destruct (parent (MkFrame (Name id) p :: st)) as [q|]; [|discriminate]. cbn [bind] in N.
        destruct (mem_str (kind_of q) _); [discriminate|]. cbv zeta in N.
        destruct q as [i|v a|f a k|l|m l lv|k fs]; try discriminate;
          try (repeat match type of N with context [if ?b then _ else _] => destruct b; try discriminate end; fail).
        destruct f; try discriminate. destruct (dget String.eqb id (name_aliases u)) as [x|] eqn:D; [|discriminate].
        injection N as ->. apply Ku, D.
      + intros A. discriminate (T A).
    - destruct (get_torch_api (Name id) u) as [[api|]|] eqn:G; [| |discriminate]; cbn [bind] in E.
      + destruct (get_torch_api_spec K HNone _ _ _ Ku G) as (first & rest & full & D & Fc & Hk & ->).
        cbn [dotted] in D. assert (first = id /\ rest = "") as [-> ->].
        { injection D as D. rewrite <- D in Fc. rewrite first_component_nodot in Fc by exact Nd. subst first.
          split; [reflexivity|]. apply (app_inj_l id). rewrite <- D at 1. rewrite app_nil_r_s. reflexivity. }
        rewrite app_nil_r_s in E. destruct (String.eqb full ""); [apply Keep; injection E as <- <-; auto|].
        destruct st as [|fr rs]; [discriminate|]. cbn [parent bind] in E. injection E as E.
        eapply (Exp full); [exact Hk| |exact E|intros A; discriminate (T A)].
        destruct assigned; [|exact Ku].
        destruct (assign_target (e_node fr)) as [t|] eqn:A; [|exact Ku].
        destruct Ku as [Ku1 Ku2]. split; [exact Ku1|]. cbn [name_aliases with_alias].
        assert (Hv : p_field p = "value").
        { destruct (assign_target_kind _ _ A) as [fs Ek]. unfold name_position in N. cbn [parent bind] in N.
          rewrite Ek in N. cbn [kind_of e_pos] in N. cbv zeta in N. unfold field_is in N.
          destruct (String.eqb "value" (p_field p)) eqn:Fv; [apply String.eqb_eq in Fv; auto|].
          exfalso. cbn in N. rewrite ?Fv in N. destruct rs as [|g rs]; cbn in N; discriminate N. }
        intros y f Dy. destruct (String.eqb_spec y t) as [->|Ny].
        * rewrite (dget_set_same _ String.eqb_spec) in Dy. injection Dy as <-.
          exact (Hc fr rs t id full eq_refl Hv A eq_refl Hk).
        * rewrite (dget_set_other _ String.eqb_spec) in Dy by exact Ny. auto.
      + apply Keep. injection E as <- <-. auto.
    - apply Keep. injection E as <- <-. auto.
  Qed.

  Lemma main n p st u r st' u' : visit import_pre (import_post e) n p (st, u) = Ok (r, (st', u')) ->
    st' = st /\ P n p st u r u'.
  Proof.
    apply (visit_sound import_pre (import_post e) P). clear n p st u r st' u'.
    intros n p st u go u1 n' u2 r u3 E1 G E2 F Hc Ku. unfold outcome.
    destruct (is_import n) eqn:I.
    - assert (go = false /\ u1 = u) as [-> ->] by (destruct n; try discriminate I; injection E1 as <- <-; auto).
      destruct G as [-> ->]. destruct (import_stmt_spec e K _ _ _ _ _ I E2) as [R Hk]. split; [|exact R].
      apply Hk; [|exact Ku]. intros x full Hb. destruct F as (_ & B & _). apply (B n x full); [|exact Hb].
      unfold imports_of. apply filter_In. split; [apply self_in|exact I].
    - assert (Hgo : u1 = u /\ (go = false -> exists v a, n = Attribute v a)).
      { destruct n; injection E1 as <- <-; split; auto; intros; eauto; discriminate. }
      destruct Hgo as [-> Hgo]. pose proof F as (Gr & _ & _). specialize (Gr n (self_in n)).
      assert (G' : known u2 /\ rw n n' /\ same_class n n').
      { destruct go; [exact (generic_rw _ _ _ _ _ _ G I F Ku)|]. destruct G as [-> ->].
        destruct (Hgo eq_refl) as (v & a & ->). split; [exact Ku|]. cbn [local_ok] in Gr.
        split; [constructor; apply rw_refl, Gr|]. reflexivity. }
      destruct G' as (K2 & Hrw & Hk).
      destruct n as [i|v a|f a k|l|m l lv|k fs]; try discriminate I; destruct n' as [i'|v' a'|f' a' k'|l'|m' l' lv'|k' fs'];
        try contradiction Hk; cbn [import_post] in E2.
      + cbn in Hk. subst i'. cbn [local_ok] in Gr. destruct Gr as [Gr _]. apply no_char_mem in Gr.
        destruct (visit_name_rw i p st u2 r u3 Gr Hc K2 E2) as [K3 (m & -> & Hm & Ht)]. split; [exact K3|].
        exists m. split; [reflexivity|]. split; [exact Hm|]. intros t Et. exists i. split; [reflexivity|]. intros A. exact (Ht t Et A).
      + destruct (finish_attribute_rw _ _ v' a' _ _ _ eq_refl Hrw K2 E2) as [K3 (m & -> & Hm & Ht)]. split; [exact K3|].
        exists m. split; [reflexivity|]. split; [exact Hm|]. intros t Et. exfalso. exact (Ht t Et).
      + injection E2 as <- <-. split; [exact K2|]. eexists. split; [reflexivity|]. split; [exact Hrw|]. intros; discriminate.
      + injection E2 as <- <-. split; [exact K2|]. eexists. split; [reflexivity|]. split; [exact Hrw|]. intros; discriminate.
  Qed.
End Main.

(** ** Consequences of the relation *)
Lemma filter_flat_map {A B} (p : B -> bool) (f : A -> list B) l :
  filter p (flat_map f l) = flat_map (fun x => filter p (f x)) l.
Proof. induction l as [|x l IH]; [reflexivity|]. cbn [flat_map]. rewrite filter_app, IH. reflexivity. Qed.
Lemma imports_of_children n :
  imports_of n = ((if is_import n then [n] else []) ++ flat_map imports_of (children n))%list.
Proof.
  unfold imports_of. rewrite nodes_children. cbn [filter]. rewrite filter_flat_map.
  destruct (is_import n); reflexivity.
Qed.
Lemma imports_of_fold_attr l : forall n, imports_of (fold_left Attribute l n) = imports_of n.
Proof.
  induction l as [|a l IH]; intros n; [reflexivity|]. cbn [fold_left]. rewrite IH, imports_of_children.
  cbn [is_import children flat_map app]. apply app_nil_r.
Qed.
Lemma imports_of_dotted s : imports_of (parse_dotted s) = [].
Proof.
  unfold parse_dotted. destruct (split_on "."%char s); [reflexivity|]. rewrite imports_of_fold_attr. reflexivity.
Qed.
Lemma dotted_no_imports m t : dotted m = Some t -> imports_of m = [].
Proof.
  revert t. induction m as [i|v a IH|f aa k Hf Ha Hk|l|m l lv|k fs Hfs] using node_ind2; intros t H; try discriminate H.
  - reflexivity.
  - cbn [dotted] in H. destruct (dotted v) as [u|]; [|discriminate]. rewrite imports_of_children.
    cbn [is_import children flat_map app]. rewrite (IH u eq_refl). reflexivity.
Qed.
Lemma rewritten_import e x i : is_import x = true -> In i (rewritten e x) -> is_import i = true.
Proof.
  intros I H. destruct x as [| | |names|m names lv|]; try discriminate I; cbn [rewritten] in H.
  - destruct (flat_map _ _); [contradiction|]. destruct H as [<-|[]]. reflexivity.
  - destruct (from_module e m lv) as [[[m' lv']|]|]; [|destruct H as [<-|[]]; reflexivity..].
    destruct (torch_module m'); [destruct (min_mode e); [|contradiction]|destruct (renames m')];
      destruct H as [<-|[]]; reflexivity.
Qed.
Lemma imports_of_imports l : (forall i, In i l -> is_import i = true) -> flat_map imports_of l = l.
Proof.
  induction l as [|i l IH]; intros H; [reflexivity|]. cbn [flat_map]. rewrite IH by (intros j Hj; apply H; right; exact Hj).
  pose proof (H i (or_introl eq_refl)) as Hi. destruct i; try discriminate Hi; reflexivity.
Qed.

Definition field_nodes (f : field) : list node := match f with One _ c => [c] | Many _ l => l | Data _ _ => [] end.
Lemma dotted_not_import s : is_import (parse_dotted s) = false.
Proof.
  unfold parse_dotted. destruct (split_on "."%char s) as [|x l]; [reflexivity|].
  assert (H : forall l n, is_import n = false -> is_import (fold_left Attribute l n) = false).
  { clear. induction l as [|a l IH]; intros n H; [exact H|]. cbn [fold_left]. apply IH. reflexivity. }
  apply H. reflexivity.
Qed.
Lemma children_fields k fs : children (Other k fs) = flat_map field_nodes fs.
Proof. reflexivity. Qed.
Lemma flat_map_concat_app {A B} (f : A -> list B) l l' : flat_map f (l ++ l') = (flat_map f l ++ flat_map f l')%list.
Proof. apply flat_map_app. Qed.
Lemma rw_imports e K :
  (forall n m, rw e K n m -> is_import n = false /\ is_import m = false /\
     imports_of m = flat_map (rewritten e) (imports_of n)) /\
  (forall l l', rws e K l l' -> flat_map imports_of l' = flat_map (rewritten e) (flat_map imports_of l)) /\
  (forall fs fs', rwfs e K fs fs' ->
     flat_map imports_of (flat_map field_nodes fs') =
     flat_map (rewritten e) (flat_map imports_of (flat_map field_nodes fs))).
Proof.
  apply (rw_mutind e K
    (fun n m => is_import n = false /\ is_import m = false /\ imports_of m = flat_map (rewritten e) (imports_of n))
    (fun l l' => flat_map imports_of l' = flat_map (rewritten e) (flat_map imports_of l))
    (fun fs fs' => flat_map imports_of (flat_map field_nodes fs') =
       flat_map (rewritten e) (flat_map imports_of (flat_map field_nodes fs)))).
  - intros i. repeat split.
  - intros v v' a _ (_ & _ & IH). split; [reflexivity|]. split; [reflexivity|].
    rewrite (imports_of_children (Attribute v a)), (imports_of_children (Attribute v' a)).
    cbn [is_import children flat_map app]. rewrite !app_nil_r. exact IH.
  - intros f f' a a' k k' _ (_ & _ & Hf) _ Ha _ Hk. split; [reflexivity|]. split; [reflexivity|].
    rewrite (imports_of_children (Call f a k)), (imports_of_children (Call f' a' k')).
    cbn [is_import children flat_map app]. rewrite !flat_map_app, Hf, Ha, Hk. reflexivity.
  - intros k fs fs' _ IH. split; [reflexivity|]. split; [reflexivity|].
    rewrite (imports_of_children (Other k fs)), (imports_of_children (Other k fs')).
    cbn [is_import app]. rewrite !children_fields. exact IH.
  - intros n m first rest full _ (I1 & I2 & IH) D _ _. split; [exact I1|]. split; [apply dotted_not_import|].
    rewrite imports_of_dotted. rewrite (dotted_no_imports _ _ D) in IH. exact IH.
  - reflexivity.
  - intros x x' l l' _ _ (_ & _ & Hx) _ Hl. cbn [flat_map]. rewrite flat_map_app, Hx, Hl. reflexivity.
  - intros x new l l' I R _ Hl. cbn [flat_map]. rewrite !flat_map_app, Hl. f_equal.
    assert (imports_of x = [x]) as -> by (destruct x; try discriminate I; reflexivity).
    cbn [flat_map]. rewrite app_nil_r. destruct R as [->|[E ->]].
    + apply imports_of_imports. intros i. apply rewritten_import, I.
    + rewrite E. reflexivity.
  - reflexivity.
  - intros nm c c' fs fs' _ (_ & _ & Hc) _ Hfs. cbn [flat_map field_nodes app]. rewrite flat_map_app, Hc, Hfs. reflexivity.
  - intros nm l l' fs fs' _ Hl _ Hfs. cbn [flat_map field_nodes]. rewrite !flat_map_app, Hl, Hfs. reflexivity.
  - intros nm x fs fs' _ Hfs. exact Hfs.
Qed.

(** Identity when nothing is known and no import changes. *)
Lemma rw_id e :
  (forall n m, rw e (fun _ _ => False) n m -> (forall i, In i (imports_of n) -> rewritten e i = [i]) -> m = n) /\
  (forall l l', rws e (fun _ _ => False) l l' -> (forall i, In i (flat_map imports_of l) -> rewritten e i = [i]) -> l' = l) /\
  (forall fs fs', rwfs e (fun _ _ => False) fs fs' ->
     (forall i, In i (flat_map imports_of (flat_map field_nodes fs)) -> rewritten e i = [i]) -> fs' = fs).
Proof.
  apply (rw_mutind e (fun _ _ => False)
    (fun n m => (forall i, In i (imports_of n) -> rewritten e i = [i]) -> m = n)
    (fun l l' => (forall i, In i (flat_map imports_of l) -> rewritten e i = [i]) -> l' = l)
    (fun fs fs' => (forall i, In i (flat_map imports_of (flat_map field_nodes fs)) -> rewritten e i = [i]) -> fs' = fs)).
  - reflexivity.
  - intros v v' a _ IH H. f_equal. apply IH. intros i Hi. apply H. eapply imports_child; [left; reflexivity|exact Hi].
  - intros f f' a a' k k' _ Hf _ Ha _ Hk H.
    assert (C : forall c i, In c (f :: a ++ k) -> In i (imports_of c) -> rewritten e i = [i]).
    { intros c i Hc Hi. apply H. eapply imports_child; [exact Hc|exact Hi]. }
    f_equal.
    + apply Hf. intros i. apply C. left. reflexivity.
    + apply Ha. intros i Hi. apply in_flat_map in Hi as (c & Hc & Hi). apply (C c i); [|exact Hi]. right. apply in_or_app. auto.
    + apply Hk. intros i Hi. apply in_flat_map in Hi as (c & Hc & Hi). apply (C c i); [|exact Hi]. right. apply in_or_app. auto.
  - intros k fs fs' _ IH H. f_equal. apply IH. intros i Hi. apply H. rewrite imports_of_children. exact Hi.
  - intros n m first rest full _ _ _ _ [].
  - reflexivity.
  - intros x x' l l' _ _ Hx _ Hl H. cbn [flat_map] in H. f_equal; [apply Hx|apply Hl]; intros i Hi; apply H, in_or_app; auto.
  - intros x new l l' I R _ Hl H. cbn [flat_map] in H.
    assert (Ex : imports_of x = [x]) by (destruct x; try discriminate I; reflexivity). rewrite Ex in H.
    pose proof (H x (or_introl eq_refl)) as Hx.
    assert (Hl' : l' = l) by (apply Hl; intros i Hi; apply H; right; exact Hi). subst l'.
    destruct R as [->|[E _]]; [rewrite Hx; reflexivity|]. rewrite Hx in E. discriminate E.
  - reflexivity.
  - intros nm c c' fs fs' _ Hc _ Hfs H. cbn [flat_map field_nodes app] in H. f_equal; [f_equal; apply Hc|apply Hfs];
      intros i Hi; apply H; apply in_or_app; auto.
  - intros nm l l' fs fs' _ Hl _ Hfs H. cbn [flat_map field_nodes] in H. rewrite flat_map_app in H.
    f_equal; [f_equal; apply Hl|apply Hfs]; intros i Hi; apply H; apply in_or_app; auto.
  - intros nm x fs fs' _ Hfs H. f_equal. apply Hfs, H.
Qed.

Lemma import_visit_rw e K root v st s :
  is_import root = false -> grammatical root -> knows e K root ->
  import_visit e root = Ok (v, (st, s)) ->
  st = [] /\ exists n', v = VNode n' /\ rw e K root n' /\ known K s.
Proof.
  intros I G (K1 & K2 & K3) E. unfold import_visit in E. apply (main e K K3) in E as [-> H]. split; [reflexivity|].
  destruct H as [Ks O].
  - repeat split; assumption.
  - intros fr rest t i full Hs. discriminate Hs.
  - split; intros x full D; discriminate D.
  - unfold outcome in O. rewrite I in O. destruct O as (n' & -> & R & _). eauto.
Qed.

(** ** What the import statements of a tree add up to *)
Section Gather.
  Variable e : env.
  Context {A : Type}.
  Variable collect : node -> list A.
  Variable rel : ist -> ist -> list A -> Prop.
  Hypothesis rel_refl : forall u, rel u u [].
  Hypothesis rel_app : forall u v w l m, rel u v l -> rel v w m -> rel u w (l ++ m).
  Hypothesis Hcollect : forall n, is_import n = false -> collect n = [].
  Hypothesis Hpost : forall n st s r s', import_post e n st s = Ok (r, s') -> rel s s' (collect n).

  Definition P2 (n : node) (p : pos) (st : list frame) (u : ist) (r : visited) (u' : ist) : Prop :=
    grammatical n -> rel u u' (flat_map collect (imports_of n)).
  Lemma grammatical_child n c : grammatical n -> In c (children n) -> grammatical c.
  Proof. intros G I m Hm. apply G. eapply child_nodes; eassumption. Qed.
  Lemma in_list_rel nm st i l u l' u' : in_list P2 nm st i l u l' u' -> (forall x, In x l -> grammatical x) ->
    rel u u' (flat_map collect (flat_map imports_of l)).
  Proof.
    induction 1 as [i u|i x l u r u1 rest u2 Hx Hl IH]; intros G; [apply rel_refl|].
    cbn [flat_map]. rewrite flat_map_app. eapply rel_app; [apply Hx, G; left; reflexivity|].
    apply IH. intros y Hy. apply G. right. exact Hy.
  Qed.
  Lemma in_fields_rel k p st done todo u fs' u' : in_fields P2 k p st done todo u fs' u' ->
    (forall x, In x (flat_map field_nodes todo) -> grammatical x) ->
    rel u u' (flat_map collect (flat_map imports_of (flat_map field_nodes todo))).
  Proof.
    induction 1 as [done u|done nm x todo u fs u' H IH|done nm c todo u v u1 fs u' Hc H IH|done nm l todo u l' u1 fs u' Hl H IH];
      intros G.
    - apply rel_refl.
    - apply IH. exact G.
    - cbn [flat_map field_nodes app] in *. rewrite flat_map_app. eapply rel_app; [apply Hc, G; left; reflexivity|].
      apply IH. intros y Hy. apply G. right. exact Hy.
    - cbn [flat_map field_nodes] in *. rewrite !flat_map_app. eapply rel_app; [apply (in_list_rel _ _ _ _ _ _ _ Hl)|apply IH];
        intros y Hy; apply G, in_or_app; auto.
  Qed.
  Lemma gather_main n p st u r st' u' : visit import_pre (import_post e) n p (st, u) = Ok (r, (st', u')) ->
    st' = st /\ P2 n p st u r u'.
  Proof.
    apply (visit_sound import_pre (import_post e) P2). clear n p st u r st' u'.
    intros n p st u go u1 n' u2 r u3 E1 G E2 F.
    assert (u1 = u) as -> by (destruct n; injection E1 as <- <-; reflexivity).
    apply Hpost in E2.
    destruct (is_import n) eqn:I.
    - assert (go = false) as -> by (destruct n; try discriminate I; injection E1 as <-; reflexivity).
      destruct G as [-> ->]. assert (imports_of n = [n]) as -> by (destruct n; try discriminate I; reflexivity).
      cbn [flat_map]. rewrite app_nil_r. exact E2.
    - assert (N' : collect n' = []).
      { destruct go.
        - apply Hcollect. destruct G as [| | |? ? ? r0|? ? ? ? r0| ]; try discriminate I; try reflexivity; destruct r0; reflexivity.
        - destruct G as [-> _]. apply Hcollect, I. }
      rewrite N' in E2. rewrite <- (app_nil_r (flat_map _ _)). eapply rel_app; [|exact E2]. clear E2 N' r u3.
      pose proof (fun c => grammatical_child n c F) as Gc.
      rewrite imports_of_children, I. cbn [app].
      destruct go.
      + destruct G as [i u|l u|m l i u|v a u r u1 Hv|f a k u r u1 a' u2 k' u3 Hf Ha Hk|k fs u fs' u' Hfs]; try discriminate I.
        * apply rel_refl.
        * cbn [children flat_map]. rewrite app_nil_r. apply Hv, Gc. left. reflexivity.
        * cbn [children flat_map]. rewrite flat_map_app, !flat_map_app. eapply rel_app; [apply Hf, Gc; left; reflexivity|].
          eapply rel_app; [apply (in_list_rel _ _ _ _ _ _ _ Ha)|apply (in_list_rel _ _ _ _ _ _ _ Hk)];
            intros x Hx; apply Gc; right; apply in_or_app; auto.
        * rewrite children_fields in *. apply (in_fields_rel _ _ _ _ _ _ _ _ Hfs). exact Gc.
      + destruct G as [-> ->]. assert (exists v a, n = Attribute v a) as (v & a & ->).
        { destruct n; try discriminate I; try discriminate E1; eauto. }
        pose proof (F _ (self_in _)) as L. cbn [local_ok] in L. cbn [children flat_map]. rewrite L.
        apply rel_refl.
  Qed.
End Gather.

(** ** Packages *)
Section Packages.
  Variable e : env.
  Definition gains (u u' : ist) (l : list string) : Prop :=
    (forall p, In p (torch_packages u') <-> In p (torch_packages u) \/ (In p l /\ ~ In p may_torch_package_list)) /\
    (forall p, In p (may_packages u') <-> In p (may_packages u) \/ (In p l /\ In p may_torch_package_list)).
  Lemma gains_nil u u' : torch_packages u' = torch_packages u -> may_packages u' = may_packages u -> gains u u' [].
  Proof. intros H1 H2. split; intros p; rewrite ?H1, ?H2; cbn [In]; tauto. Qed.
  Lemma gains_app u v w l m : gains u v l -> gains v w m -> gains u w (l ++ m).
  Proof.
    intros [A1 A2] [B1 B2]. split; intros p.
    - rewrite B1, A1, in_app_iff. tauto.
    - rewrite B2, A2, in_app_iff. tauto.
  Qed.
  Lemma set_add_In x y l : In y (set_add x l) <-> y = x \/ In y l.
  Proof.
    unfold set_add. destruct (mem_str x l) eqn:M.
    - apply PyStrFacts.mem_str_In in M. split; [tauto|]. intros [->|H]; assumption.
    - rewrite in_app_iff. cbn [In]. intuition auto.
  Qed.
  Lemma gains_note pkg u : gains u (note_package pkg u) [pkg].
  Proof.
    unfold note_package. destruct (mem_str pkg may_torch_package_list) eqn:M.
    - apply PyStrFacts.mem_str_In in M. split; intros p; cbn [torch_packages may_packages with_may].
      + cbn [In]. intuition (subst; tauto).
      + rewrite set_add_In. cbn [In]. intuition (subst; tauto).
    - apply PyStrFacts.mem_str_false in M. split; intros p; cbn [torch_packages may_packages with_torch].
      + rewrite set_add_In. cbn [In]. intuition (subst; tauto).
      + cbn [In]. intuition (subst; tauto).
  Qed.
  Lemma gains_eq u u' v l : gains u u' l -> torch_packages v = torch_packages u' -> may_packages v = may_packages u' -> gains u v l.
  Proof. intros [H1 H2] E1 E2. split; intros p; rewrite ?E1, ?E2; auto. Qed.
  Lemma record_packages x f s s' : record_import x f s = Ok s' ->
    torch_packages s' = torch_packages s /\ may_packages s' = may_packages s.
  Proof. unfold record_import. destruct (mem_str x bookkeeping); intros E; [discriminate|]. injection E as <-. auto. Qed.

  Lemma import_names_gains l : forall s l' s', import_names e l s = Ok (l', s') -> gains s s' (packages_used e (Import l)).
  Proof.
    induction l as [|a r IH]; intros s l' s' E; cbn [import_names] in E.
    - injection E as <- <-. apply gains_nil; reflexivity.
    - cbn [packages_used upto_local]. destruct (is_local e (al_name a)) eqn:L.
      + injection E as <- <-. cbn [flat_map]. rewrite L. apply gains_nil; reflexivity.
      + rewrite torch_package_spec in E. cbn [flat_map]. rewrite L. cbn [negb andb].
        destruct (torch_module (al_name a)) eqn:T.
        * destruct (record_import _ _ _) as [s1|] eqn:R; [|discriminate]. cbn [bind] in E.
          destruct (import_names e r s1) as [[rest s2]|] eqn:N; [|discriminate]. cbn [bind] in E. injection E as <- <-.
          apply (gains_app s s1).
          -- destruct (record_packages _ _ _ _ R) as [E1 E2]. eapply gains_eq; [apply gains_note|exact E1|exact E2].
          -- exact (IH _ _ _ N).
        * rewrite renamed_package_spec in E. destruct (renames (al_name a)).
          -- destruct (import_names e r s) as [[rest s2]|] eqn:N; [|discriminate]. cbn [bind] in E. injection E as <- <-.
             exact (IH _ _ _ N).
          -- destruct (import_names e r _) as [[rest s2]|] eqn:N; [|discriminate]. cbn [bind] in E. injection E as <- <-.
             exact (IH _ _ _ N).
  Qed.
  Lemma remove_packages st s r s' : remove_import st s = Ok (r, s') ->
    torch_packages s' = torch_packages s /\ may_packages s' = may_packages s.
  Proof.
    unfold remove_import. destruct (parent st); [|discriminate]. cbn [bind]. destruct (_ && _); intros E; injection E as <- <-; auto.
  Qed.
  Lemma note_others_packages l : forall s, torch_packages (note_others l s) = torch_packages s /\
    may_packages (note_others l s) = may_packages s.
  Proof.
    unfold note_others. induction l as [|a l IH]; intros s; [auto|]. cbn [fold_left].
    destruct (al_asname a); [apply (IH (with_other s s0))|].
    destruct (String.eqb (al_name a) "*"); [apply IH|apply (IH (with_other s (al_name a)))].
  Qed.
  Lemma record_from_packages m l : forall s s', record_from m l s = Ok s' ->
    torch_packages s' = torch_packages s /\ may_packages s' = may_packages s.
  Proof.
    induction l as [|a l IH]; intros s s' E; cbn [record_from] in E; [injection E as <-; auto|].
    destruct (record_import _ _ s) as [s1|] eqn:R; [|discriminate]. cbn [bind] in E.
    destruct (IH _ _ E) as [-> ->]. exact (record_packages _ _ _ _ R).
  Qed.
  Lemma import_post_gains n st s r s' : import_post e n st s = Ok (r, s') -> gains s s' (packages_used e n).
  Proof.
    assert (Em : forall api m s r s', emit e api m s = (r, s') -> gains s s' []).
    { intros api m s0 r0 s0' E. unfold emit in E. destruct (in_min_mode _ _); injection E as <- <-; apply gains_nil; reflexivity. }
    intros E. destruct n as [i|v a|f a k|l|m l lv|k fs]; cbn [import_post] in E.
    - unfold visit_name in E. destruct (name_position i st s) as [[api|[[] asg]]|]; [| | |discriminate]; cbn [bind] in E.
      + injection E as E. exact (Em _ _ _ _ _ E).
      + destruct (get_torch_api (Name i) s) as [[api|]|]; [| |discriminate]; cbn [bind] in E.
        * destruct (String.eqb api ""); [injection E as <- <-; apply gains_nil; reflexivity|].
          destruct (parent st) as [q|]; [|discriminate]. cbn [bind] in E. injection E as E. apply Em in E.
          destruct (if asg then assign_target q else None); exact E.
        * injection E as <- <-. apply gains_nil; reflexivity.
      + injection E as <- <-. apply gains_nil; reflexivity.
    - unfold finish_attribute in E. destruct (get_torch_api _ s) as [[api|]|]; [| |discriminate]; cbn [bind] in E.
      + destruct (String.eqb api ""); [injection E as <- <-; apply gains_nil; reflexivity|].
        injection E as E. exact (Em _ _ _ _ _ E).
      + injection E as <- <-. apply gains_nil; reflexivity.
    - injection E as <- <-. apply gains_nil; reflexivity.
    - unfold visit_import in E. destruct (import_names e l s) as [[l' s1]|] eqn:N; [|discriminate]. cbn [bind] in E.
      apply import_names_gains in N. destruct l'.
      + destruct (remove_packages _ _ _ _ E) as [E1 E2]. eapply gains_eq; eassumption.
      + injection E as <- <-. exact N.
    - unfold visit_import_from in E. cbn [packages_used].
      destruct (from_module e m lv) as [[[m' lv']|]|] eqn:F; [| |discriminate]; cbn [bind] in E.
      + rewrite torch_package_spec in E. destruct (torch_module m') eqn:T.
        * destruct (record_from m' l _) as [s1|] eqn:R; [|discriminate]. cbn [bind] in E.
          destruct (record_from_packages _ _ _ _ R) as [E1 E2].
          assert (G : gains s s1 [first_component m']) by (eapply gains_eq; [apply gains_note|exact E1|exact E2]).
          destruct (min_mode e); [injection E as <- <-; exact G|].
          destruct (remove_packages _ _ _ _ E) as [E3 E4]. eapply gains_eq; eassumption.
        * rewrite renamed_package_spec in E. destruct (renames m'); injection E as <- <-; apply gains_nil; try reflexivity;
            apply note_others_packages.
      + injection E as <- <-. apply gains_nil; apply note_others_packages.
    - injection E as <- <-. apply gains_nil; reflexivity.
  Qed.

  Lemma packages_collect n : is_import n = false -> packages_used e n = [].
  Proof. destruct n; try discriminate; reflexivity. Qed.
  Lemma packages_main n p st u r st' u' : visit import_pre (import_post e) n p (st, u) = Ok (r, (st', u')) ->
    st' = st /\ (grammatical n -> gains u u' (flat_map (packages_used e) (imports_of n))).
  Proof.
    apply (gather_main e (packages_used e) gains (fun u => gains_nil u u eq_refl eq_refl) gains_app packages_collect import_post_gains).
  Qed.

  (** The table of names is what the imports bind, in order. *)
  Definition bind_all (d : dict string string) (l : list (string * string)) : dict string string :=
    fold_left (fun d b => dset String.eqb (fst b) (snd b) d) l d.
  Definition binds (u u' : ist) (l : list (string * string)) : Prop := imports u' = bind_all (imports u) l.
  Lemma binds_app u v w l m : binds u v l -> binds v w m -> binds u w (l ++ m).
  Proof. unfold binds, bind_all. intros -> ->. rewrite fold_left_app. reflexivity. Qed.
  Lemma record_binds x f s s' : record_import x f s = Ok s' -> binds s s' [(x, f)].
  Proof. unfold record_import. destruct (mem_str x bookkeeping); intros E; [discriminate|]. injection E as <-. reflexivity. Qed.
  Lemma note_imports pkg s : imports (note_package pkg s) = imports s.
  Proof. unfold note_package. destruct (mem_str pkg may_torch_package_list); reflexivity. Qed.
  Lemma import_names_binds l : forall s l' s', import_names e l s = Ok (l', s') -> binds s s' (bindings e (Import l)).
  Proof.
    induction l as [|a r IH]; intros s l' s' E; cbn [import_names] in E.
    - injection E as <- <-. reflexivity.
    - cbn [bindings upto_local]. destruct (is_local e (al_name a)) eqn:L.
      + injection E as <- <-. cbn [flat_map]. rewrite L. reflexivity.
      + rewrite torch_package_spec in E. cbn [flat_map]. rewrite L. cbn [negb andb].
        destruct (torch_module (al_name a)) eqn:T.
        * destruct (record_import _ _ _) as [s1|] eqn:R; [|discriminate]. cbn [bind] in E.
          destruct (import_names e r s1) as [[rest s2]|] eqn:N; [|discriminate]. cbn [bind] in E. injection E as <- <-.
          apply (binds_app s s1).
          -- apply record_binds in R. unfold binds in *. rewrite note_imports in R. exact R.
          -- exact (IH _ _ _ N).
        * rewrite renamed_package_spec in E. destruct (renames (al_name a)).
          -- destruct (import_names e r s) as [[rest s2]|] eqn:N; [|discriminate]. cbn [bind] in E. injection E as <- <-.
             exact (IH _ _ _ N).
          -- destruct (import_names e r _) as [[rest s2]|] eqn:N; [|discriminate]. cbn [bind] in E. injection E as <- <-.
             exact (IH _ _ _ N).
  Qed.
  Lemma remove_imports st s r s' : remove_import st s = Ok (r, s') -> imports s' = imports s.
  Proof.
    unfold remove_import. destruct (parent st); [|discriminate]. cbn [bind]. destruct (_ && _); intros E; injection E as <- <-; auto.
  Qed.
  Lemma note_others_imports l : forall s, imports (note_others l s) = imports s.
  Proof.
    unfold note_others. induction l as [|a l IH]; intros s; [auto|]. cbn [fold_left].
    destruct (al_asname a); [apply (IH (with_other s s0))|].
    destruct (String.eqb (al_name a) "*"); [apply IH|apply (IH (with_other s (al_name a)))].
  Qed.
  Lemma record_from_binds m l : forall s s', record_from m l s = Ok s' ->
    binds s s' (map (fun a => (bound_name a, m ++ "." ++ al_name a)) l).
  Proof.
    induction l as [|a l IH]; intros s s' E; cbn [record_from] in E; [injection E as <-; reflexivity|].
    destruct (record_import _ _ s) as [s1|] eqn:R; [|discriminate]. cbn [bind] in E.
    cbn [map]. apply record_binds in R. apply (binds_app s s1 s' [_] _ R). exact (IH _ _ E).
  Qed.
  Lemma import_post_binds n st s r s' : import_post e n st s = Ok (r, s') -> binds s s' (bindings e n).
  Proof.
    assert (Em : forall api m s r s', emit e api m s = (r, s') -> binds s s' []).
    { intros api m s0 r0 s0' E. unfold emit in E. destruct (in_min_mode _ _); injection E as <- <-; reflexivity. }
    intros E. destruct n as [i|v a|f a k|l|m l lv|k fs]; cbn [import_post] in E.
    - unfold visit_name in E. destruct (name_position i st s) as [[api|[[] asg]]|]; [| | |discriminate]; cbn [bind] in E.
      + injection E as E. exact (Em _ _ _ _ _ E).
      + destruct (get_torch_api (Name i) s) as [[api|]|]; [| |discriminate]; cbn [bind] in E.
        * destruct (String.eqb api ""); [injection E as <- <-; reflexivity|].
          destruct (parent st) as [q|]; [|discriminate]. cbn [bind] in E. injection E as E. apply Em in E.
          destruct (if asg then assign_target q else None); exact E.
        * injection E as <- <-. reflexivity.
      + injection E as <- <-. reflexivity.
    - unfold finish_attribute in E. destruct (get_torch_api _ s) as [[api|]|]; [| |discriminate]; cbn [bind] in E.
      + destruct (String.eqb api ""); [injection E as <- <-; reflexivity|].
        injection E as E. exact (Em _ _ _ _ _ E).
      + injection E as <- <-. reflexivity.
    - injection E as <- <-. reflexivity.
    - unfold visit_import in E. destruct (import_names e l s) as [[l' s1]|] eqn:N; [|discriminate]. cbn [bind] in E.
      apply import_names_binds in N. destruct l'.
      + apply remove_imports in E. unfold binds in *. rewrite E. exact N.
      + injection E as <- <-. exact N.
    - unfold visit_import_from in E. cbn [bindings].
      destruct (from_module e m lv) as [[[m' lv']|]|] eqn:F; [| |discriminate]; cbn [bind] in E.
      + rewrite torch_package_spec in E. destruct (torch_module m') eqn:T.
        * destruct (record_from m' l _) as [s1|] eqn:R; [|discriminate]. cbn [bind] in E.
          apply record_from_binds in R. unfold binds in R. rewrite note_imports in R.
          destruct (min_mode e); [injection E as <- <-; exact R|].
          apply remove_imports in E. unfold binds. rewrite E. exact R.
        * rewrite renamed_package_spec in E. destruct (renames m'); injection E as <- <-; [reflexivity|].
          unfold binds. apply note_others_imports.
      + injection E as <- <-. unfold binds. apply note_others_imports.
    - injection E as <- <-. reflexivity.
  Qed.
  Lemma bindings_collect n : is_import n = false -> bindings e n = [].
  Proof. destruct n; try discriminate; reflexivity. Qed.
  Lemma imports_main n p st u r st' u' : visit import_pre (import_post e) n p (st, u) = Ok (r, (st', u')) ->
    st' = st /\ (grammatical n -> binds u u' (flat_map (bindings e) (imports_of n))).
  Proof.
    apply (gather_main e (bindings e) binds (fun u => eq_refl) binds_app bindings_collect import_post_binds).
  Qed.
End Packages.

(** ** The pass does not fail *)
Lemma dotted_fold l : forall n t, dotted n = Some t -> dotted (fold_left Attribute l n) = Some (join "." (t :: l)).
Proof.
  induction l as [|a l IH]; intros n t H; cbn [fold_left].
  - rewrite H. reflexivity.
  - rewrite (IH (Attribute n a) (t ++ "." ++ a)).
    + unfold join. f_equal. destruct l as [|b l]; [reflexivity|].
      change (((t ++ "." ++ a) ++ "." ++ String.concat "." (b :: l)) = t ++ "." ++ (a ++ "." ++ String.concat "." (b :: l))).
      rewrite !app_assoc_s. reflexivity.
    + cbn [dotted]. rewrite H. reflexivity.
Qed.
Lemma dotted_parse s : dotted (parse_dotted s) = Some s.
Proof.
  unfold parse_dotted. pose proof (join_split "."%char s) as J.
  destruct (split_on "."%char s) as [|x l] eqn:E; [exfalso; exact (split_on_nonempty _ _ E)|].
  rewrite (dotted_fold l (Name x) x eq_refl). f_equal. exact J.
Qed.
Lemma first_component_app a b : (b = "" \/ exists r, b = String "."%char r) -> first_component (a ++ b) = first_component a.
Proof.
  intros [->|(r & ->)]; [rewrite app_nil_r_s; reflexivity|].
  destruct (first_component_prefix a) as (q & E & [->|(q' & ->)]).
  - rewrite app_nil_r_s in E. rewrite E at 1. apply (first_component_dot (first_component a) r), first_component_no_char.
  - rewrite E at 1. rewrite app_assoc_s.
    apply (first_component_dot (first_component a) (q' ++ String "."%char r)), first_component_no_char.
Qed.
Lemma alias_targets_torch n t : In (n, t) alias_mapping -> torch_module t = true.
Proof.
  intros H.
  assert (E : forallb (fun kv => torch_module (snd kv)) alias_mapping = true) by (vm_compute; reflexivity).
  rewrite forallb_forall in E. exact (E _ H).
Qed.
Lemma canonical_torch n : torch_module n = true -> torch_module (canonical n) = true.
Proof.
  intros H. destruct (canonical_cases n) as [[_ ->]|(u & I & -> & _)]; [exact H|]. exact (alias_targets_torch _ _ I).
Qed.
Lemma torch_not_bookkeeping m : torch_module m = true -> ~ In (first_component m) bookkeeping.
Proof.
  unfold torch_module. intros H. apply PyStrFacts.mem_str_In in H.
  assert (E : forallb (fun p => negb (mem_str p bookkeeping)) listed_packages = true) by (vm_compute; reflexivity).
  rewrite forallb_forall in E. specialize (E _ H). apply PyStrFacts.mem_str_false.
  destruct (mem_str _ _); [discriminate|reflexivity].
Qed.

Section Total.
  Variable e : env.
  Definition TK (x full : string) : Prop := torch_module full = true.
  Definition head_ok (n : node) : Prop := forall t, dotted n = Some t -> ~ In (first_component t) bookkeeping.
  Definition all_safe (n : node) : Prop := forall m, In m (nodes n) -> safe e m.
  Definition P3 (n : node) (p : pos) (st : list frame) (u : ist) (r : visited) (u' : ist) : Prop :=
    all_safe n -> known TK u -> known TK u' /\ forall n', r = VNode n' -> head_ok n'.

  Lemma bindings_torch i x full : In (x, full) (bindings e i) -> torch_module full = true.
  Proof.
    destruct i as [| | |names|m names lv|]; cbn [bindings]; try contradiction.
    - intros H. apply in_flat_map in H as (a & _ & H). destruct (negb _ && _) eqn:B; [|contradiction].
      apply andb_prop in B as [_ B]. destruct H as [H|[]]. injection H as <- <-. exact B.
    - destruct (from_module e m lv) as [[[m' lv']|]|]; try contradiction. destruct (torch_module m') eqn:T; [|contradiction].
      intros H. apply in_map_iff in H as (a & H & _). injection H as <- <-. unfold torch_module in *.
      change (m' ++ String "."%char (al_name a)) with (m' ++ "." ++ al_name a).
      rewrite first_component_app; [exact T|]. right. eexists. reflexivity.
  Qed.
  Lemma get_torch_api_torch n s api : known TK s -> get_torch_api n s = Ok (Some api) -> torch_module api = true.
  Proof.
    intros [H1 _] E. unfold get_torch_api in E.
    destruct (split_on "."%char (get_full_attr n)) as [|first rest] eqn:Sp; [discriminate|].
    destruct (dget String.eqb first (imports s)) as [full|] eqn:D.
    - assert (api = join "." (full :: rest)) as -> by congruence. specialize (H1 _ _ D). unfold TK, torch_module in *.
      assert (exists b, join "." (full :: rest) = full ++ b /\ (b = "" \/ exists r, b = String "."%char r)) as (b & -> & Hb).
      { unfold join. destruct rest as [|y r]; cbn [concat]; [exists ""; rewrite app_nil_r_s; auto|].
        eexists. split; [reflexivity|]. right. eexists. reflexivity. }
      rewrite first_component_app by exact Hb. exact H1.
    - destruct (mem_str first bookkeeping); discriminate.
  Qed.
  Lemma get_torch_api_ok n s : head_ok n -> exists o, get_torch_api n s = Ok o.
  Proof.
    intros H. unfold get_torch_api. destruct (split_on "."%char (get_full_attr n)) as [|first rest] eqn:Sp; [eauto|].
    destruct (dget String.eqb first (imports s)); [eauto|].
    assert (mem_str first bookkeeping = false) as ->; [|eauto]. apply PyStrFacts.mem_str_false.
    assert (first = first_component (get_full_attr n)) as -> by (unfold first_component; rewrite Sp; reflexivity).
    destruct (dotted n) as [t|] eqn:D.
    - rewrite (get_full_attr_dotted _ _ D). exact (H t D).
    - destruct (get_full_attr_other _ D) as [->|(t & ->)].
      + cbn. intuition discriminate.
      + rewrite first_component_dot; [cbn; intuition discriminate|]. cbn. repeat split; discriminate.
  Qed.
  Lemma emit_total api n s r s' : torch_module api = true -> head_ok n -> known TK s -> emit e api n s = (r, s') ->
    known TK s' /\ forall n', r = VNode n' -> head_ok n'.
  Proof.
    intros T H Ks E. destruct (emit_spec e TK _ _ _ _ _ E) as [[->| ->] Hk]; (split; [exact (Hk Ks)|]); intros n' En; injection En as <-.
    - exact H.
    - intros t D. rewrite dotted_parse in D. injection D as <-. apply torch_not_bookkeeping, canonical_torch, T.
  Qed.
  Lemma with_alias_TK s t api : torch_module api = true -> known TK s -> known TK (with_alias s t api).
  Proof.
    intros T [H1 H2]. split; [exact H1|]. cbn [name_aliases with_alias]. intros x full D.
    destruct (String.eqb_spec x t) as [->|N].
    - rewrite (dget_set_same _ String.eqb_spec) in D. injection D as <-. exact T.
    - rewrite (dget_set_other _ String.eqb_spec) in D by exact N. exact (H2 x full D).
  Qed.
  Lemma name_position_alias i st s api : known TK s -> name_position i st s = Ok (inl api) -> torch_module api = true.
  Proof.
    intros [_ H2] N. unfold name_position in N. destruct (parent st) as [q|]; [|discriminate]. cbn [bind] in N.
    destruct (mem_str (kind_of q) _); [discriminate|]. cbv zeta in N.
    destruct q as [j|v a|f a k|l|m l lv|k fs]; try discriminate;
      try (repeat match type of N with context [if ?b then _ else _] => destruct b; try discriminate end; fail).
    destruct f; try discriminate. destruct (dget String.eqb i (name_aliases s)) as [x|] eqn:D; [|discriminate].
    injection N as ->. exact (H2 _ _ D).
  Qed.

  Lemma head_ok_attr v a : head_ok v -> head_ok (Attribute v a).
  Proof.
    intros H t D. cbn [dotted] in D. destruct (dotted v) as [tv|] eqn:Dv; [|discriminate].
    assert (t = tv ++ "." ++ a) as -> by congruence.
    rewrite first_component_app by (right; eexists; reflexivity). exact (H tv Dv).
  Qed.
  Lemma all_safe_child n c : all_safe n -> In c (children n) -> all_safe c.
  Proof. intros G I m Hm. apply G. eapply child_nodes; eassumption. Qed.

  Lemma dotted_head_ok n : all_safe n -> head_ok n.
  Proof.
    induction n as [i|v a IH|f aa k Hf Ha Hk|l|m l lv|k fs Hfs] using node_ind2; intros S t D; try discriminate D.
    - injection D as <-. exact (S _ (self_in _)).
    - revert t D. apply head_ok_attr, IH. eapply all_safe_child; [exact S|left; reflexivity].
  Qed.

  (** The node handed to the second half of a visitor. *)
  Lemma in_list_TK nm st i l u l' u' : in_list P3 nm st i l u l' u' -> (forall x, In x l -> all_safe x) -> known TK u -> known TK u'.
  Proof.
    induction 1 as [i u|i x l u r u1 rest u2 Hx Hl IH]; intros G Ku; [exact Ku|].
    apply IH; [intros y Hy; apply G; right; exact Hy|]. apply Hx; [apply G; left; reflexivity|exact Ku].
  Qed.
  Lemma in_fields_TK k p st done todo u fs' u' : in_fields P3 k p st done todo u fs' u' ->
    (forall x, In x (flat_map field_nodes todo) -> all_safe x) -> known TK u -> known TK u'.
  Proof.
    induction 1 as [done u|done nm x todo u fs u' H IH|done nm c todo u v u1 fs u' Hc H IH|done nm l todo u l' u1 fs u' Hl H IH];
      intros G Ku; cbn [flat_map field_nodes app] in *.
    - exact Ku.
    - apply IH; assumption.
    - apply IH; [intros y Hy; apply G; right; exact Hy|]. apply Hc; [apply G; left; reflexivity|exact Ku].
    - apply IH; [intros y Hy; apply G, in_or_app; auto|].
      apply (in_list_TK _ _ _ _ _ _ _ Hl); [intros y Hy; apply G, in_or_app; auto|exact Ku].
  Qed.
  Lemma generic_TK p st n u n' u' : generic P3 p st n u n' u' -> all_safe n -> known TK u ->
    known TK u' /\ head_ok n' /\
    match n' with
    | Name i => n = Name i
    | Import l => n = Import l
    | ImportFrom m l i => n = ImportFrom m l i
    | _ => True
    end.
  Proof.
    intros G S Ku. pose proof (fun c => all_safe_child n c S) as C.
    destruct G as [i u|l u|m l i u|v a u r u1 Hv|f a k u r u1 a' u2 k' u3 Hf Ha Hk|k fs u fs' u' Hfs].
    - split; [exact Ku|]. split; [apply dotted_head_ok, S|reflexivity].
    - split; [exact Ku|]. split; [intros t D; discriminate D|reflexivity].
    - split; [exact Ku|]. split; [intros t D; discriminate D|reflexivity].
    - destruct Hv as [K1 H]; [apply C; left; reflexivity|exact Ku|]. split; [exact K1|].
      destruct r as [v'| |lv]; cbn [attr_of]; (split; [|exact I]); [|intros t D; discriminate D..].
      apply head_ok_attr, H. reflexivity.
    - destruct Hf as [K1 H]; [apply C; left; reflexivity|exact Ku|].
      assert (K2 : known TK u2) by (apply (in_list_TK _ _ _ _ _ _ _ Ha); [intros x Hx; apply C; right; apply in_or_app; auto|exact K1]).
      assert (K3 : known TK u3) by (apply (in_list_TK _ _ _ _ _ _ _ Hk); [intros x Hx; apply C; right; apply in_or_app; auto|exact K2]).
      split; [exact K3|]. destruct r; cbn [call_of]; (split; [intros t D; discriminate D|exact I]).
    - split; [apply (in_fields_TK _ _ _ _ _ _ _ _ Hfs); [exact C|exact Ku]|]. split; [intros t D; discriminate D|exact I].
  Qed.

  Lemma post_TK n st s r s' : (is_import n = true -> safe e n) -> head_ok n -> known TK s ->
    import_post e n st s = Ok (r, s') -> known TK s' /\ forall n', r = VNode n' -> head_ok n'.
  Proof.
    intros Hs H Ks E.
    assert (Keep : forall r s', Ok (VNode n, s) = Ok (r, s') -> known TK s' /\ forall n', r = VNode n' -> head_ok n').
    { intros r0 s0 E0. injection E0 as <- <-. split; [exact Ks|]. intros n' En. injection En as <-. exact H. }
    destruct n as [i|v a|f a k|l|m l lv|k fs]; cbn [import_post] in E; try exact (Keep _ _ E).
    - unfold visit_name in E. destruct (name_position i st s) as [[api|[[] asg]]|] eqn:N; [| | |discriminate]; cbn [bind] in E.
      + injection E as E. eapply emit_total; [exact (name_position_alias _ _ _ _ Ks N)|exact H|exact Ks|exact E].
      + destruct (get_torch_api (Name i) s) as [[api|]|] eqn:G; [| |discriminate]; cbn [bind] in E; [|exact (Keep _ _ E)].
        destruct (String.eqb api ""); [exact (Keep _ _ E)|].
        destruct (parent st) as [q|]; [|discriminate]. cbn [bind] in E. injection E as E.
        pose proof (get_torch_api_torch _ _ _ Ks G) as T. eapply emit_total; [exact T|exact H| |exact E].
        destruct (if asg then assign_target q else None); [apply with_alias_TK; assumption|exact Ks].
      + exact (Keep _ _ E).
    - unfold finish_attribute in E. destruct (get_torch_api _ s) as [[api|]|] eqn:G; [| |discriminate]; cbn [bind] in E; [|exact (Keep _ _ E)].
      destruct (String.eqb api ""); [exact (Keep _ _ E)|]. injection E as E.
      eapply emit_total; [exact (get_torch_api_torch _ _ _ Ks G)|exact H|exact Ks|exact E].
    - destruct (import_stmt_spec e TK (Import l) st s r s' eq_refl E) as [R Hk].
      split; [apply Hk; [intros x full B; exact (bindings_torch _ _ _ B)|exact Ks]|].
      intros n' ->. destruct R as [R|[_ R]]; cbn [spliced] in R.
      + pose proof (rewritten_import e (Import l) n' eq_refl) as Ri. rewrite <- R in Ri. specialize (Ri (or_introl eq_refl)).
        intros t D. destruct n'; discriminate.
      + injection R as ->. intros t D. discriminate D.
    - destruct (import_stmt_spec e TK (ImportFrom m l lv) st s r s' eq_refl E) as [R Hk].
      split; [apply Hk; [intros x full B; exact (bindings_torch _ _ _ B)|exact Ks]|].
      intros n' ->. destruct R as [R|[_ R]]; cbn [spliced] in R.
      + pose proof (rewritten_import e (ImportFrom m l lv) n' eq_refl) as Ri. rewrite <- R in Ri. specialize (Ri (or_introl eq_refl)).
        intros t D. destruct n'; discriminate.
      + injection R as ->. intros t D. discriminate D.
  Qed.

  Lemma generic_or_same n p st u (go : bool) u1 n' u2 :
    all_safe n -> known TK u -> import_pre n (MkFrame n p :: st) u = Ok (go, u1) ->
    (if go then generic P3 p st n u1 n' u2 else n' = n /\ u2 = u1) ->
    known TK u2 /\ head_ok n' /\ (is_import n' = true -> n' = n) /\ (forall i, n' = Name i -> n = Name i).
  Proof.
    intros S Ku E1 G. assert (u1 = u) as -> by (destruct n; injection E1 as <- <-; reflexivity).
    destruct go.
    - destruct (generic_TK _ _ _ _ _ _ G S Ku) as (K2 & H & M). split; [exact K2|]. split; [exact H|].
      destruct n'; split; try discriminate; auto. intros j Ej. rewrite <- Ej. auto.
    - destruct G as [-> ->]. split; [exact Ku|]. split; [apply dotted_head_ok, S|]. auto.
  Qed.

  Lemma record_ok x full s : ~ In x bookkeeping -> exists s', record_import x full s = Ok s'.
  Proof. intros H. unfold record_import. apply PyStrFacts.mem_str_false in H. rewrite H. eauto. Qed.
  Lemma import_names_ok l : forall s, (forall x full, In (x, full) (bindings e (Import l)) -> ~ In x bookkeeping) ->
    exists r, import_names e l s = Ok r.
  Proof.
    induction l as [|a r IH]; intros s H; cbn [import_names]; [eauto|].
    cbn [bindings upto_local] in H. destruct (is_local e (al_name a)) eqn:L; [eauto|].
    rewrite torch_package_spec. cbn [flat_map] in H. rewrite L in H. cbn [negb andb] in H.
    destruct (torch_module (al_name a)) eqn:T.
    - destruct (record_ok (bound_name a) (al_name a) (note_package (first_component (al_name a)) s)) as [s1 ->];
        [apply (H _ (al_name a)); left; reflexivity|]. cbn [bind].
      destruct (IH s1) as [[l' s2] ->]; [intros x full Hx; apply (H x full); right; exact Hx|]. cbn [bind]. eauto.
    - rewrite renamed_package_spec. destruct (renames (al_name a)).
      + destruct (IH s) as [[l' s2] ->]; [exact H|]. cbn [bind]. eauto.
      + destruct (IH (with_other s (bound_name a))) as [[l' s2] ->]; [exact H|]. cbn [bind]. eauto.
  Qed.
  Lemma record_from_ok m l : forall s, (forall a, In a l -> ~ In (bound_name a) bookkeeping) -> exists s', record_from m l s = Ok s'.
  Proof.
    induction l as [|a l IH]; intros s H; cbn [record_from]; [eauto|].
    destruct (record_ok (bound_name a) (m ++ "." ++ al_name a) s) as [s1 ->]; [apply H; left; reflexivity|].
    cbn [bind]. apply IH. intros b Hb. apply H. right. exact Hb.
  Qed.
  Lemma remove_ok fr st s : st <> [] -> exists r, remove_import (fr :: st) s = Ok r.
  Proof.
    intros H. destruct st as [|g st]; [congruence|]. unfold remove_import. cbn [parent bind].
    destruct (_ && _); eauto.
  Qed.
  Lemma name_position_ok i fr st s : st <> [] -> exists w, name_position i (fr :: st) s = Ok w.
  Proof.
    intros H. destruct st as [|g st]; [congruence|]. unfold name_position. cbn [parent bind].
    destruct (mem_str _ _); [eauto|]. cbv zeta.
    destruct (e_node g) as [j|v a|f a k|l|m l lv|k fs].
    3: { destruct f; eauto. destruct (dget _ _ _); eauto. }
    all: repeat match goal with |- context [if ?b then _ else _] => destruct b; eauto end; eauto.
  Qed.

  Lemma import_pre_ok n st s : exists go, import_pre n st s = Ok (go, s).
  Proof. destruct n; cbn [import_pre]; eauto. Qed.

  Lemma import_post_ok n fr st s : safe e n -> head_ok n -> (st = [] -> exists k fs, n = Other k fs) ->
    exists r s', import_post e n (fr :: st) s = Ok (r, s').
  Proof.
    intros S H R. destruct n as [i|v a|f a k|l|m l lv|k fs]; cbn [import_post]; eauto.
    - assert (N : st <> []) by (intros ->; destruct (R eq_refl) as (? & ? & ?); discriminate).
      unfold visit_name. destruct (name_position_ok i fr st s N) as [[api|[[] asg]] ->]; cbn [bind].
      + destruct (emit e api (Name i) s); eauto.
      + destruct (get_torch_api_ok _ s H) as [[api|] ->]; cbn [bind]; [|eauto].
        destruct (String.eqb api ""); [eauto|]. destruct st as [|g st]; [congruence|]. cbn [parent bind].
        match goal with |- context [emit ?a ?b ?c ?d] => destruct (emit a b c d) end. eauto.
      + eauto.
    - unfold finish_attribute. destruct (get_torch_api_ok _ s H) as [[api|] ->]; cbn [bind]; [|eauto].
      destruct (String.eqb api ""); [eauto|]. match goal with |- context [emit ?a ?b ?c ?d] => destruct (emit a b c d) end. eauto.
    - assert (N : st <> []) by (intros ->; destruct (R eq_refl) as (? & ? & ?); discriminate).
      unfold visit_import. destruct (import_names_ok l s S) as [[[|a l'] s'] ->]; cbn [bind]; [|eauto].
      destruct (remove_ok fr st s' N) as [[r s2] ->]. eauto.
    - assert (N : st <> []) by (intros ->; destruct (R eq_refl) as (? & ? & ?); discriminate).
      destruct S as [S1 S2]. cbn [bindings] in S1. unfold visit_import_from.
      assert (F : exists o, from_module e m lv = Ok o).
      { unfold from_module. destruct lv; [|destruct (_ && _); eauto].
        destruct m as [m|]; [destruct (is_local e m); eauto|]. exfalso. apply S2; reflexivity. }
      destruct F as [o F]. rewrite F in *. cbn [bind]. destruct o as [[m' lv']|]; [|eauto].
      rewrite torch_package_spec. destruct (torch_module m') eqn:T.
      + destruct (record_from_ok m' l (note_package (first_component m') s)) as [s1 ->].
        { intros a Ha. apply (S1 _ (m' ++ "." ++ al_name a)). apply in_map_iff. exists a. auto. }
        cbn [bind]. destruct (min_mode e); [eauto|]. destruct (remove_ok fr st s1 N) as [[r s2] ->]. eauto.
      + rewrite renamed_package_spec. destruct (renames m'); eauto.
  Qed.

  Lemma import_total n st : all_safe n -> (st = [] -> exists k fs, n = Other k fs) -> forall p u, known TK u ->
    exists r u', visit import_pre (import_post e) n p (st, u) = Ok (r, (st, u')).
  Proof.
    intros S R p u Ku.
    destruct (visit_total import_pre (import_post e) P3) with
      (Good := fun n (st : list frame) => all_safe n /\ (st = [] -> exists k fs, n = Other k fs)) (Inv := known TK)
      (n := n) (p := p) (st := st) (u := u) as (r & u' & E & _); [..|eauto].
    - intros m q s v go u1 n' u2 r u3 E1 G E2 Sm Kv.
      destruct (generic_or_same _ _ _ _ _ _ _ _ Sm Kv E1 G) as (K2 & H & I & _).
      eapply post_TK; [|exact H|exact K2|exact E2]. intros Im. rewrite (I Im). exact (Sm _ (self_in _)).
    - intros m s c fr [Sm Rm] Hc. split; [eapply all_safe_child; eassumption|discriminate].
    - intros m q s v r v' [Sm _] Kv HP. apply HP; assumption.
    - intros m q s v [Sm _] Kv. destruct (import_pre_ok m (MkFrame m q :: s) v) as [go E]. eauto.
    - intros m q s v go u1 n' u2 [Sm Rm] Kv E1 G K2.
      destruct (generic_or_same _ _ _ _ _ _ _ _ Sm Kv E1 G) as (_ & H & I & Nn).
      apply import_post_ok; [|exact H|].
      + destruct n' eqn:En; cbn [safe]; try exact Logic.I.
        * pose proof (Sm _ (self_in m)) as Sf. rewrite (Nn _ eq_refl) in Sf. exact Sf.
        * pose proof (Sm _ (self_in m)) as Sf. rewrite <- (I eq_refl) in Sf. exact Sf.
        * pose proof (Sm _ (self_in m)) as Sf. rewrite <- (I eq_refl) in Sf. exact Sf.
      + intros Es. destruct (Rm Es) as (k & fs & ->).
        assert (go = true) as -> by (injection E1; auto). inversion G; subst. eauto.
    - auto.
    - exact Ku.
  Qed.
End Total.

(** ** Blocks *)
Lemma all_blocks_children n : all_blocks n = (own_blocks n ++ flat_map all_blocks (children n))%list.
Proof. unfold all_blocks. rewrite nodes_children. cbn [flat_map]. rewrite flat_map_flat_map. reflexivity. Qed.
Lemma dotted_blocks m t : dotted m = Some t -> all_blocks m = [].
Proof.
  revert t. induction m as [i|v a IH|f aa k Hf Ha Hk|l|m l lv|k fs Hfs] using node_ind2; intros t H; try discriminate H.
  - reflexivity.
  - cbn [dotted] in H. destruct (dotted v) as [u|]; [|discriminate]. rewrite all_blocks_children.
    cbn [own_blocks children flat_map app]. rewrite (IH u eq_refl). reflexivity.
Qed.
Lemma parse_blocks s : all_blocks (parse_dotted s) = [].
Proof. exact (dotted_blocks _ _ (dotted_parse s)). Qed.
Lemma import_blocks x : is_import x = true -> all_blocks x = [].
Proof. destruct x; try discriminate; reflexivity. Qed.

(** The blocks of the two trees correspond; an empty one comes from removable imports. *)
Definition emptied (e : env) (l l' : list node) : Prop :=
  l' = [] -> forall x, In x l -> is_import x = true /\ rewritten e x = [].
Lemma rws_emptied e K l l' : rws e K l l' -> emptied e l l'.
Proof.
  intros H E. subst l'. remember (@nil node) as z. induction H as [|x x' l l' I Hx Hl IH|x new l l' I R Hl IH]; intros y Hy.
  - contradiction.
  - discriminate.
  - apply app_eq_nil in Heqz as [-> ->]. destruct Hy as [<-|Hy]; [|exact (IH eq_refl y Hy)].
    split; [exact I|]. destruct R as [R|[R _]]; auto.
Qed.
Definition own_field_blocks (f : field) : list (list node) :=
  match f with Many nm l => if mem_str nm blocks then [l] else [] | _ => [] end.
Definition rws_blocks e K (l l' : list node) : Prop :=
  Forall2 (emptied e) (flat_map all_blocks l) (flat_map all_blocks l') /\ rws e K l l'.
Lemma rw_blocks e K :
  (forall n m, rw e K n m -> Forall2 (emptied e) (all_blocks n) (all_blocks m)) /\
  (forall l l', rws e K l l' -> Forall2 (emptied e) (flat_map all_blocks l) (flat_map all_blocks l') /\ rws e K l l') /\
  (forall fs fs', rwfs e K fs fs' ->
     Forall2 (emptied e) (flat_map own_field_blocks fs) (flat_map own_field_blocks fs') /\
     Forall2 (emptied e) (flat_map all_blocks (flat_map field_nodes fs)) (flat_map all_blocks (flat_map field_nodes fs'))).
Proof.
  apply (rw_mutind e K
    (fun n m => Forall2 (emptied e) (all_blocks n) (all_blocks m))
    (fun l l' => Forall2 (emptied e) (flat_map all_blocks l) (flat_map all_blocks l') /\ rws e K l l')
    (fun fs fs' => Forall2 (emptied e) (flat_map own_field_blocks fs) (flat_map own_field_blocks fs') /\
       Forall2 (emptied e) (flat_map all_blocks (flat_map field_nodes fs)) (flat_map all_blocks (flat_map field_nodes fs')))).
  - intros i. constructor.
  - intros v v' a _ IH. rewrite (all_blocks_children (Attribute v a)), (all_blocks_children (Attribute v' a)).
    cbn [own_blocks children flat_map app]. rewrite !app_nil_r. exact IH.
  - intros f f' a a' k k' _ Hf _ [Ha _] _ [Hk _].
    rewrite (all_blocks_children (Call f a k)), (all_blocks_children (Call f' a' k')).
    cbn [own_blocks children flat_map app]. rewrite !flat_map_app. apply Forall2_app; [exact Hf|]. apply Forall2_app; assumption.
  - intros k fs fs' _ [H1 H2]. rewrite (all_blocks_children (Other k fs)), (all_blocks_children (Other k fs')).
    apply Forall2_app; [exact H1|exact H2].
  - intros n m first rest full _ IH D _ _. rewrite parse_blocks. rewrite (dotted_blocks _ _ D) in IH. exact IH.
  - split; constructor.
  - intros x x' l l' I Hx IHx Hl [IHl _]. split; [|constructor; assumption]. cbn [flat_map]. apply Forall2_app; assumption.
  - intros x new l l' I R Hl [IHl _]. split; [|apply rws_import; assumption]. cbn [flat_map]. rewrite flat_map_app.
    rewrite (import_blocks x I).
    assert (flat_map all_blocks new = []) as ->; [|exact IHl].
    destruct R as [->|[_ ->]]; [|reflexivity].
    pose proof (rewritten_import e x) as Ri. induction (rewritten e x) as [|y r IH]; [reflexivity|]. cbn [flat_map].
    rewrite (import_blocks y) by (apply Ri; [exact I|left; reflexivity]). apply IH. intros z Iz Hz. apply Ri; [exact Iz|right; exact Hz].
  - split; constructor.
  - intros nm c c' fs fs' _ Hc _ [H1 H2]. split; [exact H1|]. cbn [flat_map field_nodes app]. apply Forall2_app; assumption.
  - intros nm l l' fs fs' _ [Hl R] _ [H1 H2]. split.
    + cbn [flat_map own_field_blocks]. apply Forall2_app; [|exact H1].
      destruct (mem_str nm blocks); [|constructor]. constructor; [|constructor]. exact (rws_emptied _ _ _ _ R).
    + cbn [flat_map field_nodes]. rewrite !flat_map_app. apply Forall2_app; assumption.
  - intros nm x fs fs' _ IH. exact IH.
Qed.

(** ** Every grammatical tree has its weakest name table *)
Definition AnyK (x full : string) : Prop := x <> "None".
Lemma grammatical_knows e root : grammatical root -> knows e AnyK root.
Proof.
  intros G. split; [|split].
  - intros i x full Hi Hb. unfold imports_of in Hi. apply filter_In in Hi as [Hi _]. specialize (G i Hi).
    assert (exists a names, In a names /\ x = bound_name a /\
              match i with Import l | ImportFrom _ l _ => l = names | _ => False end) as (a & names & Ha & -> & M).
    { destruct i as [| | |names|m names lv|]; cbn [bindings] in Hb; try contradiction.
      - apply in_flat_map in Hb as (a & Ha & Hb). destruct (negb _ && _); [|contradiction]. destruct Hb as [Hb|[]].
        injection Hb as <- <-. exists a, names. split; [|auto].
        clear - Ha. induction names as [|b r IH]; [contradiction|]. cbn [upto_local] in Ha.
        destruct (is_local e (al_name b)); destruct Ha as [<-|Ha]; [left; reflexivity|contradiction|left; reflexivity|right; auto].
      - destruct (from_module e m lv) as [[[m' lv']|]|]; try contradiction. destruct (torch_module m'); [|contradiction].
        apply in_map_iff in Hb as (a & Hb & Ha). injection Hb as <- <-. exists a, names. auto. }
    destruct i; try contradiction; subst; exact (G a Ha).
  - intros t i txt full H _. unfold AnyK. apply nodes_trans with (x := Name t) in H; [|right; left; reflexivity].
    exact (proj2 (G _ H)).
  - intros full H. exact (H eq_refl).
Qed.

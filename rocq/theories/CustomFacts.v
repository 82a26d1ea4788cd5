(** Removing the classes that wrap custom operators (C84): proofs. *)
From Coq Require Import ZArith Lia Permutation Sorted.
From Verif Require Import PyStr PyStrFacts PyDict PyDictFacts Ast AstFacts ImportPass ImportSpec ImportFacts Walk WalkFacts BasicPass CustomPass CustomSpec Converter.
From Verif Require Scope ScopeFacts.
Open Scope string_scope.

(** ** Insertion *)
Lemma flat_insert {A B} (f : A -> list B) x i : f x = [] -> forall l, flat_map f (Scope.list_insert i x l) = flat_map f l.
Proof.
  intros E. induction i as [|i IH]; intros [|y l]; cbn [Scope.list_insert flat_map]; rewrite ?E; try reflexivity.
  rewrite IH. reflexivity.
Qed.
Lemma flat_insert_all {A B} (f : A -> list B) i new : (forall x, In x new -> f x = []) ->
  forall l, flat_map f (fold_left (fun b y => Scope.list_insert i y b) new l) = flat_map f l.
Proof.
  induction new as [|y new IH]; intros H l; cbn [fold_left]; [reflexivity|].
  rewrite IH by (intros; apply H; right; assumption). apply flat_insert, H. left. reflexivity.
Qed.
Lemma flat_insert_field {A B} (f : A -> list B) (d : dict nat (list A)) : (forall kv x, In kv d -> In x (snd kv) -> f x = []) ->
  forall l, flat_map f (Scope.insert_field d l) = flat_map f l.
Proof.
  intros H l. unfold Scope.insert_field.
  assert (G : forall kv x, In kv (Scope.sort_desc d) -> In x (snd kv) -> f x = []).
  { intros kv x Hk. apply H. apply ScopeFacts.sort_desc_in, Hk. }
  revert l G. generalize (Scope.sort_desc d). induction l as [|kv r IH]; intros l G; cbn [fold_left]; [reflexivity|].
  rewrite IH by (intros; eapply G; [right|]; eassumption). apply flat_insert_all. intros x Hx.
  apply (G kv); [left; reflexivity|]. apply in_rev, Hx.
Qed.

(** ** Counting classes *)
Definition below_fields (dead : list string) (fs : list field) : list string :=
  flat_map (fun f => match f with One _ c => classes_but dead c | Many _ l => flat_map (classes_but dead) l | Data _ _ => [] end) fs.
Lemma below_app d a b : below_fields d (a ++ b) = (below_fields d a ++ below_fields d b)%list.
Proof. apply flat_map_app. Qed.
Lemma below_set d nm v : below_fields d (set_field nm v) = flat_map (classes_but d) (spliced v).
Proof. destruct v; cbn; rewrite ?app_nil_r; reflexivity. Qed.
Lemma classes_other d k fs : k <> "ClassDef" -> classes_but d (Other k fs) = below_fields d fs.
Proof. intros H. cbn [classes_but]. destruct (String.eqb_spec k "ClassDef"); [contradiction|reflexivity]. Qed.
Lemma classes_class d fs : classes_but d (Other "ClassDef" fs) =
  if mem_str (object_id (Other "ClassDef" fs)) d then [] else object_id (Other "ClassDef" fs) :: below_fields d fs.
Proof. reflexivity. Qed.
Lemma classes_none d : forall n, classes n = [] -> classes_but d n = [].
Proof.
  unfold classes. induction n as [i|v a IH|f a k Hf Ha Hk|l|m l lv|k fs Hfs] using node_ind2; intros E; try reflexivity.
  - cbn [classes_but] in *. auto.
  - cbn [classes_but] in *. apply app_eq_nil in E as [E1 E]. apply app_eq_nil in E as [E2 E3]. rewrite (Hf E1).
    assert (L : forall l, Forall (fun n => classes_but [] n = [] -> classes_but d n = []) l -> flat_map (classes_but []) l = [] -> flat_map (classes_but d) l = []).
    { induction l as [|x l IH]; intros F G; [reflexivity|]. cbn [flat_map] in *. apply app_eq_nil in G as [G1 G2].
      inversion F; subst. rewrite H1, IH; auto. }
    rewrite (L a), (L k); auto.
  - destruct (String.eqb_spec k "ClassDef") as [->|N]; [discriminate|].
    rewrite classes_other in * by exact N. unfold below_fields in *.
    induction fs as [|f fs IH]; [reflexivity|]. cbn [flat_map] in *. apply app_eq_nil in E as [E1 E2]. inversion Hfs; subst.
    rewrite IH by assumption. rewrite app_nil_r. destruct f as [nm c|nm l|nm x]; [| |reflexivity].
    + apply H1, E1.
    + clear - H1 E1. cbn [field_all] in H1. induction l as [|x l IHl]; [reflexivity|]. cbn [flat_map] in *.
      apply app_eq_nil in E1 as [E1 E2]. inversion H1; subst. rewrite H2, IHl; auto.
Qed.
Lemma classes_attr_fold l : forall n, classes n = [] -> classes (fold_left (fun n a => Attribute n a) l n) = [].
Proof. induction l as [|x l IH]; intros n E; [exact E|]. cbn [fold_left]. apply IH. exact E. Qed.
Lemma classes_dotted s : classes (parse_dotted s) = [].
Proof.
  unfold parse_dotted. destruct (split_on "."%char s) as [|x l]; [reflexivity|]. apply classes_attr_fold. reflexivity.
Qed.

(** ** The second pass *)
Definition plain_records (s : bst_c) : Prop := forall at_ l x, In (at_, l) (records s) -> In x l -> classes x = [].
Lemma plain_record at_ l (s : bst_c) : plain_records s -> (forall x, In x l -> classes x = []) -> plain_records (record at_ l s).
Proof.
  intros H L. unfold record. destruct l as [|y l0]; [exact H|]. set (l := y :: l0) in *. clearbody l.
  intros p l' x Hi Hx. cbn [records] in Hi.
  assert (K : forall l2, (forall x, In x l2 -> classes x = []) -> In (p, l') (dset place_eqb at_ l2 (records s)) -> classes x = []).
  { clear Hi. intros l2 H2 Hi. revert H Hi. unfold plain_records. induction (records s) as [|kv r IH]; intros H Hi; cbn [dset] in Hi.
    - destruct Hi as [[= <- <-]|[]]. auto.
    - destruct kv as [k v]. destruct (place_eqb at_ k); destruct Hi as [Hi|Hi].
      + injection Hi as <- <-. auto.
      + eapply H; [right; exact Hi|exact Hx].
      + injection Hi as <- <-. eapply H; [left; reflexivity|exact Hx].
      + apply IH; [|exact Hi]. intros; eapply H; [right|]; eassumption. }
  eapply K; [|exact Hi]. intros z Hz. destruct (dget place_eqb at_ (records s)) as [old|] eqn:D; [|auto].
  apply in_app_iff in Hz as [Hz|Hz]; [|apply filter_In in Hz as [Hz _]; auto].
  assert (I : exists q, In (q, old) (records s)).
  { clear - D. revert D. generalize (records s). intros d. induction d as [|[k v] d IH]; intros D; [discriminate|].
    cbn [dget] in D. destruct (place_eqb at_ k); [injection D as <-; exists k; left; reflexivity|].
    destruct (IH D) as (q & Hq). exists q. right. exact Hq. }
  destruct I as (q & I). eapply H; eassumption.
Qed.
Lemma recorded_plain path nm (s : bst_c) kv x : plain_records s -> In kv (recorded_at path nm (records s)) -> In x (snd kv) -> classes x = [].
Proof.
  intros H Hi Hx. unfold recorded_at in Hi. apply in_flat_map in Hi as ([[[p f] i] l] & Hk & Hi). cbn [fst snd] in Hi.
  destruct (path_eqb path p && String.eqb nm f); [|destruct Hi]. destruct Hi as [<-|[]]. eapply H; eassumption.
Qed.
Lemma insert_classes path (s : bst_c) n : kind_of n <> "ClassDef" -> plain_records s ->
  classes (insert_recorded path (records s) n) = classes n.
Proof.
  intros N H. destruct n as [i|v a|f a k|l|m l lv|k fs]; try reflexivity. cbn [kind_of] in N. unfold classes, insert_recorded.
  rewrite !classes_other by exact N. unfold below_fields. induction fs as [|f fs IH]; [reflexivity|]. cbn [map flat_map]. rewrite IH. f_equal.
  destruct f as [nm c|nm l|nm x]; try reflexivity. apply flat_insert_field. intros kv x Hk Hx.
  apply (recorded_plain path nm s kv x H Hk Hx).
Qed.

Lemma custom_from_autograd l : forall c, autograd (snd (custom_from l c)) = autograd c.
Proof.
  induction l as [|a l IH]; intros c; [reflexivity|]. cbn [custom_from].
  destruct (match_alias _ _ _ _) as [[name found] d].
  set (c1 := MkCst _ _ _ _ d). specialize (IH c1). destruct (custom_from l c1) as [[kept more] c']. cbn [snd] in *. exact IH.
Qed.

Definition dead_of (s : bst_c) : list string := dkeys (autograd (shared s)).
Definition Pc (n : node) (p : pos) (st : list frame) (u : bst_c) (r : reply) (u' : bst_c) : Prop :=
  autograd (shared u') = autograd (shared u) /\
  (plain_records u -> plain_records u') /\
  (plain_records u -> labelled n -> statements_outside n ->
     exists v, r = Reply v /\ flat_map classes (spliced v) = classes_but (dead_of u) n).

Lemma inv_child n c : In c (children n) -> (labelled n -> labelled c) /\ (statements_outside n -> statements_outside c).
Proof.
  intros H. split; intros L; [intros fs Hf; apply L|intros v a Hf; apply (L v a)]; eapply child_nodes; eassumption.
Qed.
Definition all_ok (l : list node) : Prop := forall c, In c l -> labelled c /\ statements_outside c.
Lemma wl_Pc nm st : forall i l u l' u', wl Pc nm st i l u l' u' ->
  autograd (shared u') = autograd (shared u) /\ (plain_records u -> plain_records u') /\
  (plain_records u -> all_ok l -> flat_map classes l' = flat_map (classes_but (dead_of u)) l).
Proof.
  induction 1 as [i u|i x l u v u1 rest u2 (A & B & C) W (A' & B' & C')|i x u u1 (A & B & C)|i x y l u u1 rest u2 (A & B & C) W (A' & B' & C')].
  - auto.
  - rewrite A'. split; [exact A|]. split; [auto|]. intros R O. rewrite flat_map_app. cbn [flat_map].
    destruct (C R) as (w & [= <-] & E); [apply O; left; reflexivity..|]. rewrite E. f_equal.
    unfold dead_of in *. rewrite A in C'. apply C'; [auto|]. intros c Hc. apply O. right. exact Hc.
  - split; [exact A|]. split; [auto|]. intros R O. destruct (C R) as (w & [=] & _); apply O; left; reflexivity.
  - rewrite A'. split; [exact A|]. split; [auto|]. intros R O. destruct (C R) as (w & [=] & _); apply O; left; reflexivity.
Qed.
Definition fields_children (fs : list field) : list node :=
  flat_map (fun f => match f with One _ c => [c] | Many _ l => l | Data _ _ => [] end) fs.
(** The label of a class does not change. *)
Definition label_of (fs : list field) : option string := match fs with Data nm i :: _ => if String.eqb nm "@id" then Some i else None | _ => None end.
Lemma wf_Pc k p st : forall done todo u fs u', wf Pc k p st done todo u fs u' ->
  autograd (shared u') = autograd (shared u) /\ (plain_records u -> plain_records u') /\
  (exists more, fs = (done ++ more)%list /\ (forall i, label_of todo = Some i -> label_of more = Some i) /\
    (plain_records u -> all_ok (fields_children todo) -> below_fields [] more = below_fields (dead_of u) todo)).
Proof.
  induction 1 as [done u|done nm x todo u fs u' W (A & B & m & -> & L & C)|done nm c todo u r u1 fs u' (A & B & C) W (A' & B' & m & -> & L & C')
                 |done nm l todo u l' u1 fs u' W1 W2 (A' & B' & m & -> & L & C')].
  - split; [reflexivity|]. split; [auto|]. exists []. rewrite app_nil_r. auto.
  - split; [exact A|]. split; [exact B|]. exists (Data nm x :: m). rewrite <- app_assoc. split; [reflexivity|]. split; [intros i H; exact H|].
    intros R O. apply C; assumption.
  - rewrite A'. split; [exact A|]. split; [auto|]. exists (set_field nm (value_of r) ++ m)%list. rewrite app_assoc. split; [reflexivity|].
    split; [intros i [=]|]. intros R O. rewrite below_app, below_set. cbn [below_fields flat_map].
    destruct (C R) as (v & -> & E); [apply O; left; reflexivity..|]. cbn [value_of].
    change (flat_map (classes_but []) (spliced v)) with (flat_map classes (spliced v)). rewrite E. f_equal. unfold dead_of in *. rewrite A in C'.
    apply C'; [auto|]. intros c' Hc. apply O. right. exact Hc.
  - apply wl_Pc in W1 as (A & B & C). rewrite A'. split; [exact A|]. split; [auto|]. exists (Many nm l' :: m). rewrite <- app_assoc. split; [reflexivity|].
    split; [intros i [=]|]. intros R O. cbn [below_fields flat_map]. f_equal.
    + apply C; [exact R|]. intros c' Hc. apply O. cbn. apply in_app_iff. left. exact Hc.
    + unfold dead_of in *. rewrite A in C'. apply C'; [auto|]. intros c' Hc. apply O. cbn. apply in_app_iff. right. exact Hc.
Qed.
Lemma custom_post_other k fs stack s : k <> "ClassDef" -> custom_post (Other k fs) stack s = close_scope (Other k fs) stack s.
Proof.
  intros N. unfold custom_post.
  do 8 (destruct k as [|[[] [] [] [] [] [] [] []] k]; try reflexivity). destruct k; [|reflexivity]. exfalso. apply N. reflexivity.
Qed.
Lemma close_plain n stack s : mem_str (kind_of n) scope_kinds = false -> close_scope n stack s = Ok (Reply (VNode n), s).
Proof. intros H. unfold close_scope. rewrite H. reflexivity. Qed.
Lemma dmem_mem {V} x (d : dict string V) : dmem String.eqb x d = mem_str x (dkeys d).
Proof.
  unfold dmem. destruct (mem_str x (dkeys d)) eqn:E; destruct (dget String.eqb x d) eqn:G; try reflexivity; exfalso.
  - apply mem_str_In in E. apply (proj1 (dget_none_iff _ String.eqb_spec _ _)) in G. contradiction.
  - apply (dget_some_in _ String.eqb_spec) in G. apply (in_map fst) in G. cbn [fst] in G. apply mem_str_false in E. contradiction.
Qed.
Lemma ok_inj {A B} (a c : A) (b d : B) : Ok (a, b) = Ok (c, d) -> c = a /\ d = b.
Proof. intros H. injection H as <- <-. split; reflexivity. Qed.
Lemma custom_visit n p st u go u1 n1 u2 n2 u3 r u4 :
  custom_pre n (MkFrame n p :: st) u = Ok (go, u1) ->
  (if go : bool then wc Pc p st n u1 n1 u2 else n1 = n /\ u2 = u1) ->
  (if custom_again n1 (MkFrame n1 p :: st) u2 then wc Pc p st n1 u2 n2 u3 else n2 = n1 /\ u3 = u2) ->
  custom_post n2 (MkFrame n2 p :: st) u3 = Ok (r, u4) ->
  Pc n p st u r u4.
Proof.
  intros E1 W E3 E4. cbn [custom_again] in E3. destruct E3 as [-> ->]. unfold custom_pre in E1. apply ok_inj in E1 as [-> E1].
  assert (U : autograd (shared u1) = autograd (shared u) /\ records u1 = records u).
  { rewrite E1. destruct (mem_str _ _); split; reflexivity. }
  clear E1. destruct U as [UA UR]. unfold Pc.
  assert (UP : plain_records u -> plain_records u1) by (unfold plain_records; rewrite UR; auto).
  assert (UD : dead_of u1 = dead_of u) by (unfold dead_of; rewrite UA; reflexivity).
  destruct n as [i|v a|f a k|l|m l lv|k fs]; cbv iota beta in W.
  - inversion W; subst. apply ok_inj in E4 as [-> ->]. split; [exact UA|]. split; [exact UP|]. intros _ _ _. eexists. split; reflexivity.
  - destruct W as [-> ->]. cbn [custom_post] in E4. unfold custom_attribute in E4.
    destruct (find _ _) as [[nm ext]|].
    + unfold parse_stmt in E4. destruct (String.eqb (if startswith ext "load_" then _ else _) ""); [discriminate|]. cbn [bind] in E4.
      match type of E4 with context [scope_body_index _ ?x] => destruct (scope_body_index (MkFrame (Attribute v a) p :: st) x) as [at_|]; [|discriminate] end.
      cbn [bind] in E4. apply ok_inj in E4 as [-> ->]. split; [|split].
      * exact UA.
      * intros R. apply plain_record; [exact (UP R)|]. intros x [<-|[]]. reflexivity.
      * intros R L O. eexists. split; [reflexivity|]. cbn [spliced flat_map]. rewrite app_nil_r.
        unfold classes. rewrite classes_other by discriminate. cbn [below_fields flat_map]. rewrite app_nil_r.
        transitivity (@nil string); [apply classes_dotted|]. cbn [classes_but]. symmetry. apply classes_none.
        apply (O v a). apply self_in.
    + apply ok_inj in E4 as [-> ->]. split; [exact UA|]. split; [exact UP|]. intros R L O. eexists. split; [reflexivity|].
      cbn [spliced flat_map]. rewrite app_nil_r. pose proof (O v a (self_in _)) as Ov.
      unfold classes. cbn [classes_but]. rewrite (classes_none (dead_of u) _ Ov). exact Ov.
  - inversion W as [| | | |? ? ? ? r1 v1 a' v2 k' ? Hf Ha Hk|]; subst. destruct Hf as (A1 & B1 & C1).
    apply wl_Pc in Ha as (A2 & B2 & C2). apply wl_Pc in Hk as (A3 & B3 & C3).
    assert (E : r = Reply (VNode (call_with (value_of r1) a' k')) /\ u4 = u2).
    { destruct (value_of r1); cbn [call_with] in *; apply ok_inj in E4 as [-> ->]; split; reflexivity. }
    destruct E as [-> ->]. split; [congruence|]. split; [auto|]. intros R L O. eexists. split; [reflexivity|].
    cbn [spliced flat_map]. rewrite app_nil_r.
    assert (K : forall c, In c (f :: a ++ k) -> labelled c /\ statements_outside c).
    { intros c Hc. destruct (inv_child (Call f a k) c Hc). auto. }
    destruct (C1 (UP R)) as (w & -> & Ew); [apply K; left; reflexivity..|]. cbn [value_of]. 
    assert (D1 : dead_of v1 = dead_of u) by (unfold dead_of in *; rewrite A1; exact UD).
    assert (D2 : dead_of v2 = dead_of u) by (unfold dead_of in *; rewrite A2; exact D1).
    rewrite UD in Ew. rewrite D1 in C2. rewrite D2 in C3.
    assert (Ea := C2 (B1 (UP R)) (fun c Hc => K c (or_intror (in_or_app _ _ _ (or_introl Hc))))).
    assert (Ek := C3 (B2 (B1 (UP R))) (fun c Hc => K c (or_intror (in_or_app _ _ _ (or_intror Hc))))).
    cbn [classes_but]. rewrite <- Ea, <- Ek, <- Ew. unfold classes.
    destruct w as [f'| |fl]; cbn [call_with set_field spliced flat_map app].
    + rewrite app_nil_r. reflexivity.
    + rewrite classes_other by discriminate. cbn [below_fields flat_map]. rewrite app_nil_r. reflexivity.
    + rewrite classes_other by discriminate. cbn [below_fields flat_map]. rewrite app_nil_r. reflexivity.
  - inversion W; subst. apply ok_inj in E4 as [-> ->]. split; [exact UA|]. split; [exact UP|]. intros _ _ _. eexists. split; reflexivity.
  - inversion W; subst. cbn [custom_post] in E4. pose proof (custom_from_autograd l (shared u2)) as CF.
    destruct (custom_from l (shared u2)) as [[kept found] c] eqn:Ec. cbn [snd] in CF. apply ok_inj in E4 as [-> ->]. split; [|split].
    + transitivity (autograd c); [|congruence]. destruct found; reflexivity.
    + intros R. apply plain_record; [exact (UP R)|]. intros x Hx. destruct found; [destruct Hx|]. destruct Hx as [<-|[]]. reflexivity.
    + intros _ _ _. eexists. split; [reflexivity|]. destruct kept; reflexivity.
  - inversion W as [| | | | |? ? ? fs' ? F]; subst. apply wf_Pc in F as (A & B & m & Em & LB & C). cbn [app] in Em. subst fs'.
    rewrite UD in C. destruct (String.eqb_spec k "ClassDef") as [->|N].
    + cbn [custom_post] in E4. apply ok_inj in E4 as [-> ->]. split; [congruence|]. split; [auto|]. intros R L O.
      destruct (L fs (self_in _)) as (i & rest & ->).
      assert (LL := LB i eq_refl). destruct m as [|[ | |nm i'] rest']; try discriminate LL. cbn [label_of] in LL.
      destruct (String.eqb_spec nm "@id") as [->|]; [|discriminate]. injection LL as ->.
      eexists. split; [reflexivity|]. rewrite dmem_mem, A, UA.
      rewrite classes_class. change (object_id (Other "ClassDef" (Data "@id" i :: rest'))) with i.
      change (object_id (Other "ClassDef" (Data "@id" i :: rest))) with i. unfold dead_of.
      destruct (mem_str i (dkeys (autograd (shared u)))) eqn:Q; [reflexivity|]. cbn [spliced flat_map]. rewrite app_nil_r.
      unfold classes. rewrite classes_class. change (object_id (Other "ClassDef" (Data "@id" i :: rest'))) with i. cbn [mem_str existsb].
      f_equal. apply C; [exact (UP R)|]. intros c Hc.
      destruct (inv_child (Other "ClassDef" (Data "@id" i :: rest)) c Hc). auto.
    + rewrite custom_post_other in E4 by exact N. unfold close_scope in E4.
      assert (KC : plain_records u -> labelled (Other k fs) -> statements_outside (Other k fs) -> classes (Other k m) = classes_but (dead_of u) (Other k fs)).
      { intros R L O. unfold classes. rewrite !classes_other by exact N. apply C; [exact (UP R)|]. intros c Hc.
        destruct (inv_child (Other k fs) c Hc). auto. }
      destruct (mem_str _ _); apply ok_inj in E4 as [-> ->]; (split; [cbn [shared with_scopes]; congruence|]); (split; [intros R; exact (B (UP R))|]); intros R L O;
        (eexists; split; [reflexivity|]); cbn [spliced flat_map]; rewrite app_nil_r; [|auto].
      rewrite insert_classes; auto.
Qed.
Theorem custom_classes limit root (s : bst_c) root' s' : records s = [] -> labelled root -> statements_outside root ->
  run_custom custom_post limit root s = Ok (root', s') ->
  classes root' = classes_but (dead_of s) root.
Proof.
  intros R L O E. unfold run_custom in E.
  destruct (walk custom_pre custom_again custom_post limit root (At "" 0) ([], s)) as [[r [st u]]|] eqn:W; [|discriminate].
  apply (walk_sound Pc custom_pre custom_again custom_post custom_visit) in W as (_ & _ & _ & C).
  assert (R0 : plain_records s) by (intros at_ l x Hi; rewrite R in Hi; destruct Hi).
  destruct (C R0 L O) as (v & -> & Ev). cbn [bind] in E. destruct v as [n'| |]; [|discriminate..]. injection E as -> ->.
  cbn [spliced flat_map] in Ev. rewrite app_nil_r in Ev. exact Ev.
Qed.

(** ** The first pass *)
Definition remembered (s : bst_c) (id : string) : Prop := In id (dkeys (autograd (shared s))).
Lemma dset_keys {V} k (v : V) (d : dict string V) x : In x (dkeys (dset String.eqb k v d)) <-> In x (dkeys d) \/ x = k.
Proof.
  induction d as [|[k' v'] d IH]; cbn [dset dkeys map In fst]; [intuition congruence|].
  destruct (String.eqb_spec k k') as [->|N]; cbn [dkeys map In fst]; [intuition congruence|].
  unfold dkeys in IH. rewrite IH. intuition congruence.
Qed.
Lemma uses_one ext f bases : forall s : bst_c,
  let s' := fold_left (fun s base =>
        if String.eqb (get_full_attr base) "paddle.autograd.PyLayer" then
          MkBst (torch_count s + 1) (success_count s + 1) (all_apis s) (unsupported s) (scopes s) (records s)
                (with_autograd (shared s) (dset String.eqb (object_id (e_node f)) (data_of "name" (e_node f), ext) (autograd (shared s))))
        else s) bases s in
  (forall id, remembered s' id <-> remembered s id \/ (In "paddle.autograd.PyLayer" (map get_full_attr bases) /\ object_id (e_node f) = id)) /\
  ext_imports (shared s') = ext_imports (shared s) /\ ext_loads (shared s') = ext_loads (shared s).
Proof.
  induction bases as [|b l IH]; intros s; cbn [fold_left map In]; [repeat split; tauto|].
  destruct (String.eqb_spec (get_full_attr b) "paddle.autograd.PyLayer") as [E|E].
  - match goal with |- context [fold_left _ l ?x] => set (s1 := x) end. specialize (IH s1). cbv zeta in IH |- *. destruct IH as (I1 & I2 & I3).
    split; [|split; [rewrite I2; reflexivity|rewrite I3; reflexivity]]. intros id. rewrite I1.
    assert (S1 : remembered s1 id <-> remembered s id \/ id = object_id (e_node f)).
    { unfold remembered, s1. cbn [shared with_autograd autograd]. apply dset_keys. }
    rewrite S1. rewrite E. intuition congruence.
  - specialize (IH s). cbv zeta in IH |- *. destruct IH as (I1 & I2 & I3). split; [|split; assumption]. intros id. rewrite I1. intuition congruence.
Qed.
Lemma uses_all ext stack : forall s : bst_c, let s' := uses_in_classes ext stack s in
  (forall id, remembered s' id <-> remembered s id \/ exists f, In f stack /\ pylayer (e_node f) /\ object_id (e_node f) = id) /\
  ext_imports (shared s') = ext_imports (shared s) /\ ext_loads (shared s') = ext_loads (shared s).
Proof.
  unfold uses_in_classes. induction stack as [|f st IH]; intros s; cbn [fold_left].
  - repeat split; [tauto|]. intros [H|(f & [] & _)]. exact H.
  - destruct (String.eqb_spec (kind_of (e_node f)) "ClassDef") as [K|K].
    + pose proof (uses_one ext f (list_of "bases" (e_node f)) s) as U. cbv zeta in U. cbv zeta.
      match goal with |- context [fold_left _ st ?x] => set (s1 := x) end. fold s1 in U. clearbody s1.
      specialize (IH s1). cbv zeta in IH. destruct IH as (I1 & I2 & I3), U as (U1 & U2 & U3).
      split; [|split; congruence]. intros id. rewrite I1, U1. unfold pylayer. split.
      * intros [[H|[H E]]|(g & Hg & H)]; [left; exact H| |]; right; [exists f|exists g]; cbn; tauto.
      * intros [H|(g & [<-|Hg] & H)]; [tauto| |right; exists g; tauto]. left. right. tauto.
    + specialize (IH s). cbv zeta in *. destruct IH as (I1 & I2 & I3). split; [|split; assumption]. intros id. rewrite I1. split.
      * intros [H|(g & Hg & H)]; [left; exact H|]. right. exists g. cbn; tauto.
      * intros [H|(g & [<-|Hg] & H)]; [tauto| |right; exists g; tauto]. destruct H as [[H _] _]. contradiction.
Qed.
Lemma uses_fold {A} (c : A -> bool) (x : A -> string) stack l : forall s : bst_c,
  let s' := fold_left (fun s kv => if c kv then uses_in_classes (x kv) stack s else s) l s in
  (forall id, remembered s' id <-> remembered s id \/ (exists kv, In kv l /\ c kv = true) /\ exists f, In f stack /\ pylayer (e_node f) /\ object_id (e_node f) = id) /\
  ext_imports (shared s') = ext_imports (shared s) /\ ext_loads (shared s') = ext_loads (shared s).
Proof.
  induction l as [|a l IH]; intros s; cbn [fold_left]; cbv zeta.
  - repeat split; [tauto|]. intros [H|[(kv & [] & _) _]]. exact H.
  - destruct (c a) eqn:C.
    + pose proof (uses_all (x a) stack s) as U. cbv zeta in U. set (s1 := uses_in_classes (x a) stack s) in *. clearbody s1.
      specialize (IH s1). cbv zeta in IH. destruct IH as (I1 & I2 & I3), U as (U1 & U2 & U3). split; [|split; congruence].
      intros id. rewrite I1, U1. split.
      * intros [[H|H]|[(kv & Hk & Ck) H]]; [tauto| |]; right; (split; [|exact H]); [exists a|exists kv]; cbn; tauto.
      * intros [H|[_ H]]; tauto.
    + specialize (IH s). cbv zeta in IH. destruct IH as (I1 & I2 & I3). split; [|split; assumption]. intros id. rewrite I1. split.
      * intros [H|[(kv & Hk & Ck) H]]; [tauto|]. right. split; [|exact H]. exists kv. cbn; tauto.
      * intros [H|[(kv & [<-|Hk] & Ck) H]]; [tauto|congruence|]. right. split; [|exact H]. exists kv. tauto.
Qed.
Lemma split_imports_autograd l : forall c, autograd (snd (split_imports l c)) = autograd c.
Proof.
  induction l as [|a l IH]; intros c; cbn [split_imports]; [reflexivity|]. destruct (mem_str _ _); [rewrite IH; reflexivity|].
  specialize (IH c). destruct (split_imports l c). exact IH.
Qed.
Lemma pre_post_other k fs stack s : k <> "Assign" -> pre_custom_post (Other k fs) stack s = close_scope (Other k fs) stack s.
Proof.
  intros N. unfold pre_custom_post.
  do 6 (destruct k as [|[[] [] [] [] [] [] [] []] k]; try reflexivity). destruct k; [|reflexivity]. exfalso. apply N. reflexivity.
Qed.
Lemma close_same n stack s r s' : close_scope n stack s = Ok (r, s') -> shared s' = shared s.
Proof. unfold close_scope. intros E. destruct (mem_str _ _); apply ok_inj in E as [_ ->]; reflexivity. Qed.
Theorem remembered_step n stack s r s' : pre_custom_post n stack s = Ok (r, s') ->
  forall id, remembered s' id <-> remembered s id \/
    exists i a f, n = Attribute (Name i) a /\ extension_name (shared s) i /\ In f stack /\ pylayer (e_node f) /\ object_id (e_node f) = id.
Proof.
  intros E id.
  assert (Same : forall v x, (forall i a, n <> Attribute (Name i) a) -> shared s' = v -> autograd v = autograd x -> x = shared s ->
    remembered s' id <-> remembered s id \/
    exists i a f, n = Attribute (Name i) a /\ extension_name (shared s) i /\ In f stack /\ pylayer (e_node f) /\ object_id (e_node f) = id).
  { intros v x N E1 E2 E3. unfold remembered. rewrite E1, E2, E3. split; [tauto|]. intros [H|(i & a & f & H & _)]; [exact H|]. exfalso. eapply N, H. }
  destruct n as [i|v a|f a k|l|m l lv|k fs].
  - eapply Same; [discriminate|apply (close_same _ _ _ _ _ E)|reflexivity|reflexivity].
  - destruct v as [i|w b|f a' k|l|m l lv|k fs];
      try (eapply Same; [discriminate|apply (close_same _ _ _ _ _ E)|reflexivity|reflexivity]).
    clear Same. cbn [pre_custom_post] in E. cbv zeta in E. apply ok_inj in E as [_ E].
    pose proof (uses_fold (fun kv => String.eqb (fst kv) i) snd stack (ext_imports (shared s)) s) as U1. cbv zeta in U1.
    set (s1 := fold_left _ (ext_imports (shared s)) s) in *. clearbody s1.
    pose proof (uses_fold (fun x => String.eqb x i) (fun x => "load_" ++ x) stack (ext_loads (shared s1)) s1) as U2. cbv zeta in U2.
    set (s2 := fold_left _ (ext_loads (shared s1)) s1) in *. clearbody s2. subst s'.
    destruct U1 as (A1 & A2 & A3), U2 as (B1 & _ & _). rewrite B1, A1, A3. unfold extension_name. split.
    + intros [[H|[(kv & Hk & Ek) (f & H)]]|[(x & Hx & Ex) (f & H)]]; [tauto| |]; right; exists i, a, f; (split; [reflexivity|]); (split; [|exact H]).
      * left. apply String.eqb_eq in Ek. rewrite <- Ek. apply in_map, Hk.
      * right. apply String.eqb_eq in Ex. rewrite <- Ex. exact Hx.
    + intros [H|(i' & a' & f & [= <- <-] & [Hi|Hi] & H)]; [tauto| |].
      * left. right. split; [|exists f; exact H]. apply in_map_iff in Hi as (kv & <- & Hk). exists kv. split; [exact Hk|apply String.eqb_refl].
      * right. split; [|exists f; exact H]. exists i. split; [exact Hi|apply String.eqb_refl].
  - eapply Same; [discriminate|apply (close_same _ _ _ _ _ E)|reflexivity|reflexivity].
  - cbn [pre_custom_post] in E. pose proof (split_imports_autograd l (shared s)) as A. destruct (split_imports l (shared s)) as [kept c]. cbn [snd] in A.
    apply ok_inj in E as [_ E]. eapply Same with (v := c); [discriminate|rewrite E; reflexivity|exact A|reflexivity].
  - eapply Same; [discriminate|apply (close_same _ _ _ _ _ E)|reflexivity|reflexivity].
  - destruct (String.eqb_spec k "Assign") as [->|N].
    + cbn [pre_custom_post] in E. destruct (field_child fs (At "value" 0)) as [[]|];
        try (apply ok_inj in E as [_ ->]; eapply Same; [discriminate|reflexivity|reflexivity|reflexivity]).
      destruct (String.eqb _ _); [|apply ok_inj in E as [_ ->]; eapply Same; [discriminate|reflexivity|reflexivity|reflexivity]].
      destruct (field_child fs (At "targets" 0)) as [[]|]; try discriminate.
      apply ok_inj in E as [_ ->]. eapply Same; [discriminate|reflexivity|cbn [with_custom with_shared shared autograd]; reflexivity|reflexivity].
    + rewrite pre_post_other in E by exact N. eapply Same; [discriminate|apply (close_same _ _ _ _ _ E)|reflexivity|reflexivity].
Qed.

(** ** Which names stand for an extension *)
Lemma split_imports_names l : forall c, let (kept, c') := split_imports l c in
  kept = filter (fun a => negb (mem_str (al_name a) (extensions c))) l /\
  ext_loads c' = ext_loads c /\
  forall i, In i (dkeys (ext_imports c')) <->
    In i (dkeys (ext_imports c)) \/ exists a, In a l /\ In (al_name a) (extensions c) /\ bound_name a = i.
Proof.
  induction l as [|a l IH]; intros c; cbn [split_imports filter].
  - split; [reflexivity|]. split; [reflexivity|]. intros i. split; [tauto|]. intros [H|(a & [] & _)]. exact H.
  - destruct (mem_str (al_name a) (extensions c)) eqn:M; cbn [negb].
    + specialize (IH (MkCst (extensions c) (autograd c) (dset String.eqb (bound_name a) (al_name a) (ext_imports c)) (ext_loads c) (func_imports c))).
      destruct (split_imports l _) as [kept c']. cbn [extensions ext_imports ext_loads] in IH. destruct IH as (A & B & C).
      split; [exact A|]. split; [exact B|]. intros i. rewrite C, (dset_keys_iff _ String.eqb_spec). apply mem_str_In in M. split.
      * intros [[H|H]|(b & Hb & E)]; [right; exists a; cbn [In]; subst; auto|tauto|right; exists b; cbn [In]; tauto].
      * intros [H|(b & [<-|Hb] & E & N)]; [tauto|left; left; symmetry; exact N|right; exists b; tauto].
    + specialize (IH c). destruct (split_imports l c) as [kept c']. destruct IH as (A & B & C). split; [f_equal; exact A|]. split; [exact B|].
      intros i. rewrite C. split; [intros [H|(b & Hb & E)]; [tauto|right; exists b; cbn [In]; tauto]|].
      intros [H|(b & [<-|Hb] & E)]; [tauto| |right; exists b; tauto]. destruct E as [E _]. apply mem_str_In in E. congruence.
Qed.

(** The names the statement [n] makes stand for an extension. *)
Theorem extension_names_step n stack s r s' : pre_custom_post n stack s = Ok (r, s') ->
  forall i, extension_name (shared s') i <-> extension_name (shared s) i \/ names_extension (shared s) n i.
Proof.
  intros E i.
  assert (Same : (forall j, ~ names_extension (shared s) n j) -> ext_imports (shared s') = ext_imports (shared s) -> ext_loads (shared s') = ext_loads (shared s) ->
    (extension_name (shared s') i <-> extension_name (shared s) i \/ names_extension (shared s) n i)).
  { intros N A B. unfold extension_name. rewrite A, B. split; [tauto|]. intros [H|H]; [exact H|]. destruct (N i H). }
  assert (Close : (forall j, ~ names_extension (shared s) n j) -> close_scope n stack s = Ok (r, s') -> 
    (extension_name (shared s') i <-> extension_name (shared s) i \/ names_extension (shared s) n i)).
  { intros N C. apply close_same in C. apply Same; [exact N|rewrite C; reflexivity|rewrite C; reflexivity]. }
  destruct n as [x|v a|f a k|l|m l lv|k fs].
  - apply Close; [intros j H; inversion H|exact E].
  - destruct v as [x|w b|f a' k|l|m l lv|k fs]; try (apply Close; [intros j H; inversion H|exact E]).
    clear Close. cbn [pre_custom_post] in E. cbv zeta in E. apply ok_inj in E as [_ E].
    pose proof (uses_fold (fun kv => String.eqb (fst kv) x) snd stack (ext_imports (shared s)) s) as U1. cbv zeta in U1.
    set (s1 := fold_left _ (ext_imports (shared s)) s) in *. clearbody s1.
    pose proof (uses_fold (fun y => String.eqb y x) (fun y => "load_" ++ y) stack (ext_loads (shared s1)) s1) as U2. cbv zeta in U2.
    set (s2 := fold_left _ (ext_loads (shared s1)) s1) in *. clearbody s2. subst s'.
    destruct U1 as (A1 & A2 & A3), U2 as (B1 & B2 & B3). apply Same; [intros j H; inversion H|congruence|congruence].
  - apply Close; [intros j H; inversion H|exact E].
  - clear Same Close. cbn [pre_custom_post] in E. pose proof (split_imports_names l (shared s)) as A. destruct (split_imports l (shared s)) as [kept c].
    apply ok_inj in E as [_ ->]. cbn [with_custom with_shared shared]. destruct A as (_ & B & C). unfold extension_name. rewrite B, C. split.
    + intros [[H|([x o] & I & X & <-)]|H]; [tauto| |tauto]. right. cbn [al_name] in X. unfold bound_name. cbn [al_asname al_name].
      destruct o as [o|]; [apply by_import_as with x|apply by_import]; assumption.
    + intros [[H|H]|H]; [tauto|tauto|]. left. right. inversion H; subst; [exists (MkAlias i None)|exists (MkAlias x (Some i))]; repeat split; assumption.
  - apply Close; [intros j H; inversion H|exact E].
  - destruct (String.eqb_spec k "Assign") as [->|N].
    + cbn [pre_custom_post] in E. destruct (field_child fs (At "value" 0)) as [[x|v a|f a kw|l|m l lv|k fs']|] eqn:V;
        try (apply ok_inj in E as [_ ->]; apply Same; [intros j H; inversion H; congruence|reflexivity|reflexivity]).
      destruct (String.eqb_spec (get_full_attr f) "paddle.utils.cpp_extension.load") as [L|L];
        [|apply ok_inj in E as [_ ->]; apply Same; [intros j H; inversion H; congruence|reflexivity|reflexivity]].
      destruct (field_child fs (At "targets" 0)) as [[t| | | | |]|] eqn:T; try discriminate.
      apply ok_inj in E as [_ ->]. cbn [with_custom with_shared shared]. unfold extension_name. cbn [ext_imports ext_loads]. rewrite in_app_iff. cbn [In]. split.
      * intros [H|[H|[->|[]]]]; [tauto|tauto|]. right. apply (by_load _ _ _ f a kw); assumption.
      * intros [[H|H]|H]; [tauto|tauto|]. inversion H; subst. right. right. left. congruence.
    + rewrite pre_post_other in E by exact N. apply Close; [intros j H; inversion H; congruence|exact E].
Qed.

(** ** --exclude_packages *)
Lemma pops_raise {V} l x : fold_left (fun (d : res (dict string V)) p => let* d := d in pop p d) l (Raise x) = Raise x.
Proof. induction l as [|p l IH]; [reflexivity|]. cbn [fold_left]. exact IH. Qed.
Lemma pops_spec {V} l : forall d : dict string V, NoDup (dkeys d) ->
  (NoDup l -> (forall p, In p l -> In p (dkeys d)) ->
     fold_left (fun d p => let* d := d in pop p d) l (Ok d) = Ok (filter (fun kv => negb (mem_str (fst kv) l)) d)) /\
  (~ (NoDup l /\ forall p, In p l -> In p (dkeys d)) ->
     fold_left (fun d p => let* d := d in pop p d) l (Ok d) = Raise "KeyError").
Proof.
  induction l as [|p l IH]; intros d N; cbn [fold_left bind].
  - split.
    + intros _ _. f_equal. cbn [mem_str existsb negb]. induction d as [|kv d IHd]; [reflexivity|]. cbn [filter]. f_equal. apply IHd. inversion N; assumption.
    + intros H. exfalso. apply H. split; [constructor|]. intros p [].
  - change (pop p d) with (if dmem String.eqb p d then Ok (ddel String.eqb p d) else Raise "KeyError"). rewrite dmem_mem. destruct (mem_str p (dkeys d)) eqn:M.
    + apply mem_str_In in M. rewrite (ddel_filter _ String.eqb_spec p d N). set (d1 := filter _ d).
      assert (K : forall q, In q (dkeys d1) <-> In q (dkeys d) /\ q <> p).
      { intros q. unfold d1, dkeys. rewrite !in_map_iff. split.
        - intros (kv & <- & H). apply filter_In in H as [H E]. split; [exists kv; auto|]. intros X. rewrite X, String.eqb_refl in E. discriminate.
        - intros [(kv & <- & H) E]. exists kv. split; [reflexivity|]. apply filter_In. split; [exact H|].
          destruct (String.eqb_spec p (fst kv)); [congruence|reflexivity]. }
      assert (N1 : NoDup (dkeys d1)) by (unfold d1; rewrite <- (ddel_filter _ String.eqb_spec p d N); apply (ddel_nodup _ String.eqb_spec), N).
      destruct (IH d1 N1) as [I1 I2]. split.
      * intros Nl H. inversion Nl as [|? ? Np Nl']; subst. rewrite I1.
        -- f_equal. unfold d1. clear. induction d as [|kv d IH]; [reflexivity|]. cbn [filter mem_str existsb].
           rewrite (String.eqb_sym (fst kv) p). fold (mem_str (fst kv) l).
           destruct (String.eqb p (fst kv)); cbn [negb orb]; [exact IH|]. cbn [filter]. rewrite IH. reflexivity.
        -- exact Nl'.
        -- intros q Hq. apply K. split; [apply H; right; exact Hq|]. intros ->. contradiction.
      * intros H. apply I2. intros [Nl G]. apply H. split.
        -- constructor; [|exact Nl]. intros I. apply G, K in I. tauto.
        -- intros q [<-|Hq]; [exact M|]. apply K, G, Hq.
    + apply mem_str_false in M. split.
      * intros _ H. exfalso. apply M, H. left. reflexivity.
      * intros _. apply pops_raise.
Qed.

(** ** Sorting names by length *)
Definition put (x : string) := fix put (l : list string) : list string :=
  match l with
  | [] => [x]
  | y :: r => if (String.length y <=? String.length x)%nat then x :: y :: r else y :: put r
  end.
Lemma by_length_cons x l : by_length (x :: l) = put x (by_length l). Proof. reflexivity. Qed.
Definition longer (x y : string) : Prop := (String.length y <= String.length x)%nat.
Lemma put_perm x l : Permutation (x :: l) (put x l).
Proof.
  induction l as [|y l IH]; cbn [put]; [reflexivity|]. destruct (_ <=? _)%nat; [reflexivity|].
  rewrite perm_swap. apply perm_skip, IH.
Qed.
Lemma put_sorted x l : StronglySorted longer l -> StronglySorted longer (put x l).
Proof.
  induction l as [|y l IH]; intros S; cbn [put]; [repeat constructor|]. inversion S as [|? ? Sl Fy]; subst.
  destruct (Nat.leb_spec (String.length y) (String.length x)).
  - constructor; [exact S|]. constructor; [exact H|]. eapply Forall_impl; [|exact Fy]. unfold longer. intros; lia.
  - constructor; [apply IH, Sl|]. eapply Permutation_Forall; [apply put_perm|]. constructor; [unfold longer; lia|exact Fy].
Qed.
Lemma put_class n x l : StronglySorted longer l ->
  filter (fun y => Nat.eqb (String.length y) n) (put x l) = filter (fun y => Nat.eqb (String.length y) n) (x :: l).
Proof.
  induction l as [|y l IH]; intros S; cbn [put]; [reflexivity|]. inversion S; subst.
  destruct (Nat.leb_spec (String.length y) (String.length x)); [reflexivity|]. cbn [filter] in *. rewrite IH by assumption.
  destruct (Nat.eqb_spec (String.length y) n), (Nat.eqb_spec (String.length x) n); try reflexivity. lia.
Qed.
Lemma by_length_spec l : Permutation l (by_length l) /\ StronglySorted longer (by_length l) /\
  forall n, filter (fun y => Nat.eqb (String.length y) n) (by_length l) = filter (fun y => Nat.eqb (String.length y) n) l.
Proof.
  induction l as [|x l (P & S & F)]; [repeat split; constructor|]. rewrite by_length_cons. split; [|split].
  - rewrite <- put_perm. apply perm_skip, P.
  - apply put_sorted, S.
  - intros n. rewrite put_class by exact S. cbn [filter]. rewrite F. reflexivity.
Qed.

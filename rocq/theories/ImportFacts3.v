(** The [pass] the import pass leaves in "if" and "try" blocks; local modules; relative
    imports of huggingface_internal. *)
From Coq Require Import Lia.
From Verif Require Import PyStr PyStrFacts PyDict PyDictFacts TablesData Lookup LookupFacts UtilsFacts Ast AstFacts ImportPass ImportSpec ImportFacts ImportFacts2.
Opaque api_mapping attribute_mapping alias_mapping wildcard_mapping matcher_classes.

(** ** Paths *)
Definition path_of (p : pos) (st : list frame) : list pos := p :: map e_pos st.
Definition below (top q : list pos) : Prop := exists l, q = (l ++ top)%list.
Definition fresh (top : list pos) (s : ist) : Prop := forall q, In q (pass_parents s) -> ~ below top q.
(** Only paths below [top] have been added. *)
Definition grown (top : list pos) (u u' : ist) : Prop :=
  forall q, In q (pass_parents u') -> In q (pass_parents u) \/ below top q.

Lemma pos_eqb_eq a b : pos_eqb a b = true <-> a = b.
Proof.
  unfold pos_eqb. rewrite andb_true_iff, String.eqb_eq, Nat.eqb_eq. destruct a, b. cbn. intuition congruence.
Qed.
Lemma path_eqb_eq a : forall b, path_eqb a b = true <-> a = b.
Proof.
  induction a as [|x a IH]; intros [|y b]; cbn; try (split; congruence).
  rewrite andb_true_iff, pos_eqb_eq, IH. intuition congruence.
Qed.
Lemma grown_refl top u : grown top u u.
Proof. intros q H. auto. Qed.
Lemma grown_trans top u v w : grown top u v -> grown top v w -> grown top u w.
Proof. intros H1 H2 q H. destruct (H2 q H) as [H'|H']; auto. Qed.
Lemma grown_up p top u u' : grown (p :: top) u u' -> grown top u u'.
Proof. intros H q Hq. destruct (H q Hq) as [H'|[l ->]]; [auto|]. right. exists (l ++ [p])%list. rewrite <- app_assoc. reflexivity. Qed.
Lemma grown_same top u u' : pass_parents u' = pass_parents u -> grown top u u'.
Proof. intros E q. rewrite E. auto. Qed.

Lemma record_pass x f s s' : record_import x f s = Ok s' -> pass_parents s' = pass_parents s.
Proof. unfold record_import. destruct (mem_str x bookkeeping); intros E; [discriminate|]. injection E as <-. reflexivity. Qed.
Lemma note_pass pkg s : pass_parents (note_package pkg s) = pass_parents s.
Proof. unfold note_package. destruct (mem_str pkg may_torch_package_list); reflexivity. Qed.
Lemma import_names_pass e l : forall s l' s', import_names e l s = Ok (l', s') -> pass_parents s' = pass_parents s.
Proof.
  induction l as [|a r IH]; intros s l' s' E; cbn [import_names] in E.
  - injection E as <- <-. reflexivity.
  - destruct (is_local e (al_name a)); [injection E as <- <-; reflexivity|].
    destruct (torch_package_of (al_name a)).
    + destruct (record_import _ _ _) as [s1|] eqn:R; [|discriminate]. cbn [bind] in E.
      destruct (import_names e r s1) as [[rest s2]|] eqn:N; [|discriminate]. cbn [bind] in E. injection E as <- <-.
      rewrite (IH _ _ _ N), (record_pass _ _ _ _ R). apply note_pass.
    + destruct (renamed_package_of (al_name a)) as [[pkg target]|].
      * destruct (import_names e r s) as [[rest s2]|] eqn:N; [|discriminate]. cbn [bind] in E. injection E as <- <-. exact (IH _ _ _ N).
      * destruct (import_names e r _) as [[rest s2]|] eqn:N; [|discriminate]. cbn [bind] in E. injection E as <- <-. exact (IH _ _ _ N).
Qed.
Lemma note_others_pass l : forall s, pass_parents (note_others l s) = pass_parents s.
Proof.
  unfold note_others. induction l as [|a l IH]; intros s; [auto|]. cbn [fold_left].
  destruct (al_asname a); [apply (IH (with_other s s0))|].
  destruct (String.eqb (al_name a) "*"); [apply IH|apply (IH (with_other s (al_name a)))].
Qed.
Lemma record_from_pass m l : forall s s', record_from m l s = Ok s' -> pass_parents s' = pass_parents s.
Proof.
  induction l as [|a l IH]; intros s s' E; cbn [record_from] in E; [injection E as <-; reflexivity|].
  destruct (record_import _ _ s) as [s1|] eqn:R; [|discriminate]. cbn [bind] in E.
  rewrite (IH _ _ E). exact (record_pass _ _ _ _ R).
Qed.

(** A visited statement: it yields something, or else it was an import whose parent is
    not an "if" or "try", or one that already has a [pass]. *)
Definition removed_ok (st : list frame) (r : visited) (s s' : ist) : Prop :=
  (exists n, r = VNode n /\ (n = pass_node \/ is_import n = true) /\ (pass_parents s' = pass_parents s \/ pass_parents s' = map e_pos st :: pass_parents s)) \/
  (r = VNone /\ pass_parents s' = pass_parents s /\ exists f rest, st = f :: rest /\
     (In (kind_of (e_node f)) ["If"; "Try"] -> In (map e_pos st) (pass_parents s))).
Lemma remove_import_ok fr st s r s' : remove_import (fr :: st) s = Ok (r, s') -> removed_ok st r s s'.
Proof.
  unfold remove_import, parent, parent_path. destruct st as [|f st]; [discriminate|]. cbn [bind tl].
  destruct (mem_str (kind_of (e_node f)) ["If"; "Try"]) eqn:M; cbn [andb].
  - destruct (existsb _ (pass_parents s)) eqn:X; cbn [negb]; intros E; injection E as <- <-.
    + right. split; [reflexivity|]. split; [reflexivity|]. exists f, st. split; [reflexivity|]. intros _.
      apply existsb_exists in X as (q & Hq & Eq). apply path_eqb_eq in Eq. subst q. exact Hq.
    + left. eexists. split; [reflexivity|]. split; [left; reflexivity|]. right. reflexivity.
  - intros E; injection E as <- <-. right. split; [reflexivity|]. split; [reflexivity|]. exists f, st. split; [reflexivity|].
    intros I. apply PyStrFacts.mem_str_In in I. congruence.
Qed.
Lemma removed_ok_start st r s1 s2 s' : removed_ok st r s2 s' -> pass_parents s2 = pass_parents s1 -> removed_ok st r s1 s'.
Proof. unfold removed_ok. intros H E. rewrite E in H. exact H. Qed.
Lemma post_pass e n fr st s r s' : import_post e n (fr :: st) s = Ok (r, s') ->
  if is_import n then removed_ok st r s s' else exists n', r = VNode n' /\ (n' = n \/ exists t, n' = parse_dotted t) /\ pass_parents s' = pass_parents s.
Proof.
  assert (Em : forall api m s, exists n', fst (emit e api m s) = VNode n' /\ (n' = m \/ exists t, n' = parse_dotted t) /\ pass_parents (snd (emit e api m s)) = pass_parents s).
  { intros api m s0. unfold emit. destruct (in_min_mode _ _); cbn; eauto 6. }
  intros E. destruct n as [i|v a|f a k|l|m l lv|k fs]; cbn [import_post is_import] in *.
  - unfold visit_name in E. destruct (name_position i _ s) as [[api|[[] asg]]|]; [| | |discriminate]; cbn [bind] in E.
    + destruct (Em api (Name i) s) as (n' & E1 & Ed & E2). injection E as E. rewrite E in E1, E2. eauto.
    + destruct (get_torch_api (Name i) s) as [[api|]|]; [| |discriminate]; cbn [bind] in E.
      * destruct (String.eqb api ""); [injection E as <- <-; eauto|].
        destruct (parent (fr :: st)) as [q|]; [|discriminate]. cbn [bind] in E.
        set (s1 := match (if asg then assign_target q else None) with Some t => with_alias s t api | None => s end) in *.
        destruct (Em api (Name i) s1) as (n' & E1 & Ed & E2). injection E as E. rewrite E in E1, E2. cbn [fst snd] in *.
        exists n'. split; [exact E1|]. split; [exact Ed|]. rewrite E2. unfold s1. destruct (if asg then assign_target q else None); reflexivity.
      * injection E as <- <-. eauto.
    + injection E as <- <-. eauto.
  - unfold finish_attribute in E. destruct (get_torch_api _ s) as [[api|]|]; [| |discriminate]; cbn [bind] in E.
    + destruct (String.eqb api ""); [injection E as <- <-; eauto|].
      destruct (Em api (Attribute v a) s) as (n' & E1 & Ed & E2). injection E as E. rewrite E in E1, E2. eauto.
    + injection E as <- <-. eauto.
  - injection E as <- <-. eauto.
  - unfold visit_import in E. destruct (import_names e l s) as [[l' s1]|] eqn:N; [|discriminate]. cbn [bind] in E.
    apply import_names_pass in N. destruct l'.
    + eapply removed_ok_start; [eapply remove_import_ok; exact E|exact N].
    + injection E as <- <-. left. eexists. split; [reflexivity|]. split; [right; reflexivity|]. left. exact N.
  - unfold visit_import_from in E.
    destruct (from_module e m lv) as [[[m' lv']|]|] eqn:F; [| |discriminate]; cbn [bind] in E.
    + destruct (torch_package_of m').
      * destruct (record_from m' l _) as [s1|] eqn:R; [|discriminate]. cbn [bind] in E.
        apply record_from_pass in R. rewrite note_pass in R.
        destruct (min_mode e); [injection E as <- <-; left; eexists; split; [reflexivity|]; split; [right; reflexivity|]; left; exact R|].
        eapply removed_ok_start; [eapply remove_import_ok; exact E|exact R].
      * destruct (renamed_package_of m') as [[pkg target]|]; injection E as <- <-; left; eexists; (split; [reflexivity|]); (split; [right; reflexivity|]); left; [reflexivity|].
        apply note_others_pass.
    + injection E as <- <-. left. eexists. split; [reflexivity|]. split; [right; reflexivity|]. left. apply note_others_pass.
  - injection E as <- <-. eauto.
Qed.

(** ** Bodies of "if" and "try" stay non-empty *)
Lemma not_below_self x (top : list pos) : ~ below (x :: top) top.
Proof. intros [l E]. apply (f_equal (@List.length pos)) in E. rewrite app_length in E. cbn in E. lia. Qed.
Lemma below_other x y (top q : list pos) : x <> y -> below (x :: top) q -> ~ below (y :: top) q.
Proof.
  intros N [l1 ->] [l2 E]. assert (L : List.length l1 = List.length l2).
  { apply (f_equal (@List.length pos)) in E. rewrite !app_length in E. cbn in E. lia. }
  apply N. revert l2 E L. induction l1 as [|z l1 IH]; intros [|w l2] E L; cbn in *; try lia.
  - congruence.
  - injection E as _ E. eapply IH; [exact E|lia].
Qed.
Lemma bodies_children n : (forall c, In c (children n) -> bodies_nonempty c) ->
  (forall k fs l, n = Other k fs -> In k ["If"; "Try"] -> In (Many "body" l) fs -> l <> []) -> bodies_nonempty n.
Proof.
  intros Hc Hn k fs l I. rewrite nodes_children in I. destruct I as [E|I]; [exact (Hn k fs l E)|].
  apply in_flat_map in I as (c & Ic & I). exact (Hc c Ic k fs l I).
Qed.
Lemma shaped_child n c : shaped n -> In c (children n) -> shaped c.
Proof. intros H I k fs J. apply H. eapply child_nodes; eassumption. Qed.
Lemma shaped_bodies n : shaped n -> bodies_nonempty n.
Proof.
  intros H k fs l I Ik Il. destruct (H k fs I) as [N B]. destruct (B Ik) as (head & b & tail & -> & Nb & Hh).
  apply in_app_iff in Il. destruct Il as [Il|[Il|Il]]; [exfalso; eapply Hh; exact Il|congruence|].
  exfalso. rewrite map_app in N. cbn [map field_name] in N. apply NoDup_remove_2 in N. apply N, in_or_app. right.
  change "body" with (field_name (Many "body" l)). apply in_map, Il.
Qed.
Lemma dotted_bodies m : forall t, dotted m = Some t -> bodies_nonempty m.
Proof.
  induction m as [i|v a IH|f aa k Hf Ha Hk|l|m l lv|k fs Hfs] using node_ind2; intros t D; try discriminate D;
    apply bodies_children; try discriminate.
  - intros c [].
  - intros c [<-|[]]. cbn [dotted] in D. destruct (dotted v) as [u|]; [|discriminate]. exact (IH u eq_refl).
Qed.

Section Pass.
  Variable e : env.
  Definition P5 (n : node) (p : pos) (st : list frame) (u : ist) (r : visited) (u' : ist) : Prop :=
    grammatical n -> shaped n -> fresh (path_of p st) u ->
    if is_import n then removed_ok st r u u'
    else grown (path_of p st) u u' /\ exists n', r = VNode n' /\ bodies_nonempty n'.

  (** What a list of statements below a node at path [top] does. *)
  Lemma list_pass nm st l : forall i u l' u', in_list P5 nm st i l u l' u' ->
    (forall x, In x l -> grammatical x /\ shaped x) ->
    (forall j, (i <= j)%nat -> fresh (At nm j :: map e_pos st) u) ->
    (forall x, In x l' -> bodies_nonempty x) /\
    (forall q, In q (pass_parents u') -> In q (pass_parents u) \/ q = map e_pos st \/ exists j, below (At nm j :: map e_pos st) q) /\
    ((forall x, In x l -> is_import x = false) -> forall q, In q (pass_parents u') -> In q (pass_parents u) \/ exists j, below (At nm j :: map e_pos st) q) /\
    (l <> [] -> ~ In (map e_pos st) (pass_parents u) ->
     (exists f rest, st = f :: rest /\ In (kind_of (e_node f)) ["If"; "Try"]) -> l' <> []).
  Proof.
    induction 1 as [i u|i x l u r u1 rest u2 Hx Hl IH]; intros G F.
    - split; [intros x []|]. split; [auto|]. split; [auto|]. congruence.
    - destruct (G x (or_introl eq_refl)) as [Gx Sx]. specialize (Hx Gx Sx (F i (Nat.le_refl i))).
      assert (S1 : forall q, In q (pass_parents u1) -> In q (pass_parents u) \/ (q = map e_pos st /\ is_import x = true) \/ below (At nm i :: map e_pos st) q).
      { intros q Hq. destruct (is_import x).
        - destruct Hx as [(n & _ & _ & [E|E])|(_ & E & _)]; rewrite E in Hq; auto. destruct Hq as [<-|Hq]; auto.
        - destruct Hx as [Hg _]. destruct (Hg q Hq); auto. }
      destruct IH as (I1 & I2 & I3 & _).
      { intros y Hy. apply G. right. exact Hy. }
      { intros j Hj q Hq B. destruct (S1 q Hq) as [H|[[-> _]|H]].
        - apply (F j) in H; [contradiction|lia].
        - exact (not_below_self _ _ B).
        - eapply below_other; [|exact H|exact B]. intros E. injection E as E. lia. }
      split; [|split; [|split]].
      + intros y Hy. apply in_app_iff in Hy. destruct Hy as [Hy|Hy]; [|exact (I1 y Hy)].
        destruct (is_import x) eqn:I.
        * destruct Hx as [(n & -> & Ni & _)|(-> & _)]; [|contradiction]. destruct Hy as [<-|[]].
          intros k fs b Ib Ik Ibb. destruct Ni as [->|Ni].
          -- destruct Ib as [E|[]]. injection E as <- <-. destruct Ibb.
          -- destruct n; try discriminate Ni; destruct Ib as [E|[]]; discriminate E.
        * destruct Hx as [_ (n' & -> & B)]. destruct Hy as [<-|[]]. exact B.
      + intros q Hq. destruct (I2 q Hq) as [H|[H|H]]; auto. destruct (S1 q H) as [H'|[[H' _]|H']]; eauto.
      + intros NI q Hq. destruct (I3 (fun y Hy => NI y (or_intror Hy)) q Hq) as [H|H]; auto.
        destruct (S1 q H) as [H'|[[_ H']|H']]; eauto. rewrite (NI x (or_introl eq_refl)) in H'. discriminate.
      + intros _ NP (f & rest' & -> & Kf) E. apply app_eq_nil in E as [E _].
        destruct (is_import x).
        * destruct Hx as [(n & -> & _)|(-> & _ & f' & rest'' & Ef & H)]; [discriminate E|].
          injection Ef as <- <-. exact (NP (H Kf)).
        * destruct Hx as [_ (n' & -> & _)]. discriminate E.
  Qed.

  (** The fields of a node at path [top], those visited first. *)
  Definition todo_fresh (top : list pos) (todo : list field) (u : ist) : Prop :=
    forall f j, In f todo -> fresh (At (field_name f) j :: top) u.
  Lemma fields_pass k p st done todo u fs' u' : in_fields P5 k p st done todo u fs' u' ->
    NoDup (map field_name todo) ->
    (forall x, In x (flat_map field_nodes todo) -> grammatical x /\ shaped x) ->
    (forall nm c, In (One nm c) todo -> is_import c = false) ->
    todo_fresh (path_of p st) todo u ->
    (forall q, In q (pass_parents u') -> In q (pass_parents u) \/ below (path_of p st) q) /\
    exists new, fs' = (done ++ new)%list /\ map field_name new = map field_name todo /\
      (forall x, In x (flat_map field_nodes new) -> bodies_nonempty x) /\
      (In k ["If"; "Try"] -> forall head b tail, todo = (head ++ Many "body" b :: tail)%list -> b <> [] ->
         (forall nm l, ~ In (Many nm l) head) -> ~ In (path_of p st) (pass_parents u) ->
         forall l, In (Many "body" l) new -> l <> []).
  Proof.
    induction 1 as [done u|done nm x todo u fs u' H IH|done nm c todo u v u1 fs u' Hc H IH|done nm l todo u l' u1 fs u' Hl H IH];
      intros N G O F; cbn [map field_name] in N.
    - split; [auto|]. exists []. rewrite app_nil_r. split; [reflexivity|]. split; [reflexivity|]. split; [intros x []|].
      intros _ head b tail E. destruct head; discriminate E.
    - destruct IH as (I1 & new & -> & In' & I2 & I3).
      { exact (proj2 (proj1 (NoDup_cons_iff _ _) N)). }
      { exact G. }
      { intros nm' c I. apply (O nm' c). right. exact I. }
      { intros f j I. apply F. right. exact I. }
      split; [exact I1|]. exists (Data nm x :: new). rewrite <- app_assoc. split; [reflexivity|]. split; [cbn [map field_name]; f_equal; exact In'|]. split; [exact I2|].
      intros Ik head b tail E Nb Hh NP l [El|Il]; [discriminate El|].
      destruct head as [|h head]; [discriminate E|]. injection E as <- E.
      exact (I3 Ik head b tail E Nb (fun nm' l' I => Hh nm' l' (or_intror I)) NP l Il).
    - pose proof (O nm c (or_introl eq_refl)) as Ic.
      destruct (G c) as [Gc Sc]; [cbn [flat_map field_nodes]; left; reflexivity|].
      assert (Fc : fresh (path_of (At nm 0) (MkFrame (Other k (done ++ One nm c :: todo)) p :: st)) u).
      { apply (F (One nm c) 0). left. reflexivity. }
      specialize (Hc Gc Sc Fc). rewrite Ic in Hc. destruct Hc as [Gr (c' & -> & Bc)].
      destruct IH as (I1 & new & -> & In' & I2 & I3).
      { exact (proj2 (proj1 (NoDup_cons_iff _ _) N)). }
      { intros x Ix. apply G. cbn [flat_map]. apply in_or_app. auto. }
      { intros nm' c0 I. apply (O nm' c0). right. exact I. }
      { intros f j I q Hq B. destruct (Gr q Hq) as [Hq'|Hq'].
        - exact (F f j (or_intror I) q Hq' B).
        - eapply below_other; [|exact Hq'|exact B]. intros E. injection E as E _.
          apply (proj1 (proj1 (NoDup_cons_iff _ _) N)). rewrite E. apply in_map, I. }
      split.
      { intros q Hq. destruct (I1 q Hq) as [Hq'|Hq']; [|auto]. exact (grown_up _ _ _ _ Gr q Hq'). }
      exists (One nm c' :: new). rewrite <- app_assoc. split; [reflexivity|]. split; [cbn [map field_name]; f_equal; exact In'|]. split.
      { intros x Ix. cbn [flat_map field_nodes app] in Ix. destruct Ix as [<-|Ix]; auto. }
      intros Ik head b tail E Nb Hh NP l [El|Il]; [discriminate El|].
      destruct head as [|h head]; [discriminate E|]. injection E as <- E.
      apply (I3 Ik head b tail E Nb (fun nm' l' I => Hh nm' l' (or_intror I))); [|exact Il].
      intros HI. destruct (Gr _ HI) as [HI'|HI']; [exact (NP HI')|exact (not_below_self _ _ HI')].
    - destruct (list_pass nm _ l 0 u l' u1 Hl) as (L1 & L2 & _ & L4).
      { intros x Ix. apply G. cbn [flat_map]. apply in_or_app. left. exact Ix. }
      { intros j _. apply (F (Many nm l) j). left. reflexivity. }
      cbn [map e_pos] in L2, L4. fold (path_of p st) in L2, L4.
      destruct IH as (I1 & new & -> & In' & I2 & I3).
      { exact (proj2 (proj1 (NoDup_cons_iff _ _) N)). }
      { intros x Ix. apply G. cbn [flat_map]. apply in_or_app. auto. }
      { intros nm' c0 I. apply (O nm' c0). right. exact I. }
      { intros f j I q Hq B. destruct (L2 q Hq) as [Hq'|[->|(i & Hq')]].
        - exact (F f j (or_intror I) q Hq' B).
        - exact (not_below_self _ _ B).
        - eapply below_other; [|exact Hq'|exact B]. intros E. injection E as E _.
          apply (proj1 (proj1 (NoDup_cons_iff _ _) N)). rewrite E. apply in_map, I. }
      split.
      { intros q Hq. destruct (I1 q Hq) as [Hq'|Hq']; [|auto]. destruct (L2 q Hq') as [Hr|[->|(i & [m ->])]]; [auto|right; exists []; reflexivity|].
        right. exists (m ++ [At nm i])%list. rewrite <- app_assoc. reflexivity. }
      exists (Many nm l' :: new). rewrite <- app_assoc. split; [reflexivity|]. split; [cbn [map field_name]; f_equal; exact In'|]. split.
      { intros x Ix. cbn [flat_map field_nodes] in Ix. apply in_app_iff in Ix as [Ix|Ix]; auto. }
      intros Ik head b tail E Nb Hh NP l0 [El|Il].
      + injection El as -> ->. apply L4; [|exact NP|eexists _, _; split; [reflexivity|exact Ik]].
        destruct head as [|h head].
        * cbn [app] in E. injection E as -> _. exact Nb.
        * injection E as <- _. exfalso. exact (Hh _ _ (or_introl eq_refl)).
      + (* the body was this field, so no later field has its name *)
        destruct head as [|h head].
        * cbn [app] in E. injection E as -> -> <-.
          assert (M : In "body" (map field_name todo)).
          { rewrite <- In'. change "body" with (field_name (Many "body" l0)). apply in_map, Il. }
          exfalso. exact (proj1 (proj1 (NoDup_cons_iff _ _) N) M).
        * injection E as <- _. exfalso. exact (Hh _ _ (or_introl eq_refl)).
  Qed.

  Lemma pass_main n p st u r st' u' : visit import_pre (import_post e) n p (st, u) = Ok (r, (st', u')) ->
    st' = st /\ P5 n p st u r u'.
  Proof.
    apply (visit_sound import_pre (import_post e) P5). clear n p st u r st' u'.
    intros n p st u go u1 n' u2 r u3 E1 G E2 Gr Sh Fr.
    assert (u1 = u) as -> by (destruct n; injection E1 as <- <-; reflexivity).
    apply post_pass in E2.
    destruct (is_import n) eqn:I.
    - assert (go = false) as -> by (destruct n; try discriminate I; injection E1 as <-; reflexivity).
      destruct G as [-> ->]. rewrite I in E2. exact E2.
    - assert (X : is_import n' = false /\ grown (path_of p st) u u2 /\ bodies_nonempty n').
      { pose proof (Gr n (self_in n)) as Lo.
        assert (Gc : forall c, In c (children n) -> grammatical c /\ shaped c).
        { intros c Ic. split; [eapply grammatical_child|eapply shaped_child]; eassumption. }
        assert (Fc : forall q, fresh (q :: path_of p st) u).
        { intros q x Hx [l ->]. apply (Fr _ Hx). exists (l ++ [q])%list. rewrite <- app_assoc. reflexivity. }
        destruct go.
        - destruct G as [i u|l u|m l i u|v a u r' u1 Hv|f a k u r' u1 a' u2 k' u3' Hf Ha Hk|k fs u fs' u' Hfs]; try discriminate I.
          + split; [reflexivity|]. split; [apply grown_refl|]. apply (dotted_bodies (Name i) i eq_refl).
          + destruct (Gc v (or_introl eq_refl)) as [Gv Sv]. specialize (Hv Gv Sv (Fc _)).
            assert (Iv : is_import v = false).
            { cbn [local_ok] in Lo. destruct v; try reflexivity; discriminate Lo. }
            rewrite Iv in Hv. destruct Hv as [Gw (v' & -> & Bv)]. split; [reflexivity|]. split; [exact (grown_up _ _ _ _ Gw)|].
            apply bodies_children; [intros c [<-|[]]; exact Bv|discriminate].
          + assert (Ic : forall x, In x (f :: a ++ k) -> is_import x = false) by exact Lo.
            destruct (Gc f (or_introl eq_refl)) as [Gf Sf]. specialize (Hf Gf Sf (Fc _)).
            rewrite (Ic f (or_introl eq_refl)) in Hf. destruct Hf as [Gw (f' & -> & Bf)].
            destruct (list_pass "args" _ a 0 u1 a' u2 Ha) as (A1 & _ & A3 & _).
            { intros x Ix. apply Gc. right. apply in_or_app. auto. }
            { intros j _ q Hq B. destruct (Gw q Hq) as [Hq'|Hq']; [exact (Fc _ q Hq' B)|].
              eapply below_other; [|exact Hq'|exact B]. discriminate. }
            specialize (A3 (fun x Ix => Ic x (or_intror (in_or_app _ _ _ (or_introl Ix))))).
            destruct (list_pass "keywords" _ k 0 u2 k' u3' Hk) as (B1 & _ & B3 & _).
            { intros x Ix. apply Gc. right. apply in_or_app. auto. }
            { intros j _ q Hq B. destruct (A3 q Hq) as [Hq'|(i & Hq')].
              - destruct (Gw q Hq') as [Hr|Hr]; [exact (Fc _ q Hr B)|].
                eapply below_other; [|exact Hr|exact B]. discriminate.
              - eapply below_other; [|exact Hq'|exact B]. discriminate. }
            specialize (B3 (fun x Ix => Ic x (or_intror (in_or_app _ _ _ (or_intror Ix))))).
            split; [reflexivity|]. split.
            * cbn [map e_pos] in A3, B3. fold (path_of p st) in A3, B3.
              intros q Hq. destruct (B3 q Hq) as [Hq1|(i & [m ->])]; [|right; exists (m ++ [At "keywords" i])%list; rewrite <- app_assoc; reflexivity].
              destruct (A3 q Hq1) as [Hq2|(i & [m ->])]; [|right; exists (m ++ [At "args" i])%list; rewrite <- app_assoc; reflexivity].
              exact (grown_up _ _ _ _ Gw q Hq2).
            * apply bodies_children; [|discriminate]. cbn [call_of children]. intros c [<-|Hc]; [exact Bf|].
              apply in_app_iff in Hc as [Hc|Hc]; auto.
          + destruct Lo as (O1 & O2 & _). destruct (Sh k fs (self_in _)) as [Nd Hb].
            destruct (fields_pass k p st [] fs u fs' u' Hfs Nd) as (I1 & new & -> & _ & I2 & I3).
            { intros x Ix. apply Gc. rewrite children_fields. exact Ix. }
            { exact O1. }
            { intros f j _. apply Fc. }
            cbn [app]. split; [reflexivity|]. split; [exact I1|].
            apply bodies_children; [intros c Ic; apply I2; rewrite children_fields in Ic; exact Ic|].
            intros k0 fs0 l E Ik Il. injection E as <- <-. destruct (Hb Ik) as (head & b & tail & E & Nb & Hh).
            apply (I3 Ik head b tail E Nb Hh); [|exact Il]. intros HI. apply (Fr _ HI). exists []. reflexivity.
        - destruct G as [-> ->]. split; [exact I|]. split; [apply grown_refl|]. apply shaped_bodies, Sh. }
      destruct X as (I' & Gw & B). rewrite I' in E2. destruct E2 as (n'' & -> & Ed & Ep). split.
      + intros q. rewrite Ep. apply Gw.
      + exists n''. split; [reflexivity|].
        destruct Ed as [->|[t ->]]; [exact B|]. exact (dotted_bodies _ _ (dotted_parse t)).
  Qed.
End Pass.

Theorem file_bodies e order body out s : program body -> shaped (module body) ->
  import_transform e order (module body) = Ok (out, s) -> bodies_nonempty out.
Proof.
  intros G Sh E. unfold import_transform in E. destruct (import_visit e (module body)) as [[v [st s']]|] eqn:V; [|discriminate].
  cbn [bind] in E. pose proof V as V'. unfold import_visit in V'. apply pass_main in V' as [_ H].
  specialize (H G Sh). cbn [is_import module] in H.
  destruct H as [_ (n' & -> & B)]; [intros q []|]. injection E as <- <-.
  destruct (import_visit_rw e AnyK (module body) _ _ _ eq_refl G (grammatical_knows e _ G) V) as (_ & n'' & Ev & R & _).
  injection Ev as <-. destruct (rw_module e _ body n' R) as (b' & -> & _). cbn [insert_front module map].
  intros k fs l I Ik Il. rewrite nodes_children in I. destruct I as [Em|I].
  - injection Em as <- <-. cbn [In] in Ik. intuition discriminate.
  - cbn [children flat_map] in I. rewrite app_nil_r, flat_map_app, in_app_iff in I. destruct I as [I|I].
    + apply in_flat_map in I as (x & Ix & I). apply in_map_iff in Ix as (q & <- & _). destruct I as [I|[]]. discriminate I.
    + apply (B k fs l); [|exact Ik|exact Il]. rewrite nodes_children. right. cbn [children module flat_map]. rewrite app_nil_r. exact I.
Qed.

(** ** Modules of the project *)
Lemma replace_dots m : py_replace m "." "/" = map_chars (fun c => if Ascii.eqb c "."%char then "/"%char else c) m.
Proof.
  unfold py_replace. induction m as [|c m IH]; [reflexivity|]. cbn [replace_aux map_chars].
  assert (prefix "." (String c m) = if ascii_dec "."%char c then true else false) as ->
    by (cbn [prefix]; destruct (ascii_dec "."%char c), m; reflexivity).
  destruct (ascii_dec "."%char c) as [<-|N].
  - rewrite Ascii.eqb_refl. destruct m; cbn [pred String.length append]; f_equal; exact IH.
  - destruct (Ascii.eqb_spec c "."%char) as [->|_]; [congruence|]. f_equal. exact IH.
Qed.
Lemma prefix_false_first x d (m : string) : prefix (String x "") (String d m) = false <-> x <> d.
Proof. cbn [prefix]. destruct (ascii_dec x d); destruct m; cbn [prefix]; split; intros; congruence. Qed.
Lemma rsplit1_none c s : no_char c s -> rsplit1 c s = None.
Proof.
  induction s as [|d s IH]; [reflexivity|]. intros [N H]. cbn [rsplit1]. rewrite (IH H).
  destruct (Ascii.eqb_spec d c); [congruence|reflexivity].
Qed.
Lemma rsplit1_last c a b : no_char c b -> rsplit1 c (a ++ String c b) = Some (a, b).
Proof.
  intros H. induction a as [|d a IH]; cbn [append rsplit1].
  - rewrite (rsplit1_none c b H), Ascii.eqb_refl. reflexivity.
  - rewrite IH. reflexivity.
Qed.
Lemma dirname_spec dir c base : c <> slash -> no_char slash base ->
  dirname ((dir ++ String c "") ++ "/" ++ base) = dir ++ String c "".
Proof.
  intros N H. unfold dirname. change ("/" ++ base) with (String slash base). rewrite rsplit1_last by exact H.
  assert (Nc : Ascii.eqb slash c = false) by (destruct (Ascii.eqb_spec slash c); congruence).
  assert (forallb (Ascii.eqb slash) (list_ascii_of_string (dir ++ String c "")) = false) as ->.
  { induction dir as [|d dir IH]; cbn [append list_ascii_of_string forallb]; [rewrite Nc; reflexivity|]. rewrite IH. apply andb_false_r. }
  apply rstrip_keep, Nc.
Qed.
Lemma is_local_spec e dir c base m :
  file e = (dir ++ String c "") ++ "/" ++ base -> c <> slash -> no_char slash base ->
  startswith m "." = false -> startswith m "/" = false ->
  is_local e m = true <->
  exists_path e (module_path (dir ++ String c "") m) = true \/
  exists_path e (module_path (dir ++ String c "") m ++ ".py") = true.
Proof.
  intros F N H D Sl. unfold is_local. rewrite F, (dirname_spec dir c base N H), replace_dots.
  assert (path_join (dir ++ String c "") (map_chars (fun c => if Ascii.eqb c "."%char then "/"%char else c) m) = module_path (dir ++ String c "") m) as ->.
  { unfold path_join, module_path.
    assert (startswith (map_chars (fun c => if Ascii.eqb c "."%char then "/"%char else c) m) "/" = false) as ->.
    { destruct m as [|d m]; [reflexivity|]. cbn [map_chars].
      unfold startswith in *. rewrite !prefix_false_first in *.
      destruct (Ascii.eqb_spec d "."%char) as [->|_]; [congruence|exact Sl]. }
    assert (String.eqb (dir ++ String c "") "" = false) as -> by (destruct dir; reflexivity).
    destruct (endswith (dir ++ String c "") "/") eqn:En; [|reflexivity].
    apply endswith_spec in En as [a En]. exfalso. apply N.
    apply (f_equal list_ascii_of_string) in En. clear - En.
    assert (A : forall x y, list_ascii_of_string (x ++ y) = (list_ascii_of_string x ++ list_ascii_of_string y)%list)
      by (induction x as [|z x IH]; intros y; cbn; [reflexivity|rewrite IH; reflexivity]).
    rewrite !A in En. cbn [list_ascii_of_string] in En. apply app_inj_tail in En as [_ En]. exact En. }
  apply orb_true_iff.
Qed.

(** ** Relative imports *)
Lemma internal_from_module e m lv : contains "huggingface_internal" (file e) = true -> lv = 2 \/ lv = 3 ->
  from_module e m lv = Ok (Some (internal_module (contains "pipeline_" (file e)) lv m, 0)).
Proof.
  intros H [-> | ->]; unfold from_module; rewrite H; cbn [Nat.eqb orb andb]; destruct (contains "pipeline_" (file e));
    destruct m as [[|c m]|]; reflexivity.
Qed.
Lemma internal_torch b lv m : torch_module (internal_module b lv m) = true.
Proof.
  assert (H : torch_module (internal_prefix b lv) = true).
  { destruct b; cbn [internal_prefix]; (destruct lv as [|[|[|[|lv]]]]; vm_compute; reflexivity). }
  destruct m as [[|c m]|]; cbn [internal_module]; try exact H.
  unfold torch_module in *. rewrite first_component_app by (right; eexists; reflexivity). exact H.
Qed.

(** The conversion pass agrees with the reference conversion: the simulation. *)
From Coq Require Import Lia.
From Verif Require Import PyStr PyStrFacts PyDict PyDictFacts TablesData Lookup Ast AstFacts ImportPass ImportSpec ImportFacts3 Walk BasicPass NodeEq ConvSpec ConvFacts ScopeSpec ScopeFacts Placed PlacedUniform PlacedFacts.
From Verif Require Scope.
Opaque api_mapping attribute_mapping alias_mapping wildcard_mapping matcher_classes.

(** ** Where the slot is *)
Definition path (st : list frame) : list pos := map e_pos st.
Lemma path_len st : List.length (path st) = List.length st. Proof. apply map_length. Qed.
Lemma find_scope_path sc : forall st st' b, path st = path st' -> find_scope sc st b = find_scope sc st' b.
Proof.
  induction st as [|f st IH]; intros [|f' st'] b E; try discriminate; [reflexivity|].
  unfold path in E. cbn [find_scope]. rewrite E. cbn [map] in E. injection E as E1 E2. rewrite E1.
  rewrite (IH st' _ E2). reflexivity.
Qed.
Lemma slot_path st st' scs : path st = path st' -> scope_body_index st scs = scope_body_index st' scs.
Proof.
  intros E. unfold scope_body_index. destruct scs as [|sc [|sc' r]]; rewrite ?(find_scope_path sc st st' None E); [reflexivity|reflexivity|].
  rewrite (find_scope_path sc' st st' None E). reflexivity.
Qed.
Lemma path_eqb_len a b : List.length a <> List.length b -> path_eqb a b = false.
Proof. intros N. destruct (path_eqb a b) eqn:E; [|reflexivity]. apply path_eqb_eq in E. subst b. contradiction. Qed.
(** Passing an entry that is not the scope. *)
Lemma find_skip sc f st b : (List.length sc <= List.length st)%nat -> find_scope sc (f :: st) b = find_scope sc st (Some (e_pos f)).
Proof.
  intros L. cbn [find_scope]. rewrite path_eqb_len; [reflexivity|]. change (map e_pos (f :: st)) with (path (f :: st)). rewrite path_len. cbn. lia.
Qed.
Lemma find_short sc : forall st b, (List.length st < List.length sc)%nat -> find_scope sc st b = None.
Proof.
  induction st as [|f st IH]; intros b L; [reflexivity|]. cbn [find_scope].
  rewrite path_eqb_len; [apply IH; cbn in L; lia|]. change (map e_pos (f :: st)) with (path (f :: st)). rewrite path_len. lia.
Qed.
Definition short (scs : list (list pos)) (n : nat) : Prop := Forall (fun x => List.length x <= n)%nat scs.

(** The slot of a child, below a node that is no scope. *)
Lemma slot_child c g st scs : short scs (List.length st) -> scope_body_index (c :: g :: st) scs = scope_body_index (g :: st) scs.
Proof.
  intros S. assert (F : forall sc, In sc scs -> find_scope sc (c :: g :: st) None = find_scope sc (g :: st) None).
  { intros sc I. pose proof (proj1 (Forall_forall _ _) S sc I) as L. cbn beta in L.
    rewrite find_skip by (cbn; lia). rewrite !find_skip by lia. reflexivity. }
  unfold scope_body_index. destruct scs as [|sc [|sc' r]]; [reflexivity| |].
  - rewrite F by (left; reflexivity). reflexivity.
  - rewrite !F by (cbn; auto). reflexivity.
Qed.
(** Below a scope. *)
Lemma slot_block c g st scs : In (p_field (e_pos c)) Scope.scope_fields ->
  scope_body_index (c :: g :: st) (path (g :: st) :: scs) = Ok (path (g :: st), p_field (e_pos c), p_index (e_pos c)).
Proof.
  intros I. unfold scope_body_index. cbn [find_scope]. rewrite path_eqb_len by (cbn; rewrite map_length; lia).
  replace (path_eqb (map e_pos (g :: st)) (path (g :: st))) with true by (symmetry; apply path_eqb_eq; reflexivity).
  apply mem_str_In in I. rewrite I. reflexivity.
Qed.
Lemma slot_beside c g st scs k : short scs (List.length st) -> ~ In (p_field (e_pos c)) Scope.scope_fields ->
  scope_body_index (c :: g :: st) (path (g :: st) :: scs) = Ok k -> scope_body_index (g :: st) scs = Ok k.
Proof.
  intros S N. unfold scope_body_index. cbn [find_scope]. rewrite path_eqb_len by (cbn; rewrite map_length; lia).
  replace (path_eqb (map e_pos (g :: st)) (path (g :: st))) with true by (symmetry; apply path_eqb_eq; reflexivity).
  assert (E : mem_str (p_field (e_pos c)) Scope.scope_fields = false).
  { destruct (mem_str _ _) eqn:E; [|reflexivity]. apply mem_str_In in E. contradiction. }
  rewrite E. rewrite find_short by (rewrite path_len; cbn; lia).
  destruct scs as [|sc scs]; [discriminate|]. inversion_clear S as [|? ? S1 S2].
  change (find_scope sc (c :: g :: st) None) with (find_scope sc (c :: g :: st) None).
  rewrite path_eqb_len by (cbn; rewrite map_length; lia).
  rewrite path_eqb_len by (cbn; rewrite map_length; lia).
  destruct (find_scope sc st (Some (e_pos g))); [|discriminate]. auto.
Qed.

(** ** The invariant *)
Section Sim.
Context {M : Type}.
Variable e : benv M.
Hypothesis G : gives_expressions e.
Hypothesis DN : deletes_nothing e.
Notation bst := (bst M).
Notation pst := (@pst M).

Definition corr (k : option place) (s : bst) (ps : pst) : Prop :=
  let '(c, (top, line)) := ps in
  c = with_records s [] /\ NoDup (dkeys (records s)) /\ at_place file_top (records s) = top /\
  match k with
  | Some k => line = if place_eqb k file_top then [] else at_place k (records s)
  | None => line = []
  end.
Definition frame_ok (k : option place) (Q : place -> Prop) (s s' : bst) : Prop :=
  scopes s' = scopes s /\
  forall key, key <> file_top -> k <> Some key -> ~ Q key -> dget place_eqb key (records s') = dget place_eqb key (records s).
Lemma frame_refl k Q s : frame_ok k Q s s. Proof. split; auto. Qed.
Lemma frame_trans k (Q1 Q2 Q : place -> Prop) s1 s2 s3 : (forall x, Q1 x -> Q x) -> (forall x, Q2 x -> Q x) ->
  frame_ok k Q1 s1 s2 -> frame_ok k Q2 s2 s3 -> frame_ok k Q s1 s3.
Proof.
  intros I1 I2 [A1 A2] [B1 B2]. split; [congruence|]. intros key T K N. rewrite B2, A2; auto.
Qed.
Lemma frame_weaken k (Q1 Q : place -> Prop) s s' : (forall x, Q1 x -> Q x) -> frame_ok k Q1 s s' -> frame_ok k Q s s'.
Proof. intros I [A B]. split; auto. Qed.
Definition nowhere : place -> Prop := fun _ => False.

Lemma finish_sim k n stack s ps : ~ In (kind_of n) block_owners -> corr k s ps ->
  (forall k', scope_body_index stack (scopes s) = Ok k' -> k = Some k') ->
  match finish e n stack ps with
  | Ok (r, ps') => exists s', basic_post e n stack s = Ok (r, s') /\ corr k s' ps' /\ frame_ok k nowhere s s'
  | Raise x => basic_post e n stack s = Raise x
  end.
Proof.
  intros NK C SL. destruct ps as [c [top line]]. destruct C as (-> & ND & T & L). cbn [finish].
  assert (NK' : ~ In (kind_of n) scope_kinds) by (intros I; apply NK, owners_eq, I).
  change (without_records (with_records s [])) with (with_records s []).
  pose proof (uniform_post e stack n NK' s) as U.
  destruct (basic_post e n stack s) as [[r s']|x] eqn:EB.
  - destruct U as (U1 & q & U2 & U3).
    assert (ER : records s' = recs q (records s)).
    { pose proof (U3 (records s)) as X. rewrite with_own, EB in X. injection X as X. rewrite X at 1. reflexivity. }
    rewrite U3. cbn [bind]. exists s'. split; [reflexivity|].
    assert (KS : forall x, In x (dkeys (recs q [])) -> x = file_top \/ k = Some x).
    { intros x Hx. apply recs_keys in Hx as [[]|(y & Hy & <-)]. rewrite Forall_forall in U2. destruct (U2 y Hy) as [E|E]; [auto|].
      right. apply SL, E. }
    assert (N0 : NoDup (dkeys (recs q []))) by (apply recs_nodup; constructor).
    split.
    + cbn [with_records records]. repeat split.
      * rewrite ER. apply recs_nodup, ND.
      * rewrite ER, recs_at, T, (for_top_at _ N0). reflexivity.
      * destruct k as [k|].
        -- destruct (place_eqb_spec k file_top) as [->|D].
           ++ subst line. rewrite joined_nil_l. apply for_line_none. intros x Hx. destruct (KS x Hx); congruence.
           ++ subst line. rewrite ER, recs_at. f_equal. apply for_line_at; [exact N0|exact D|]. intros x Hx. destruct (KS x Hx) as [|[= ->]]; auto.
        -- subst line. rewrite joined_nil_l. apply for_line_none. intros x Hx. destruct (KS x Hx); congruence.
    + split; [exact U1|]. intros key T' K _. rewrite ER. apply recs_get. rewrite Forall_forall in *. intros x Hx E0. subst key.
      destruct (U2 x Hx) as [E|E]; [auto|]. apply SL in E. auto.
  - rewrite U. reflexivity.
Qed.

(** ** Below a node *)
Definition inside (P : list pos) (k : place) : Prop := exists q, fst (fst k) = (q ++ P)%list.
Lemma inside_unique c c' P key : inside (c :: P) key -> inside (c' :: P) key -> c = c'.
Proof.
  intros [q E] [q' E']. rewrite E in E'. change (c :: P) with ([c] ++ P)%list in E'. change (c' :: P) with ([c'] ++ P)%list in E'.
  rewrite !app_assoc in E'. apply app_inv_tail in E'. apply app_inj_tail in E'. apply E'.
Qed.
Lemma inside_up c P key : inside (c :: P) key -> inside P key.
Proof. intros [q E]. exists (q ++ [c])%list. rewrite E, <- app_assoc. reflexivity. Qed.
Lemma inside_own P nm j : inside P (P, nm, j). Proof. exists []. reflexivity. Qed.
Lemma inside_not_own c P nm j : ~ inside (c :: P) (P, nm, j).
Proof. intros [q E]. cbn in E. apply (f_equal (@List.length pos)) in E. rewrite app_length in E. cbn in E. lia. Qed.
Definition okn (n : node) : Prop := simple n \/ parsed n.
Definition region (n : node) (P : list pos) (key : place) : Prop := ~ simple n /\ inside P key.

Definition node_sim (d : nat) : Prop := forall n p st s ps k,
  okn n -> st <> [] -> corr k s ps -> short (scopes s) (List.length st) ->
  (forall k', scope_body_index (MkFrame n p :: st) (scopes s) = Ok k' -> k = Some k') ->
  (forall k', k = Some k' -> ~ inside (p :: path st) k') ->
  (forall key, key <> file_top -> region n (p :: path st) key -> dget place_eqb key (records s) = None) ->
  match convert e d n p (st, ps) with
  | Ok (r, (st', ps')) =>
      st' = st /\ exists s', basic_walk e d n p (st, s) = Ok (r, (st, s')) /\ corr k s' ps' /\
                  frame_ok k (region n (p :: path st)) s s' /\ (simple n -> simple_reply r)
  | Raise x => basic_walk e d n p (st, s) = Raise x
  end.

Section Below.
  Variable d : nat.
  Hypothesis IH : node_sim d.
  Notation V := (convert e d).
  Notation W := (basic_walk e d).

  Definition lregion (l : list node) (nm : string) (i : nat) (P : list pos) (key : place) : Prop :=
    ~ Forall simple l /\ exists j, (i <= j)%nat /\ inside (At nm j :: P) key.
  Definition slot_for (k : option place) (stack : list frame) (scs : list (list pos)) (nm : string) : Prop :=
    forall F k', p_field (e_pos F) = nm -> scope_body_index (F :: stack) scs = Ok k' -> k = Some k'.
  Definition outer (k : option place) (P : list pos) : Prop := forall k' c, k = Some k' -> ~ inside (c :: P) k'.

  Lemma list_sim nm : forall l i stack s ps k, stack <> [] ->
    Forall okn l -> corr k s ps -> short (scopes s) (List.length stack) -> slot_for k stack (scopes s) nm -> outer k (path stack) ->
    (forall key, key <> file_top -> lregion l nm i (path stack) key -> dget place_eqb key (records s) = None) ->
    match walk_list V nm l i (stack, ps) with
    | Ok (l', (stk, ps')) =>
        stk = stack /\ exists s', walk_list W nm l i (stack, s) = Ok (l', (stack, s')) /\ corr k s' ps' /\
                       frame_ok k (lregion l nm i (path stack)) s s' /\ (Forall simple l -> Forall simple l')
    | Raise x => walk_list W nm l i (stack, s) = Raise x
    end.
  Proof.
    fix LIH 1. intros [|x l] i stack s ps k NE OK C SH SL OU FR; cbn [walk_list].
    { split; [reflexivity|]. exists s. repeat split; auto; constructor. }
    inversion_clear OK as [|? ? Ox Ol].
    pose proof (IH x (At nm i) stack s ps k Ox NE C SH (fun k' E => SL (MkFrame x (At nm i)) k' eq_refl E) (fun k' E => OU k' (At nm i) E)) as X.
    assert (RX : forall key, region x (At nm i :: path stack) key -> lregion (x :: l) nm i (path stack) key).
    { intros key [R1 R2]. split; [intros F; inversion_clear F; auto|]. exists i. auto. }
    specialize (X (fun key T R => FR key T (RX key R))).
    destruct (V x (At nm i) (stack, ps)) as [[r [st1 ps1]]|y]; cbn [bind].
    2:{ rewrite X. reflexivity. }
    destruct X as (-> & s1 & E1 & C1 & F1 & S1). rewrite E1. cbn [bind].
    assert (REST : forall l2 j, (S i <= j)%nat -> (Forall simple (x :: l) -> Forall simple l2) ->
       forall key, key <> file_top -> lregion l2 nm j (path stack) key -> dget place_eqb key (records s1) = None).
    { intros l2 j J SS key T [R1 (j' & J' & R2)]. destruct F1 as [F1 F2]. rewrite F2.
      - apply FR; [exact T|]. split; [intros F; apply R1, SS, F|]. exists j'. split; [lia|exact R2].
      - exact T.
      - intros ->. exact (OU key (At nm j') eq_refl R2).
      - intros [_ R3]. assert (E : At nm i = At nm j') by (eapply inside_unique; eassumption). injection E as ->. lia. }
    assert (SH1 : short (scopes s1) (List.length stack)) by (rewrite (proj1 F1); exact SH).
    assert (SL1 : slot_for k stack (scopes s1) nm) by (rewrite (proj1 F1); exact SL).
    assert (FF : forall l2 s2 j, (S i <= j)%nat -> (Forall simple (x :: l) -> Forall simple l2) ->
       frame_ok k (lregion l2 nm j (path stack)) s1 s2 -> frame_ok k (lregion (x :: l) nm i (path stack)) s s2).
    { intros l2 s2 j J SS F2. eapply frame_trans; [exact RX| |exact F1|exact F2].
      intros key [R1 (j' & J' & R2)]. split; [intros F; apply R1, SS, F|]. exists j'. split; [lia|exact R2]. }
    destruct r as [v|].
    - assert (SS : Forall simple (x :: l) -> Forall simple l) by (intros F; inversion_clear F; assumption).
      pose proof (LIH l (1 + i) stack s1 ps1 k NE Ol C1 SH1 SL1 OU (REST l (1 + i) (le_n _) SS)) as Y.
      destruct (walk_list V nm l (1 + i) (stack, ps1)) as [[l' [st2 ps2]]|y]; cbn [bind].
      + destruct Y as (-> & s2 & E2 & C2 & F2 & S2). split; [reflexivity|]. exists s2. rewrite E2. cbn [bind].
        split; [reflexivity|]. split; [exact C2|]. split; [exact (FF l s2 _ (le_n _) SS F2)|].
        intros F. inversion_clear F as [|? ? Fx Fl]. apply Forall_app. split; [exact (S1 Fx)|exact (S2 Fl)].
      + rewrite Y. reflexivity.
    - destruct l as [|y l].
      + split; [reflexivity|]. exists s1. split; [reflexivity|]. split; [exact C1|]. split; [|constructor].
        eapply frame_weaken; [exact RX|exact F1].
      + inversion_clear Ol as [|? ? Oy Ol'].
        assert (SS : Forall simple (x :: y :: l) -> Forall simple l) by (intros F; inversion_clear F as [|? ? _ F']; inversion_clear F'; assumption).
        pose proof (LIH l (1 + i) stack s1 ps1 k NE Ol' C1 SH1 SL1 OU (REST l (1 + i) (le_n _) SS)) as Y.
        destruct (walk_list V nm l (1 + i) (stack, ps1)) as [[l' [st2 ps2]]|z]; cbn [bind].
        * destruct Y as (-> & s2 & E2 & C2 & F2 & S2). split; [reflexivity|]. exists s2. rewrite E2.
          split; [reflexivity|]. split; [exact C2|]. split; [exact (FF l s2 _ (le_n _) SS F2)|].
          intros F. apply S2, SS, F.
        * exact Y.
  Qed.

  (** The fields of a node that owns no blocks. *)
  Definition fregion (fs : list field) (P : list pos) (key : place) : Prop :=
    ~ Forall fsimple fs /\ exists c, In (p_field c) (map field_name fs) /\ inside (c :: P) key.
  Lemma fields_sim kd p st : forall todo now s ps k,
    Forall (fun f => Forall okn (field_kids f)) todo -> Forall fsimple todo \/ NoDup (map field_name todo) ->
    corr k s ps -> short (scopes s) (Datatypes.S (List.length st)) ->
    (forall nm n', slot_for k (MkFrame n' p :: st) (scopes s) nm) -> outer k (p :: path st) ->
    (forall key, key <> file_top -> fregion todo (p :: path st) key -> dget place_eqb key (records s) = None) ->
    match walk_fields V kd now todo (MkFrame (Other kd (now ++ todo)) p :: st, ps) with
    | Ok (n', (stk, ps')) =>
        stk = MkFrame n' p :: st /\ exists fs' s', n' = Other kd fs' /\
          walk_fields W kd now todo (MkFrame (Other kd (now ++ todo)) p :: st, s) = Ok (n', (MkFrame n' p :: st, s')) /\
          corr k s' ps' /\ frame_ok k (fregion todo (p :: path st)) s s' /\
          (Forall fsimple now -> Forall fsimple todo -> Forall fsimple fs')
    | Raise x => walk_fields W kd now todo (MkFrame (Other kd (now ++ todo)) p :: st, s) = Raise x
    end.
  Proof.
    induction todo as [|f todo LIH]; intros now s ps k OK ND C SH SL OU FR; cbn [walk_fields].
    { rewrite app_nil_r. split; [reflexivity|]. exists now, s. split; [reflexivity|]. split; [reflexivity|]. split; [exact C|]. split; [apply frame_refl|auto]. }
    inversion_clear OK as [|? ? Of Ot].
    assert (ND' : Forall fsimple todo \/ NoDup (map field_name todo)).
    { destruct ND as [ND|ND]; [left; inversion_clear ND; assumption|right; inversion_clear ND; assumption]. }
    assert (UP : forall key, fregion todo (p :: path st) key -> fregion (f :: todo) (p :: path st) key).
    { intros key [R1 (c & R2 & R3)]. split; [intros F; inversion_clear F; auto|]. exists c. split; [right; exact R2|exact R3]. }
    assert (NEXT : forall s1, frame_ok k (fun key => ~ fsimple f /\ exists c, p_field c = field_name f /\ inside (c :: p :: path st) key) s s1 ->
        forall key, key <> file_top -> fregion todo (p :: path st) key -> dget place_eqb key (records s1) = None).
    { intros s1 [_ F2] key T R. pose proof R as [R1 (c & R2 & R3)]. rewrite F2; [apply FR; [exact T|apply UP, R]|exact T| |].
      - intros ->. exact (OU key c eq_refl R3).
      - intros [N (c' & E & I)]. assert (c = c') as -> by (eapply inside_unique; eassumption).
        destruct ND as [ND|ND]; [inversion_clear ND; auto|]. cbn [map] in ND. inversion_clear ND as [|? ? N1 N2]. rewrite E in R2. auto. }
    assert (HERE : forall key, ~ fsimple f /\ (exists c, p_field c = field_name f /\ inside (c :: p :: path st) key) -> fregion (f :: todo) (p :: path st) key).
    { intros key [N (c & E & I)]. split; [intros F; inversion_clear F; auto|]. exists c. split; [left; symmetry; exact E|exact I]. }
    destruct f as [nm c|nm l|nm x]; cbn [field_name fsimple field_kids] in *.
    - inversion_clear Of as [|? ? Oc _].
      match goal with |- context [V c (At nm 0) (?x, ps)] => set (stk := x) end.
      assert (X := IH c (At nm 0) stk s ps k Oc (fun E => nil_cons (eq_sym E)) C SH (fun k' E => SL nm _ (MkFrame c (At nm 0)) k' eq_refl E) (fun k' E => OU k' (At nm 0) E)).
      assert (RX : forall key, region c (At nm 0 :: path stk) key -> ~ simple c /\ (exists c', p_field c' = nm /\ inside (c' :: p :: path st) key)).
      { intros key [R1 R2]. split; [exact R1|]. exists (At nm 0). auto. }
      specialize (X (fun key T R => FR key T (HERE key (RX key R)))).
      destruct (V c (At nm 0) (stk, ps)) as [[r [st1 ps1]]|y]; cbn [bind].
      2:{ rewrite X. reflexivity. }
      destruct X as (-> & s1 & E1 & C1 & F1 & S1). rewrite E1. cbn [bind fst snd]. unfold stk. cbn [set_top e_pos].
      apply (frame_weaken _ _ _ _ _ RX) in F1.
      assert (SH1 : short (scopes s1) (Datatypes.S (List.length st))) by (rewrite (proj1 F1); exact SH).
      assert (SL1 : forall nm n', slot_for k (MkFrame n' p :: st) (scopes s1) nm) by (rewrite (proj1 F1); exact SL).
      pose proof (LIH (now ++ set_field nm (value_of r))%list s1 ps1 k Ot ND' C1 SH1 SL1 OU (NEXT s1 F1)) as Y.
      destruct (walk_fields V kd _ todo _) as [[n' [st2 ps2]]|y].
      + destruct Y as (-> & fs' & s2 & -> & E2 & C2 & F2 & S2). split; [reflexivity|]. exists fs', s2. split; [reflexivity|].
        split; [exact E2|]. split; [exact C2|]. split; [eapply frame_trans; [exact HERE|exact UP|exact F1|exact F2]|].
        intros Sn St. inversion_clear St as [|? ? Sc St']. apply S2; [|exact St']. apply Forall_app. split; [exact Sn|].
        apply set_field_simple, S1, Sc.
      + exact Y.
    - match goal with |- context [walk_list V nm l 0 (?x, ps)] => set (stk := x) end.
      assert (X := list_sim nm l 0 stk s ps k (fun E => nil_cons (eq_sym E)) Of C SH (SL nm _) OU).
      assert (RX : forall key, lregion l nm 0 (path stk) key -> ~ Forall simple l /\ (exists c', p_field c' = nm /\ inside (c' :: p :: path st) key)).
      { intros key [R1 (j & _ & R2)]. split; [exact R1|]. exists (At nm j). auto. }
      specialize (X (fun key T R => FR key T (HERE key (RX key R)))).
      destruct (walk_list V nm l 0 (stk, ps)) as [[l' [st1 ps1]]|y]; cbn [bind].
      2:{ rewrite X. reflexivity. }
      destruct X as (-> & s1 & E1 & C1 & F1 & S1). rewrite E1. cbn [bind fst snd]. unfold stk. cbn [set_top e_pos].
      apply (frame_weaken _ _ _ _ _ RX) in F1.
      assert (SH1 : short (scopes s1) (Datatypes.S (List.length st))) by (rewrite (proj1 F1); exact SH).
      assert (SL1 : forall nm n', slot_for k (MkFrame n' p :: st) (scopes s1) nm) by (rewrite (proj1 F1); exact SL).
      pose proof (LIH (now ++ [Many nm l'])%list s1 ps1 k Ot ND' C1 SH1 SL1 OU (NEXT s1 F1)) as Y.
      destruct (walk_fields V kd _ todo _) as [[n' [st2 ps2]]|y].
      + destruct Y as (-> & fs' & s2 & -> & E2 & C2 & F2 & S2). split; [reflexivity|]. exists fs', s2. split; [reflexivity|].
        split; [exact E2|]. split; [exact C2|]. split; [eapply frame_trans; [exact HERE|exact UP|exact F1|exact F2]|].
        intros Sn St. inversion_clear St as [|? ? Sc St']. apply S2; [|exact St']. apply Forall_app. split; [exact Sn|].
        repeat constructor. apply S1, Sc.
      + exact Y.
    - pose proof (LIH (now ++ [Data nm x])%list s ps k Ot ND' C SH SL OU (NEXT s (frame_refl _ _ s))) as Y.
      rewrite <- app_assoc in Y. cbn [app] in Y.
      destruct (walk_fields V kd _ todo _) as [[n' [st2 ps2]]|y].
      + destruct Y as (-> & fs' & s2 & -> & E2 & C2 & F2 & S2). split; [reflexivity|]. exists fs', s2. split; [reflexivity|].
        split; [exact E2|]. split; [exact C2|]. split; [eapply frame_weaken; [exact UP|exact F2]|].
        intros Sn St. inversion_clear St as [|? ? Sc St']. apply S2; [|exact St']. apply Forall_app. split; [exact Sn|]. repeat constructor.
      + exact Y.
  Qed.

  Lemma attr_with_kind r a : kind_of (attr_with r a) = "Attribute". Proof. destruct r; reflexivity. Qed.
  Lemma call_with_kind r a k : kind_of (call_with r a k) = "Call". Proof. destruct r; reflexivity. Qed.

  (** [generic_visit] of a node that owns no blocks. *)
  Lemma children_sim n p st s ps k :
    okn n -> ~ In (kind_of n) block_owners -> corr k s ps -> short (scopes s) (List.length st) ->
    (forall k', scope_body_index (MkFrame n p :: st) (scopes s) = Ok k' -> k = Some k') ->
    (forall k', k = Some k' -> ~ inside (p :: path st) k') ->
    (forall key, key <> file_top -> region n (p :: path st) key -> dget place_eqb key (records s) = None) ->
    match walk_children V n (MkFrame n p :: st, ps) with
    | Ok (n', (stk, ps')) =>
        stk = MkFrame n' p :: st /\ exists s', walk_children W n (MkFrame n p :: st, s) = Ok (n', (MkFrame n' p :: st, s')) /\
          corr k s' ps' /\ frame_ok k (region n (p :: path st)) s s' /\ (simple n -> simple n') /\ kind_of n' = kind_of n
    | Raise x => walk_children W n (MkFrame n p :: st, s) = Raise x
    end.
  Proof.
    intros OK NK C SH SL OU FR.
    assert (SLC : forall (s' : bst) nm n', scopes s' = scopes s -> slot_for k (MkFrame n' p :: st) (scopes s') nm).
    { intros s' nm n' E F k' _ H. rewrite E in H. rewrite slot_child in H by exact SH. apply SL.
      rewrite <- H. apply slot_path. reflexivity. }
    assert (OUC : outer k (p :: path st)) by (intros k' c E I; exact (OU k' E (inside_up _ _ _ I))).
    assert (SHC : forall s' : bst, scopes s' = scopes s -> short (scopes s') (Datatypes.S (List.length st))).
    { intros s' E. rewrite E. eapply Forall_impl; [|exact SH]. intros x; cbn; lia. }
    destruct n as [i|v a|f a kw|l|m l i|kd fs]; cbn [walk_children].
    - split; [reflexivity|]. exists s. split; [reflexivity|]. split; [exact C|]. split; [apply frame_refl|]. auto.
    - assert (SA : simple (Attribute v a)) by (destruct OK as [H|H]; [exact H|]; apply H; left; reflexivity).
      pose proof (proj1 (simple_attr v a) SA) as Sv.
      match goal with |- context [V v (At "value" 0) (?x, ps)] => set (stk := x) end.
      assert (X := IH v (At "value" 0) stk s ps k (or_introl Sv) (fun E => nil_cons (eq_sym E)) C (SHC s eq_refl)
                     (fun k' E => SLC s "value" _ eq_refl (MkFrame v (At "value" 0)) k' eq_refl E) (fun k' E => OUC k' (At "value" 0) E)
                     (fun key _ R => False_ind _ (proj1 R Sv))).
      destruct (V v (At "value" 0) (stk, ps)) as [[r [st1 ps1]]|y]; cbn [bind].
      2:{ rewrite X. reflexivity. }
      destruct X as (-> & s1 & E1 & C1 & F1 & S1). rewrite E1. cbn [bind fst snd]. unfold stk. cbn [set_top e_pos].
      split; [reflexivity|]. exists s1. split; [reflexivity|]. split; [exact C1|]. split.
      { eapply frame_weaken; [|exact F1]. intros key [R _]. contradiction. }
      split; [intros _; apply attr_with_simple, S1, Sv|apply attr_with_kind].
    - assert (SA : simple (Call f a kw)) by (destruct OK as [H|H]; [exact H|]; apply H; left; reflexivity).
      pose proof (proj1 (simple_call f a kw) SA) as (Sf & Sa & Sk).
      match goal with |- context [V f (At "func" 0) (?x, ps)] => set (stk := x) end.
      assert (X := IH f (At "func" 0) stk s ps k (or_introl Sf) (fun E => nil_cons (eq_sym E)) C (SHC s eq_refl)
                     (fun k' E => SLC s "func" _ eq_refl (MkFrame f (At "func" 0)) k' eq_refl E) (fun k' E => OUC k' (At "func" 0) E)
                     (fun key _ R => False_ind _ (proj1 R Sf))).
      destruct (V f (At "func" 0) (stk, ps)) as [[r [st1 ps1]]|y]; cbn [bind].
      2:{ rewrite X. reflexivity. }
      destruct X as (-> & s1 & E1 & C1 & F1 & S1). rewrite E1. cbn [bind fst snd]. unfold stk. cbn [set_top e_pos].
      assert (OKs : forall l, Forall simple l -> Forall okn l) by (intros l; apply Forall_impl; left; assumption).
      set (stk1 := MkFrame (call_with (value_of r) a kw) p :: st).
      assert (X := list_sim "args" a 0 stk1 s1 ps1 k (fun E => nil_cons (eq_sym E)) (OKs _ Sa) C1 (SHC s1 (proj1 F1)) (SLC s1 "args" _ (proj1 F1)) OUC
                     (fun key _ R => False_ind _ (proj1 R Sa))).
      destruct (walk_list V "args" a 0 (stk1, ps1)) as [[a' [st2 ps2]]|y]; cbn [bind].
      2:{ rewrite X. reflexivity. }
      destruct X as (-> & s2 & E2 & C2 & F2 & S2). rewrite E2. cbn [bind fst snd]. unfold stk1. cbn [set_top e_pos].
      assert (SC2 : scopes s2 = scopes s) by (rewrite (proj1 F2); exact (proj1 F1)).
      set (stk2 := MkFrame (call_with (value_of r) a' kw) p :: st).
      assert (X := list_sim "keywords" kw 0 stk2 s2 ps2 k (fun E => nil_cons (eq_sym E)) (OKs _ Sk) C2 (SHC s2 SC2) (SLC s2 "keywords" _ SC2) OUC
                     (fun key _ R => False_ind _ (proj1 R Sk))).
      destruct (walk_list V "keywords" kw 0 (stk2, ps2)) as [[k' [st3 ps3]]|y]; cbn [bind].
      2:{ rewrite X. reflexivity. }
      destruct X as (-> & s3 & E3 & C3 & F3 & S3). rewrite E3. cbn [bind fst snd]. unfold stk2. cbn [set_top e_pos].
      split; [reflexivity|]. exists s3. split; [reflexivity|]. split; [exact C3|]. split.
      { eapply (frame_trans _ nowhere nowhere); [intros x []|intros x []| |].
        - eapply (frame_weaken _ _ nowhere); [|exact F1]. intros key [R _]. contradiction.
        - eapply (frame_trans _ nowhere nowhere); [intros x []|intros x []| |].
          + eapply (frame_weaken _ _ nowhere); [|exact F2]. intros key [R _]. contradiction.
          + eapply (frame_weaken _ _ nowhere); [|exact F3]. intros key [R _]. contradiction. }
      split; [intros _; apply call_with_simple; [apply S1, Sf|apply S2, Sa|apply S3, Sk]|apply call_with_kind].
    - split; [reflexivity|]. exists s. split; [reflexivity|]. split; [exact C|]. split; [apply frame_refl|]. auto.
    - split; [reflexivity|]. exists s. split; [reflexivity|]. split; [exact C|]. split; [apply frame_refl|]. auto.
    - assert (RX : forall key, fregion fs (p :: path st) key -> region (Other kd fs) (p :: path st) key).
      { intros key [R1 (c & _ & R2)]. split; [intros S; apply R1; apply simple_other in S; apply S|]. eapply inside_up; exact R2. }
      assert (OKf : Forall (fun f => Forall okn (field_kids f)) fs).
      { apply Forall_forall. intros f Hf. apply Forall_forall. intros c Hc. destruct OK as [OK|OK].
        - left. apply simple_other in OK as [_ OK]. rewrite Forall_forall in OK. specialize (OK f Hf).
          destruct f as [nm x|nm l|nm x]; cbn in *; [destruct Hc as [<-|[]]; exact OK|rewrite Forall_forall in OK; auto|contradiction].
        - right. eapply parsed_kid; eassumption. }
      assert (ND : Forall fsimple fs \/ NoDup (map field_name fs)).
      { destruct OK as [OK|OK]; [left; apply simple_other in OK; apply OK|right; eapply parsed_names; exact OK]. }
      pose proof (fields_sim kd p st fs [] s ps k OKf ND C (SHC s eq_refl) (fun nm n' => SLC s nm n' eq_refl) OUC (fun key T R => FR key T (RX key R))) as X.
      cbn [app] in X. destruct (walk_fields V kd [] fs _) as [[n' [stk ps']]|y]; [|exact X].
      destruct X as (-> & fs' & s' & -> & E1 & C1 & F1 & S1). split; [reflexivity|]. exists s'. split; [exact E1|]. split; [exact C1|].
      split; [eapply frame_weaken; [exact RX|exact F1]|]. split; [|reflexivity].
      intros S. apply simple_other in S as [S2 S3]. apply simple_other. split; [exact S2|]. apply S1; [constructor|exact S3].
  Qed.

  (** ** Blocks *)
  Definition bregion (nm : string) (i : nat) (P : list pos) (key : place) : Prop :=
    exists j, (i <= j)%nat /\ (inside (At nm j :: P) key \/ key = (P, nm, j)).
  Definition line_at (P : list pos) (nm : string) (R : table) (j : nat) : list node :=
    if place_eqb (P, nm, j) file_top then [] else at_place (P, nm, j) R.
  Lemma block_sim nm scs : forall l i stack s c top line k, stack <> [] -> In nm block_names ->
    Forall parsed l -> corr k s (c, (top, line)) -> scopes s = path stack :: scs -> short scs (List.length stack) ->
    (forall k', k = Some k' -> ~ inside (path stack) k') ->
    (forall key, key <> file_top -> bregion nm i (path stack) key -> dget place_eqb key (records s) = None) ->
    match convert_block V nm l i stack c top with
    | Ok (b, (stk, (c', top'))) =>
        stk = stack /\ exists s', walk_list W nm l i (stack, s) = Ok (map snd b, (stack, s')) /\
          corr k s' (c', (top', line)) /\ frame_ok k (bregion nm i (path stack)) s s' /\
          lay_out b = woven (line_at (path stack) nm (records s')) i (map snd b) /\
          (forall j, (path stack, nm, j) <> file_top -> (i + List.length (map snd b) <= j)%nat -> dget place_eqb (path stack, nm, j) (records s') = None)
    | Raise x => walk_list W nm l i (stack, s) = Raise x
    end.
  Proof.
    induction l as [|x l LIH]; intros i stack s c top line k NE BN OK C SC SH OU FR; cbn [convert_block walk_list].
    { split; [reflexivity|]. exists s. cbn [map List.length woven lay_out flat_map].
      assert (N : forall j, (i <= j)%nat -> (path stack, nm, j) <> file_top -> dget place_eqb (path stack, nm, j) (records s) = None).
      { intros j J T. apply FR; [exact T|]. exists j. auto. }
      split; [reflexivity|]. split; [exact C|]. split; [apply frame_refl|]. split.
      - unfold line_at. destruct (place_eqb_spec (path stack, nm, i) file_top) as [|D]; [reflexivity|]. unfold at_place. rewrite N by auto. reflexivity.
      - intros j T J. apply N; [lia|exact T]. }
    inversion_clear OK as [|? ? Ox Ol].
    destruct stack as [|g st]; [congruence|]. set (P := path (g :: st)) in *.
    set (ki := (P, nm, i)).
    assert (Cx : corr (Some ki) s (c, (top, []))).
    { destruct C as (-> & C2 & C3 & _). split; [reflexivity|]. split; [exact C2|]. split; [exact C3|].
      destruct (place_eqb_spec ki file_top) as [|D]; [reflexivity|]. unfold at_place. rewrite FR; [reflexivity|exact D|]. exists i. split; [lia|]. right. reflexivity. }
    assert (SHx : short (scopes s) (List.length (g :: st))).
    { rewrite SC. constructor; [unfold P; rewrite path_len; cbn; lia|]. exact SH. }
    assert (SLx : forall k', scope_body_index (MkFrame x (At nm i) :: g :: st) (scopes s) = Ok k' -> Some ki = Some k').
    { intros k'. rewrite SC. unfold P. rewrite slot_block.
      - cbn [e_pos p_field p_index]. intros [= <-]. reflexivity.
      - cbn [e_pos p_field]. apply mem_str_In. rewrite <- names_mem. apply mem_str_In, BN. }
    assert (OUx : forall k', Some ki = Some k' -> ~ inside (At nm i :: P) k').
    { intros k' E. injection E as E. subst k'. apply inside_not_own. }
    assert (RX : forall key, region x (At nm i :: P) key -> bregion nm i P key).
    { intros key [_ R]. exists i. auto. }
    assert (X := IH x (At nm i) (g :: st) s (c, (top, [])) (Some ki) (or_intror Ox) NE Cx SHx SLx OUx (fun key T R => FR key T (RX key R))).
    match type of X with context [convert e d x (At nm i) ?y] =>
      match goal with |- context [convert e d x (At nm i) ?z] => change y with z in X end end.
    destruct (V x (At nm i) (g :: st, (c, (top, [])))) as [[r [st1 [c1 [top1 above]]]]|y]; cbn [bind].
    2:{ rewrite X. reflexivity. }
    destruct X as (-> & s1 & E1 & C1 & F1 & _). rewrite E1. cbn [bind].
    destruct (walk_conv e DN _ _ _ _ _ _ _ _ E1 (parsed_fit x Ox)) as (y & -> & _).
    assert (Ck : corr k s1 (c1, (top1, line))).
    { destruct C1 as (C11 & C12 & C13 & _). destruct C as (_ & _ & _ & C4). split; [exact C11|]. split; [exact C12|]. split; [exact C13|].
      destruct k as [k|]; [|exact C4]. rewrite C4. destruct (place_eqb_spec k file_top) as [|D]; [reflexivity|].
      unfold at_place. rewrite (proj2 F1); [reflexivity|exact D| |].
      - intros E. injection E as E. subst k. exact (OU _ eq_refl (inside_own P nm i)).
      - intros [_ R]. exact (OU _ eq_refl (inside_up _ _ _ R)). }
    assert (SC1 : scopes s1 = P :: scs) by (rewrite (proj1 F1); exact SC).
    assert (FR1 : forall key, key <> file_top -> bregion nm (1 + i) P key -> dget place_eqb key (records s1) = None).
    { intros key T (j & J & R). rewrite (proj2 F1); [apply FR; [exact T|exists j; split; [lia|exact R]]|exact T| |].
      - intros E. injection E as E. subst key. destruct R as [R|R]; [exact (inside_not_own _ _ _ _ R)|]. injection R as R. lia.
      - intros [_ R']. destruct R as [R|R].
        + assert (E : At nm i = At nm j) by (eapply inside_unique; eassumption). injection E as E. lia.
        + subst key. exact (inside_not_own _ _ _ _ R'). }
    assert (Y := LIH (1 + i) (g :: st) s1 c1 top1 line k NE BN Ol Ck SC1 SH OU FR1).
    destruct (convert_block V nm l (1 + i) (g :: st) c1 top1) as [[b [st2 [c2 top2]]]|z]; cbn [bind].
    2:{ rewrite Y. reflexivity. }
    destruct Y as (-> & s2 & E2 & C2 & F2 & L2 & B2). split; [reflexivity|]. exists s2. rewrite E2. cbn [bind map snd app spliced].
    split; [reflexivity|]. split; [exact C2|].
    assert (UP : forall key, bregion nm (1 + i) P key -> bregion nm i P key) by (intros key (j & J & R); exists j; split; [lia|exact R]).
    assert (F1' : frame_ok k (bregion nm i P) s s1).
    { split; [apply F1|]. intros key T K N. apply (proj2 F1); [exact T| |].
      - intros E. injection E as E. subst key. apply N. exists i. split; [lia|]. right. reflexivity.
      - intros R. apply N, RX, R. }
    split; [eapply frame_trans; [| |exact F1'|exact F2]; [auto|exact UP]|].
    split.
    - change (lay_out ((above, y) :: b)) with ((above ++ [y]) ++ lay_out b)%list. cbn [woven]. rewrite <- app_assoc. cbn [app]. fold P in L2. change (S i) with (1 + i). rewrite <- L2. f_equal.
      destruct C1 as (_ & _ & _ & C14). rewrite C14. unfold line_at. fold ki. destruct (place_eqb_spec ki file_top) as [|D]; [reflexivity|].
      unfold at_place. rewrite (proj2 F2); [reflexivity|exact D| |].
      + intros ->. exact (OU _ eq_refl (inside_own P nm i)).
      + intros (j & J & [R|R]); [exact (inside_not_own _ _ _ _ R)|]. injection R as R. lia.
    - intros j T J. apply B2; [exact T|]. cbn [List.length] in J. lia.
  Qed.

  (** The fields of a node that owns blocks. *)
  Definition lay (P : list pos) (R : table) (f : field) : field :=
    match f with Many nm l => Many nm (woven (line_at P nm R) 0 l) | f => f end.
  Definition oregion (names : list string) (P : list pos) (key : place) : Prop :=
    (exists c, In (p_field c) names /\ inside (c :: P) key) \/ (exists nm j, In nm names /\ key = (P, nm, j)).
  Definition bounded (P : list pos) (R : table) (fs : list field) : Prop :=
    forall nm l j, In (Many nm l) fs -> (P, nm, j) <> file_top -> dget place_eqb (P, nm, j) R <> None -> (j <= List.length l)%nat.

  Lemma lay_same P R R' now : (forall f, In f now -> forall j, (P, field_name f, j) <> file_top ->
      dget place_eqb (P, field_name f, j) R' = dget place_eqb (P, field_name f, j) R) ->
    map (lay P R') now = map (lay P R) now.
  Proof.
    intros H. apply map_ext_in. intros f Hf. destruct f as [|nm l|]; cbn [lay]; try reflexivity. f_equal. apply woven_ext. intros j _.
    unfold line_at. destruct (place_eqb_spec (P, nm, j) file_top) as [|D]; [reflexivity|]. unfold at_place.
    specialize (H (Many nm l) Hf j D). cbn [field_name] in H. rewrite H. reflexivity.
  Qed.
  Lemma lay_plain P R f : (forall j, (P, field_name f, j) <> file_top -> dget place_eqb (P, field_name f, j) R = None) -> lay P R f = f.
  Proof.
    intros H. destruct f as [|nm l|]; cbn [lay]; try reflexivity. f_equal. rewrite <- (woven_nil l 0) at 2. apply woven_ext. intros j _.
    unfold line_at. destruct (place_eqb_spec (P, nm, j) file_top) as [|D]; [reflexivity|]. unfold at_place. cbn [field_name] in H. rewrite H by exact D. reflexivity.
  Qed.
  Lemma set_field_name nm v f : In f (set_field nm v) -> field_name f = nm.
  Proof. destruct v; cbn; [intros [<-|[]]|intros []|intros [<-|[]]]; reflexivity. Qed.

  Lemma owner_sim kd p st scs : forall todo now final s ps k,
    Forall (fun f => Forall parsed (field_kids f)) todo -> NoDup (map field_name todo) ->
    (forall nm c, In (One nm c) todo -> ~ In nm block_names) ->
    (forall f, In f now -> ~ In (field_name f) (map field_name todo)) ->
    corr k s ps -> scopes s = (p :: path st) :: scs -> short scs (List.length st) ->
    (forall k' n, scope_body_index (MkFrame n p :: st) scs = Ok k' -> k = Some k') ->
    (forall k', k = Some k' -> ~ inside (p :: path st) k') ->
    (forall key, key <> file_top -> oregion (map field_name todo) (p :: path st) key -> dget place_eqb key (records s) = None) ->
    final = map (lay (p :: path st) (records s)) now -> bounded (p :: path st) (records s) now ->
    match convert_fields V kd now final todo (MkFrame (Other kd (now ++ todo)) p :: st, ps) with
    | Ok (n', (stk, ps')) =>
        exists fs' s', n' = Other kd (map (lay (p :: path st) (records s')) fs') /\ stk = MkFrame (Other kd fs') p :: st /\
          walk_fields W kd now todo (MkFrame (Other kd (now ++ todo)) p :: st, s) = Ok (Other kd fs', (MkFrame (Other kd fs') p :: st, s')) /\
          corr k s' ps' /\ frame_ok k (oregion (map field_name todo) (p :: path st)) s s' /\ bounded (p :: path st) (records s') fs'
    | Raise x => walk_fields W kd now todo (MkFrame (Other kd (now ++ todo)) p :: st, s) = Raise x
    end.
  Proof.
    set (P := p :: path st).
    induction todo as [|f todo LIH]; intros now final s ps k OK ND NB NOW C SC SH SL OU FR FI BO; cbn [walk_fields convert_fields].
    { rewrite app_nil_r. exists now, s. split; [subst final; reflexivity|]. repeat split; auto. }
    inversion_clear OK as [|? ? Of Ot]. cbn [map] in ND. inversion_clear ND as [|? ? N1 N2].
    assert (NBt : forall nm c, In (One nm c) todo -> ~ In nm block_names) by (intros nm c I; apply (NB nm c); right; exact I).
    set (hereR := fun key => (exists c, p_field c = field_name f /\ inside (c :: P) key) \/ (exists j, key = (P, field_name f, j))).
    assert (HERE : forall key, hereR key -> oregion (map field_name (f :: todo)) P key).
    { intros key [(c & E & I)|(j & ->)]; [left; exists c; split; [left; symmetry; exact E|exact I]|right; exists (field_name f), j; split; [left|]; reflexivity]. }
    assert (UP : forall key, oregion (map field_name todo) P key -> oregion (map field_name (f :: todo)) P key).
    { intros key [(c & E & I)|(nm & j & I & ->)]; [left; exists c; split; [right; exact E|exact I]|right; exists nm, j; split; [right; exact I|reflexivity]]. }
    assert (NEXT : forall s1, frame_ok k hereR s s1 ->
        forall key, key <> file_top -> oregion (map field_name todo) P key -> dget place_eqb key (records s1) = None).
    { intros s1 [_ F2] key T R. rewrite F2; [apply FR; [exact T|apply UP, R]|exact T| |].
      - intros ->. destruct R as [(c & _ & I)|(nm & j & _ & ->)]; [exact (OU _ eq_refl (inside_up _ _ _ I))|exact (OU _ eq_refl (inside_own P nm j))].
      - intros [(c' & E' & I')|(j' & ->)]; destruct R as [(c & E & I)|(nm & j & I & E)].
        + assert (c = c') as -> by (eapply inside_unique; eassumption). rewrite E' in E. auto.
        + subst key. exact (inside_not_own _ _ _ _ I').
        + exact (inside_not_own _ _ _ _ I).
        + injection E as E _. rewrite E in N1. auto. }
    (* the entries for the fields already done stay *)
    assert (STAY : forall s1, frame_ok k hereR s s1 -> forall g, In g now -> forall j, (P, field_name g, j) <> file_top ->
        dget place_eqb (P, field_name g, j) (records s1) = dget place_eqb (P, field_name g, j) (records s)).
    { intros s1 [_ F2] g Hg j T. apply F2; [exact T| |].
      - intros ->. exact (OU _ eq_refl (inside_own P _ j)).
      - intros [(c & _ & I)|(j' & E)]; [exact (inside_not_own _ _ _ _ I)|]. injection E as E _. apply (NOW g Hg). left. symmetry. exact E. }
    assert (NOW' : forall fs1, (forall g, In g fs1 -> field_name g = field_name f) -> forall g, In g (now ++ fs1) -> ~ In (field_name g) (map field_name todo)).
    { intros fs1 H1 g Hg. apply in_app_iff in Hg as [Hg|Hg]; [intros I; apply (NOW g Hg); right; exact I|]. rewrite (H1 g Hg). exact N1. }
    assert (STEP : forall fs1 fin1 s1 ps1, (forall g, In g fs1 -> field_name g = field_name f) ->
      corr k s1 ps1 -> frame_ok k hereR s s1 -> fin1 = map (lay P (records s1)) fs1 -> bounded P (records s1) fs1 ->
      match convert_fields V kd (now ++ fs1) (final ++ fin1) todo (MkFrame (Other kd ((now ++ fs1) ++ todo)) p :: st, ps1) with
      | Ok (n', (stk, ps')) =>
          exists fs' s', n' = Other kd (map (lay P (records s')) fs') /\ stk = MkFrame (Other kd fs') p :: st /\
            walk_fields W kd (now ++ fs1) todo (MkFrame (Other kd ((now ++ fs1) ++ todo)) p :: st, s1) = Ok (Other kd fs', (MkFrame (Other kd fs') p :: st, s')) /\
            corr k s' ps' /\ frame_ok k (oregion (map field_name (f :: todo)) P) s s' /\ bounded P (records s') fs'
      | Raise x => walk_fields W kd (now ++ fs1) todo (MkFrame (Other kd ((now ++ fs1) ++ todo)) p :: st, s1) = Raise x
      end).
    { intros fs1 fin1 s1 ps1 H1 C1 F1 FI1 BO1.
      assert (Y := LIH (now ++ fs1)%list (final ++ fin1)%list s1 ps1 k Ot N2 NBt (NOW' fs1 H1) C1 (eq_trans (proj1 F1) SC) SH SL OU (NEXT s1 F1)).
      assert (FI' : (final ++ fin1)%list = map (lay P (records s1)) (now ++ fs1)).
      { rewrite map_app, <- FI1. f_equal. rewrite FI. symmetry. apply lay_same. exact (STAY s1 F1). }
      assert (BO' : bounded P (records s1) (now ++ fs1)).
      { intros nm l j I T D. apply in_app_iff in I as [I|I]; [|exact (BO1 nm l j I T D)].
        apply (BO nm l j I T). pose proof (STAY s1 F1 (Many nm l) I j T) as Z. cbn [field_name] in Z. rewrite <- Z. exact D. }
      specialize (Y FI' BO'). destruct (convert_fields V kd _ _ todo _) as [[n' [stk ps']]|y]; [|exact Y].
      destruct Y as (fs' & s' & A1 & A2 & A3 & A4 & A5 & A6). exists fs', s'. repeat (split; [assumption|]). split; [|exact A6].
      eapply frame_trans; [exact HERE|exact UP|exact F1|exact A5]. }
    assert (SHc : forall s1 : bst, scopes s1 = scopes s -> short (scopes s1) (Datatypes.S (List.length st))).
    { intros s1 E. rewrite E, SC. constructor; [cbn; rewrite path_len; lia|]. eapply Forall_impl; [|exact SH]. intros x; cbn; lia. }
    assert (SLc : forall nm n', ~ In nm block_names -> slot_for k (MkFrame n' p :: st) (scopes s) nm).
    { intros nm n' NBn F k' E H. rewrite SC in H. apply (SL k' n'). eapply (slot_beside F); [exact SH| |exact H].
      rewrite E. intros I. apply NBn. apply mem_str_In. rewrite names_mem. apply mem_str_In, I. }
    assert (OUc : outer k P) by (intros k' c E I; exact (OU k' E (inside_up _ _ _ I))).
    destruct f as [nm c|nm l|nm x]; cbn [field_name field_kids] in *.
    - inversion_clear Of as [|? ? Oc _].
      assert (NBn : ~ In nm block_names) by (apply (NB nm c); left; reflexivity).
      match goal with |- context [V c (At nm 0) (?x, ps)] => set (stk := x) end.
      assert (RX : forall key, region c (At nm 0 :: path stk) key -> hereR key) by (intros key [_ R]; left; exists (At nm 0); auto).
      assert (X := IH c (At nm 0) stk s ps k (or_intror Oc) (fun E => nil_cons (eq_sym E)) C (SHc s eq_refl)
                 (fun k' E => SLc nm _ NBn (MkFrame c (At nm 0)) k' eq_refl E) (fun k' E => OUc k' (At nm 0) E)
                 (fun key T R => FR key T (HERE key (RX key R)))).
      destruct (V c (At nm 0) (stk, ps)) as [[r [st1 ps1]]|y]; cbn [bind].
      2:{ rewrite X. reflexivity. }
      destruct X as (-> & s1 & E1 & C1 & F1 & _). rewrite E1. cbn [bind fst snd]. unfold stk. cbn [set_top e_pos].
      assert (FN : forall j, (P, nm, j) <> file_top -> dget place_eqb (P, nm, j) (records s1) = None).
      { intros j T. rewrite (proj2 F1); [|exact T| |].
        - apply FR; [exact T|]. right. exists nm, j. split; [left|]; reflexivity.
        - intros ->. exact (OU _ eq_refl (inside_own P nm j)).
        - intros [_ R]. exact (inside_not_own _ _ _ _ R). }
      apply (frame_weaken _ _ _ _ _ RX) in F1.
      apply STEP; [apply set_field_name|exact C1|exact F1| |].
      + symmetry. rewrite <- map_id. apply map_ext_in. intros g Hg. apply lay_plain. rewrite (set_field_name _ _ _ Hg). exact FN.
      + intros nm' l j I T D. apply set_field_name in I. cbn in I. subst nm'. exfalso. apply D, FN, T.
    - destruct (mem_str nm block_names) eqn:BN.
      + apply mem_str_In in BN. destruct ps as [c0 [top line]].
        match goal with |- context [convert_block V nm l 0 ?x c0 top] => set (stk := x) end.
        assert (RX : forall key, bregion nm 0 (path stk) key -> hereR key).
        { intros key (j & _ & [R| ->]); [left; exists (At nm j); auto|right; exists j; reflexivity]. }
        assert (X := block_sim nm scs l 0 stk s c0 top line k (fun E => nil_cons (eq_sym E)) BN Of C SC
                   (Forall_impl _ (fun x (H : (List.length x <= List.length st)%nat) => le_S _ _ H) SH) OU (fun key T R => FR key T (HERE key (RX key R)))).
        destruct (convert_block V nm l 0 stk c0 top) as [[b [st1 [c1 top1]]]|y]; cbn [bind].
        2:{ rewrite X. reflexivity. }
        destruct X as (-> & s1 & E1 & C1 & F1 & L1 & B1). rewrite E1. cbn [bind fst snd]. unfold stk. cbn [set_top e_pos].
        apply (frame_weaken _ _ _ _ _ RX) in F1.
        apply STEP; [intros g [<-|[]]; reflexivity|exact C1|exact F1| |].
        * cbn [map lay]. rewrite L1. reflexivity.
        * intros nm' l' j [I|[]] T D. injection I as <- <-. destruct (Nat.le_gt_cases j (List.length (map snd b))) as [|Q]; [assumption|].
          exfalso. apply D. apply B1; [exact T|]. cbn. lia.
      + assert (NBn : ~ In nm block_names) by (intros I; apply mem_str_In in I; congruence).
        match goal with |- context [walk_list V nm l 0 (?x, ps)] => set (stk := x) end.
        assert (RX : forall key, lregion l nm 0 (path stk) key -> hereR key) by (intros key [_ (j & _ & R)]; left; exists (At nm j); auto).
        assert (X := list_sim nm l 0 stk s ps k (fun E => nil_cons (eq_sym E)) (Forall_impl okn (fun x (H : parsed x) => or_intror H) Of) C (SHc s eq_refl) (SLc nm _ NBn) OUc (fun key T R => FR key T (HERE key (RX key R)))).
        destruct (walk_list V nm l 0 (stk, ps)) as [[l' [st1 ps1]]|y]; cbn [bind].
        2:{ rewrite X. reflexivity. }
        destruct X as (-> & s1 & E1 & C1 & F1 & _). rewrite E1. cbn [bind fst snd]. unfold stk. cbn [set_top e_pos].
        assert (FN : forall j, (P, nm, j) <> file_top -> dget place_eqb (P, nm, j) (records s1) = None).
        { intros j T. rewrite (proj2 F1); [|exact T| |].
          - apply FR; [exact T|]. right. exists nm, j. split; [left|]; reflexivity.
          - intros ->. exact (OU _ eq_refl (inside_own P nm j)).
          - intros [_ (j' & _ & R)]. exact (inside_not_own _ _ _ _ R). }
        apply (frame_weaken _ _ _ _ _ RX) in F1.
        apply STEP; [intros g [<-|[]]; reflexivity|exact C1|exact F1| |].
        * cbn [map]. rewrite lay_plain; [reflexivity|exact FN].
        * intros nm' l0 j [I|[]] T D. injection I as <- <-. exfalso. apply D, FN, T.
    - assert (Y := STEP [Data nm x] [Data nm x] s ps (fun g H => match H with or_introl E => f_equal field_name (eq_sym E) | or_intror F => match F with end end) C (frame_refl _ _ s) eq_refl).
      assert (B : bounded P (records s) [Data nm x]) by (intros nm' l j [I|[]]; discriminate).
      specialize (Y B). rewrite <- app_assoc in Y. cbn [app] in Y. exact Y.
  Qed.
End Below.

(** ** Insertion *)
Lemma recorded_at_keys P nm (R : table) j : In j (dkeys (recorded_at P nm R)) <-> In (P, nm, j) (dkeys R).
Proof.
  unfold recorded_at, dkeys. rewrite !in_map_iff. split.
  - intros ([j' v] & E & H). cbn in E. subst j'. apply in_flat_map in H as ([[[P' nm'] i'] v'] & Hk & H). cbn [fst snd] in H.
    destruct (path_eqb P P' && String.eqb nm nm') eqn:Q; [|contradiction]. apply andb_true_iff in Q as [Q1 Q2].
    apply path_eqb_eq in Q1. apply String.eqb_eq in Q2. subst. destruct H as [H|[]]. injection H as -> ->. exists (P', nm', j, v). auto.
  - intros ([k v] & E & H). cbn in E. subst k. exists (j, v). split; [reflexivity|]. apply in_flat_map. exists (P, nm, j, v). split; [exact H|].
    cbn [fst snd]. replace (path_eqb P P) with true by (symmetry; apply path_eqb_eq; reflexivity). rewrite String.eqb_refl. left. reflexivity.
Qed.
Lemma recorded_at_nodup P nm (R : table) : NoDup (dkeys R) -> NoDup (dkeys (recorded_at P nm R)).
Proof.
  induction R as [|[k v] R IH]; intros N; [constructor|]. cbn [dkeys map fst] in N. inversion_clear N as [|? ? N1 N2].
  unfold recorded_at. cbn [flat_map]. destruct (_ && _) eqn:Q; cbn [app]; [|apply IH, N2].
  cbn [dkeys map fst]. constructor; [|apply IH, N2]. intros I. apply N1. cbn [fst snd] in Q. destruct k as [[P' nm'] j]. cbn [fst snd] in *.
  apply andb_true_iff in Q as [Q1 Q2]. apply path_eqb_eq in Q1. apply String.eqb_eq in Q2. subst. apply (recorded_at_keys P' nm' R j). exact I.
Qed.
Lemma recorded_at_get P nm (R : table) j : NoDup (dkeys R) -> dget Nat.eqb j (recorded_at P nm R) = dget place_eqb (P, nm, j) R.
Proof.
  intros N. destruct (dget place_eqb (P, nm, j) R) as [v|] eqn:E.
  - apply (dget_in_nodup _ Nat.eqb_spec); [apply recorded_at_nodup, N|]. apply (dget_some_in _ place_eqb_spec) in E.
    apply in_flat_map. exists (P, nm, j, v). split; [exact E|].
    cbn [fst snd]. replace (path_eqb P P) with true by (symmetry; apply path_eqb_eq; reflexivity). rewrite String.eqb_refl. left. reflexivity.
  - apply (dget_none_iff _ Nat.eqb_spec). intros I. apply recorded_at_keys in I. apply (dget_none_iff _ place_eqb_spec) in E. contradiction.
Qed.
Lemma insert_woven P nm (R : table) l : NoDup (dkeys R) ->
  (forall j, dget place_eqb (P, nm, j) R <> None -> (j <= List.length l)%nat) ->
  Scope.insert_field (recorded_at P nm R) l = woven (fun j => at_place (P, nm, j) R) 0 l.
Proof.
  intros N B. rewrite insert_field_woven.
  - apply woven_ext. intros j _. unfold at_of, at_place. rewrite recorded_at_get by exact N. reflexivity.
  - apply recorded_at_nodup, N.
  - intros j I. apply B. apply recorded_at_keys in I. intros E. apply (dget_none_iff _ place_eqb_spec) in E. contradiction.
Qed.

Lemma owner_pre (n : node) stack (s : bst) : In (kind_of n) block_owners ->
  basic_pre n stack s = Ok (looks_inside n, with_scopes s (map e_pos stack :: scopes s)).
Proof. intros H. unfold basic_pre. apply owners_eq, mem_str_In in H. rewrite H. reflexivity. Qed.
Lemma other_pre (n : node) stack (s : bst) : ~ In (kind_of n) block_owners -> basic_pre n stack s = Ok (looks_inside n, s).
Proof.
  intros H. unfold basic_pre. destruct (mem_str (kind_of n) scope_kinds) eqn:E; [|reflexivity].
  apply mem_str_In, owners_eq in E. contradiction.
Qed.
Lemma owner_post kd fs stack (s : bst) : In kd block_owners ->
  basic_post e (Other kd fs) stack s = Ok (Reply (VNode (insert_recorded (map e_pos stack) (records s) (Other kd fs))), with_scopes s (tl (scopes s))).
Proof.
  intros H. apply owners_eq in H. cbn [basic_post]. rewrite (proj2 (mem_str_In kd scope_kinds) H).
  destruct (mem_str kd ["Attribute"; "Call"]) eqn:E.
  { apply mem_str_In in E. exfalso. destruct E as [<-|[<-|[]]]; cbn in H; intuition discriminate. }
  destruct (String.eqb_spec kd "Expr") as [->|]; [|reflexivity]. exfalso. cbn in H. intuition discriminate.
Qed.

(** Insertion gives the layout, with the statements for the top of the file before the rest. *)
Definition topped (P : list pos) (top : list node) (f : field) : field :=
  match f with Many nm l => Many nm ((if place_eqb (P, nm, 0) file_top then top else []) ++ l)%list | f => f end.
Lemma insert_laid P (R : table) kd fs : NoDup (dkeys R) -> bounded P R fs ->
  insert_recorded P R (Other kd fs) = Other kd (map (topped P (at_place file_top R)) (map (lay P R) fs)).
Proof.
  intros N B. cbn [insert_recorded]. f_equal. rewrite map_map. apply map_ext_in. intros [nm c|nm l|nm x] Hf; cbn [lay topped]; try reflexivity.
  f_equal. rewrite insert_woven; [|exact N|].
  2:{ intros j D. destruct (place_eqb_spec (P, nm, j) file_top) as [E|T]; [|exact (B nm l j Hf T D)]. injection E as _ _ ->. apply Nat.le_0_l. }
  assert (H : forall i, (i <> 0)%nat -> (P, nm, i) <> file_top) by (intros i I E; injection E as _ _ E; auto).
  assert (TL : forall l, woven (fun j => at_place (P, nm, j) R) 1 l = woven (line_at P nm R) 1 l).
  { intros l0. apply woven_ext. intros j J. unfold line_at. destruct (place_eqb_spec (P, nm, j) file_top) as [E|]; [|reflexivity]. exfalso. apply (H j); [lia|exact E]. }
  destruct l as [|x l]; cbn [woven].
  - unfold line_at. destruct (place_eqb_spec (P, nm, 0) file_top) as [E|]; [rewrite E, app_nil_r|]; reflexivity.
  - rewrite TL. unfold line_at at 2. destruct (place_eqb_spec (P, nm, 0) file_top) as [E|]; [rewrite E|]; reflexivity.
Qed.

Lemma oregion_region n names P key : ~ simple n -> oregion names P key -> region n P key.
Proof.
  intros N [(c & _ & I)|(nm & j & _ & ->)]; (split; [exact N|]); [exact (inside_up _ _ _ I)|apply inside_own].
Qed.

Lemma parsed_fields kd fs : parsed (Other kd fs) -> Forall (fun f => Forall parsed (field_kids f)) fs.
Proof. intros OK. apply Forall_forall. intros f Hf. apply Forall_forall. intros c Hc. eapply parsed_kid; eassumption. Qed.

(** A node that owns blocks, at the root or anywhere else. *)
Lemma owner_node d kd fs p st s ps k : node_sim d ->
  In kd block_owners -> parsed (Other kd fs) -> corr k s ps -> short (scopes s) (List.length st) ->
  (forall k' n, scope_body_index (MkFrame n p :: st) (scopes s) = Ok k' -> k = Some k') ->
  (forall k', k = Some k' -> ~ inside (p :: path st) k') ->
  (forall key, key <> file_top -> inside (p :: path st) key -> dget place_eqb key (records s) = None) ->
  match convert e (S d) (Other kd fs) p (st, ps) with
  | Ok (r, (st', ps')) =>
      st' = st /\ exists s' fs', r = Reply (VNode (Other kd fs')) /\
        basic_walk e (S d) (Other kd fs) p (st, s) = Ok (Reply (VNode (Other kd (map (topped (p :: path st) (at_place file_top (records s'))) fs'))), (st, s')) /\
        corr k s' ps' /\ frame_ok k (inside (p :: path st)) s s'
  | Raise x => basic_walk e (S d) (Other kd fs) p (st, s) = Raise x
  end.
Proof.
  intros IH OW PA C SH SL OU FR. unfold basic_walk. cbn [convert walk fst snd kind_of].
  rewrite (proj2 (mem_str_In kd block_owners) OW). rewrite owner_pre by exact OW. cbn [bind looks_inside walk_children].
  set (s0 := with_scopes s ((p :: path st) :: scopes s)).
  change (map e_pos (MkFrame (Other kd fs) p :: st)) with (p :: path st). fold s0.
  assert (C0 : corr k s0 (enter (p :: path st) ps)).
  { destruct ps as [c [top line]]. destruct C as (-> & C2 & C3 & C4). repeat split; assumption. }
  assert (X := owner_sim d IH kd p st (scopes s) fs [] [] s0 (enter (p :: path st) ps) k
     (parsed_fields kd fs PA) (parsed_names _ _ PA) (parsed_blocks _ _ PA OW)
     (fun f H => match H with end) C0 eq_refl SH SL OU).
  assert (IN : forall key, oregion (map field_name fs) (p :: path st) key -> inside (p :: path st) key).
  { intros key [(c & _ & I)|(nm & j & _ & ->)]; [exact (inside_up _ _ _ I)|apply inside_own]. }
  specialize (X (fun key T R => FR key T (IN key R)) eq_refl (fun nm l j H => match H with end)). cbn [app] in X.
  change (walk basic_pre (basic_again e) (basic_post e) d) with (basic_walk e d).
  destruct (convert_fields (convert e d) kd [] [] fs _) as [[n' [stk ps']]|y]; cbn [bind].
  2:{ rewrite X. reflexivity. }
  destruct X as (fs' & s' & -> & -> & E1 & C1 & F1 & B1). rewrite E1. cbn [bind fst snd tl basic_again looks_again].
  rewrite owner_post by exact OW. cbn [bind]. split; [reflexivity|].
  exists (with_scopes s' (tl (scopes s'))), (map (lay (p :: path st) (records s')) fs').
  split; [reflexivity|].
  assert (C1' := C1). destruct ps' as [c1 [top1 line1]]. destruct C1 as (-> & C12 & C13 & C14).
  split.
  { change (map e_pos (MkFrame (Other kd fs') p :: st)) with (p :: path st). rewrite insert_laid by assumption. reflexivity. }
  split; [repeat split; assumption|].
  destruct F1 as [F1 F2]. split; [cbn; rewrite F1; reflexivity|]. intros key T K N. apply F2; [exact T|exact K|]. intros I. apply N, IN, I.
Qed.

Lemma walk_fields_other {S} (V : walker (S := S)) kd : forall todo now st n st', walk_fields V kd now todo st = Ok (n, st') -> exists fs, n = Other kd fs.
Proof.
  induction todo as [|[nm c|nm l|nm x] todo IH]; intros now st n st'; cbn [walk_fields].
  - intros [= <- _]. eauto.
  - destruct (V c (At nm 0) st) as [[v st1]|]; cbn [bind]; [|discriminate]. apply IH.
  - destruct (walk_list V nm l 0 st) as [[v st1]|]; cbn [bind]; [|discriminate]. apply IH.
  - apply IH.
Qed.

Theorem all_nodes : forall d, node_sim d.
Proof.
  induction d as [|d IH]; intros n p st s ps k OK NE C SH SL OU FR.
  { reflexivity. }
  destruct (in_dec string_dec (kind_of n) block_owners) as [OW|NO].
  - assert (EX : exists kd fs, n = Other kd fs).
    { destruct n as [i|v a|f a kw|l|m l i|kd fs]; try (exfalso; cbn in OW; intuition discriminate). eauto. }
    destruct EX as (kd & fs & ->). cbn [kind_of] in OW.
    assert (NS : ~ simple (Other kd fs)) by (intros S; exact (simple_kind _ S OW)).
    destruct OK as [OK|PA]; [contradiction|].
    assert (X := owner_node d kd fs p st s ps k IH OW PA C SH).
    assert (SL' : forall k' n, scope_body_index (MkFrame n p :: st) (scopes s) = Ok k' -> k = Some k').
    { intros k' n H. apply SL. rewrite <- H. apply slot_path. reflexivity. }
    specialize (X SL' OU (fun key T I => FR key T (conj NS I))).
    destruct (convert e (S d) (Other kd fs) p (st, ps)) as [[r [st' ps']]|y]; [|exact X].
    destruct X as (-> & s' & fs' & -> & E1 & C1 & F1). split; [reflexivity|]. exists s'. split.
    { rewrite E1. do 4 f_equal. rewrite <- (map_id fs') at 2. f_equal. apply map_ext. intros [nm c|nm l|nm x]; cbn [topped]; try reflexivity.
      destruct (place_eqb_spec (p :: path st, nm, 0) file_top) as [E|]; [|reflexivity]. injection E as _ E. exfalso. destruct st; [congruence|discriminate]. }
    split; [exact C1|]. split; [|contradiction]. eapply frame_weaken; [|exact F1]. intros key I. split; assumption.
  - unfold basic_walk. cbn [convert walk fst snd]. rewrite other_pre by exact NO. cbn [bind].
    destruct (mem_str (kind_of n) block_owners) eqn:EM; [apply mem_str_In in EM; contradiction|].
    change (walk basic_pre (basic_again e) (basic_post e) d) with (basic_walk e d).
    (* first visit *)
    assert (X1 : match (if looks_inside n then walk_children (convert e d) n (MkFrame n p :: st, ps) else Ok (n, (MkFrame n p :: st, ps))) with
      | Ok (n', (stk, ps')) =>
        stk = MkFrame n' p :: st /\ exists s', (if looks_inside n then walk_children (basic_walk e d) n (MkFrame n p :: st, s) else Ok (n, (MkFrame n p :: st, s))) = Ok (n', (MkFrame n' p :: st, s')) /\
          corr k s' ps' /\ frame_ok k (region n (p :: path st)) s s' /\ (simple n -> simple n') /\ kind_of n' = kind_of n
      | Raise x => (if looks_inside n then walk_children (basic_walk e d) n (MkFrame n p :: st, s) else Ok (n, (MkFrame n p :: st, s))) = Raise x
      end).
    { destruct (looks_inside n); [exact (children_sim d IH n p st s ps k OK NO C SH SL OU FR)|].
      split; [reflexivity|]. exists s. split; [reflexivity|]. split; [exact C|]. split; [apply frame_refl|auto]. }
    destruct (if looks_inside n then walk_children (convert e d) n (MkFrame n p :: st, ps) else Ok (n, (MkFrame n p :: st, ps))) as [[n1 [stk1 ps1]]|y]; cbn [bind].
    2:{ rewrite X1. reflexivity. }
    destruct X1 as (-> & s1 & E1 & C1 & F1 & S1 & K1). rewrite E1. cbn [bind fst snd].
    assert (NO1 : ~ In (kind_of n1) block_owners) by (rewrite K1; exact NO).
    assert (SC1 : scopes s1 = scopes s) by apply F1.
    assert (SL1 : forall m (s2 : bst), scopes s2 = scopes s -> forall k', scope_body_index (MkFrame m p :: st) (scopes s2) = Ok k' -> k = Some k').
    { intros m s2 E k' H. apply SL. rewrite <- H, E. apply slot_path. reflexivity. }
    change (basic_again e n1 (MkFrame n1 p :: st) s1) with (looks_again e n1).
    assert (X2 : match (if looks_again e n1 then walk_children (convert e d) n1 (MkFrame n1 p :: st, ps1) else Ok (n1, (MkFrame n1 p :: st, ps1))) with
      | Ok (n', (stk, ps')) =>
        stk = MkFrame n' p :: st /\ exists s', (if looks_again e n1 then walk_children (basic_walk e d) n1 (MkFrame n1 p :: st, s1) else Ok (n1, (MkFrame n1 p :: st, s1))) = Ok (n', (MkFrame n' p :: st, s')) /\
          corr k s' ps' /\ frame_ok k (region n (p :: path st)) s1 s' /\ (simple n -> simple n') /\ kind_of n' = kind_of n
      | Raise x => (if looks_again e n1 then walk_children (basic_walk e d) n1 (MkFrame n1 p :: st, s1) else Ok (n1, (MkFrame n1 p :: st, s1))) = Raise x
      end).
    { destruct (looks_again e n1) eqn:LA.
      2:{ split; [reflexivity|]. exists s1. split; [reflexivity|]. split; [exact C1|]. split; [apply frame_refl|]. split; [exact S1|exact K1]. }
      assert (SN : simple n).
      { assert (A : kind_of n = "Attribute") by (rewrite <- K1; destruct n1; try discriminate LA; reflexivity).
        destruct OK as [|PA]; [assumption|]. destruct (parsed_other n PA) as [|(kd & fs & ->)]; [assumption|].
        cbn [looks_inside walk_children] in E1. apply walk_fields_other in E1 as [fs1 ->]. discriminate LA. }
      assert (Y := children_sim d IH n1 p st s1 ps1 k (or_introl (S1 SN)) NO1 C1).
      rewrite SC1 in Y. specialize (Y SH (fun k' H => SL1 n1 s eq_refl k' H) OU (fun key _ R => False_ind _ (proj1 R (S1 SN)))).
      destruct (walk_children (convert e d) n1 _) as [[n2 [stk2 ps2]]|y]; [|exact Y].
      destruct Y as (-> & s2 & E2 & C2 & F2 & S2 & K2). split; [reflexivity|]. exists s2. split; [exact E2|]. split; [exact C2|].
      split; [eapply frame_weaken; [|exact F2]; intros key [R _]; destruct (R (S1 SN))|]. split; [auto|congruence]. }
    unfold wstate in *.
    match type of X2 with match ?E with _ => _ end => destruct E as [[n2 [stk2 ps2]]|y] end; cbn [bind].
    2:{ rewrite X2. reflexivity. }
    destruct X2 as (-> & s2 & E2 & C2 & F2 & S2 & K2). rewrite E2. cbn [bind fst snd tl]. clear E2.
    assert (NO2 : ~ In (kind_of n2) block_owners) by (rewrite K2; exact NO).
    assert (SC2 : scopes s2 = scopes s) by (rewrite (proj1 F2); exact SC1).
    assert (X := finish_sim k n2 (MkFrame n2 p :: st) s2 ps2 NO2 C2 (SL1 n2 s2 SC2)).
    destruct (finish e n2 (MkFrame n2 p :: st) ps2) as [[r ps3]|y]; cbn [bind].
    2:{ rewrite X. reflexivity. }
    destruct X as (s3 & E3 & C3 & F3). rewrite E3. cbn [bind]. split; [reflexivity|]. exists s3. split; [reflexivity|]. split; [exact C3|]. split.
    + eapply frame_trans; [| |exact F1|]; [auto|intros x H; exact H|]. eapply frame_trans; [| |exact F2|exact F3]; [auto|intros x []].
    + intros SN. eapply post_simple; [exact G|exact (S2 SN)|exact E3].
Qed.
End Sim.

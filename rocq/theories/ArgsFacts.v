(** Proofs about [Args]. *)
From Coq Require Import Lia.
From Verif Require Import PyStr PyStrFacts PyDict PyDictFacts Args ArgsSpec.

Lemma key_eqb_spec a b : reflect (a = b) (key_eqb a b).
Proof.
  destruct a as [a|], b as [b|]; simpl; try (constructor; congruence).
  destruct (String.eqb_spec a b); constructor; congruence.
Qed.

Lemma key_in_In k l : key_in k l = true <-> exists x, k = Some x /\ In x l.
Proof.
  destruct k as [x|]; simpl.
  - rewrite mem_str_In. split; [intros H; exists x; auto | intros (y & [= ->] & H); exact H].
  - split; [discriminate | intros (y & [=] & _)].
Qed.

(** ** The check loop *)
Section Check.
  Variable e : entry.
  Variable an : bool.

  Lemma check_ind (P : list kwnode -> Prop) :
    P [] -> (forall n, P [n]) ->
    (forall n m r, P r -> P (m :: r) -> P (n :: m :: r)) -> forall l, P l.
  Proof.
    intros H0 H1 H2 l. enough (P l /\ forall n, P (n :: l)) by tauto.
    induction l as [|n r [IH1 IH2]]; split; auto.
  Qed.

  Lemma check_without l : forall v kept c,
    check_kwargs e an l = (v, kept, c) -> without (harmless e) l kept.
  Proof.
    induction l as [|n|n m r IHr IHm] using check_ind; intros v kept c H.
    - inversion H; constructor.
    - cbn [check_kwargs] in H.
      repeat match type of H with
             | (if ?b then _ else _) = _ => let E := fresh "E" in destruct b eqn:E
             end; inversion H; subst; try (repeat constructor; fail).
      apply without_drop; [|constructor].
      apply key_in_In in E0 as (k & K & Hk). split; [exists k; auto|assumption].
    - assert (RF : forall l : list kwnode, without (harmless e) l l)
        by (induction l; constructor; assumption).
      change (check_kwargs e an (n :: m :: r)) with
        (let k := kw_arg n in
         if match k with None => negb an | Some _ => false end then (Some Unsupported, n :: m :: r, 0)
         else if key_in k (unsupport_args e) then
           if e_none (kw_value n) then
             let '(v, l', c) := check_kwargs e an r in (v, m :: l', c)
           else (Some Unsupported, n :: m :: r, 0)
         else if negb (key_in k (args_list e ++ overload_args_list e)%list) then (Some Misidentified, n :: m :: r, 0)
         else let '(v, l', c) := check_kwargs e an (m :: r) in
              (v, n :: l', if key_in k (force_kwargs e) then S c else c)) in H.
      cbv zeta in H.
      destruct (match kw_arg n with None => negb an | Some _ => false end); [inversion H; subst; apply RF|].
      destruct (key_in (kw_arg n) (unsupport_args e)) eqn:U.
      + destruct (e_none (kw_value n)) eqn:N; [|inversion H; subst; apply RF].
        destruct (check_kwargs e an r) as [[v' l'] c'] eqn:R. inversion H; subst.
        apply without_drop.
        * apply key_in_In in U as (k & K & Hk). split; [exists k; auto|assumption].
        * constructor. eapply IHr. reflexivity.
      + destruct (negb (key_in (kw_arg n) (args_list e ++ overload_args_list e)%list)); [inversion H; subst; apply RF|].
        destruct (check_kwargs e an (m :: r)) as [[v' l'] c'] eqn:R. inversion H; subst.
        constructor. eapply IHm. reflexivity.
  Qed.

  (** Unfolding lemma for the two-element case. *)
  Lemma check_cons2 n m r :
    check_kwargs e an (n :: m :: r) =
        (if match kw_arg n with None => negb an | Some _ => false end then (Some Unsupported, n :: m :: r, 0)
         else if key_in (kw_arg n) (unsupport_args e) then
           if e_none (kw_value n) then
             let '(v, l', c) := check_kwargs e an r in (v, m :: l', c)
           else (Some Unsupported, n :: m :: r, 0)
         else if negb (key_in (kw_arg n) (args_list e ++ overload_args_list e)%list) then (Some Misidentified, n :: m :: r, 0)
         else let '(v, l', c) := check_kwargs e an (m :: r) in
              (v, n :: l', if key_in (kw_arg n) (force_kwargs e) then S c else c)).
  Proof. reflexivity. Qed.

  Lemma check_forced_le l : forall v kept c,
    check_kwargs e an l = (v, kept, c) -> (c <= List.length kept)%nat.
  Proof.
    induction l as [|n|n m r IHr IHm] using check_ind; intros v kept c H.
    - inversion H; simpl; lia.
    - cbn [check_kwargs] in H.
      repeat match type of H with
             | (if ?b then _ else _) = _ => let E := fresh "E" in destruct b eqn:E
             end; inversion H; subst; cbn [List.length]; try lia. destruct (key_in (kw_arg n) (force_kwargs e)); lia.
    - rewrite check_cons2 in H.
      destruct (match kw_arg n with None => negb an | Some _ => false end); [inversion H; subst; simpl; lia|].
      destruct (key_in (kw_arg n) (unsupport_args e)) eqn:U.
      + destruct (e_none (kw_value n)) eqn:N; [|inversion H; subst; simpl; lia].
        destruct (check_kwargs e an r) as [[v' l'] c'] eqn:R. inversion H; subst.
        specialize (IHr _ _ _ eq_refl). simpl. lia.
      + destruct (negb (key_in (kw_arg n) (args_list e ++ overload_args_list e)%list)); [inversion H; subst; simpl; lia|].
        destruct (check_kwargs e an (m :: r)) as [[v' l'] c'] eqn:R. inversion H; subst.
        specialize (IHm _ _ _ eq_refl). cbn [List.length]. destruct (key_in (kw_arg n) (force_kwargs e)); lia.
  Qed.

  Lemma check_early l : forall v kept c, check_kwargs e an l = (Some v, kept, c) -> v = Unsupported \/ v = Misidentified.
  Proof.
    induction l as [|n|n m r IHr IHm] using check_ind; intros v kept c H.
    - inversion H.
    - cbn [check_kwargs] in H.
      repeat match type of H with
             | (if ?b then _ else _) = _ => let E := fresh "E" in destruct b eqn:E
             end; inversion H; subst; auto.
    - rewrite check_cons2 in H.
      destruct (match kw_arg n with None => negb an | Some _ => false end); [inversion H; subst; auto|].
      destruct (key_in (kw_arg n) (unsupport_args e)) eqn:U.
      + destruct (e_none (kw_value n)) eqn:N; [|inversion H; subst; auto].
        destruct (check_kwargs e an r) as [[v' l'] c'] eqn:R. inversion H; subst. eapply IHr; reflexivity.
      + destruct (negb (key_in (kw_arg n) (args_list e ++ overload_args_list e)%list)); [inversion H; subst; auto|].
        destruct (check_kwargs e an (m :: r)) as [[v' l'] c'] eqn:R. inversion H; subst. eapply IHm; reflexivity.
  Qed.

  (** When the loop runs to the end, a forbidden keyword survives only right after a
      harmless one. *)
  Lemma check_forbidden l : forall kept c,
    check_kwargs e an l = (None, kept, c) ->
    forall pre n post, l = (pre ++ n :: post)%list -> forbidden e n ->
    exists pre' d, pre = (pre' ++ [d])%list /\ harmless e d.
  Proof.
    induction l as [|x|x m r IHr IHm] using check_ind; intros kept c H pre n post L F.
    - destruct pre; discriminate.
    - destruct pre as [|p pre]; [|destruct pre; discriminate]. cbn [app] in L; injection L as -> ->.
      exfalso. destruct F as [(k & K & Hk) N]. cbn [check_kwargs] in H. rewrite K in H. cbv iota in H.
      assert (U : key_in (Some k) (unsupport_args e) = true) by (apply key_in_In; eauto).
      rewrite U, N in H. discriminate.
    - rewrite check_cons2 in H.
      destruct (match kw_arg x with None => negb an | Some _ => false end) eqn:A; [discriminate|].
      destruct (key_in (kw_arg x) (unsupport_args e)) eqn:U.
      + destruct (e_none (kw_value x)) eqn:N; [|discriminate].
        assert (D : harmless e x).
        { apply key_in_In in U as (k & K & Hk). split; [exists k; auto|assumption]. }
        destruct (check_kwargs e an r) as [[v' l'] c'] eqn:R. inversion H; subst.
        destruct pre as [|p pre].
        * cbn [app] in L; injection L as -> _. destruct F as [_ F]. congruence.
        * cbn [app] in L; injection L as -> L. destruct pre as [|p2 pre].
          -- exists [], p. auto.
          -- cbn [app] in L; injection L as -> L. destruct (IHr _ _ eq_refl pre n post L F) as (pre' & d & -> & Hd).
             exists (p :: p2 :: pre')%list, d. auto.
      + destruct (negb (key_in (kw_arg x) (args_list e ++ overload_args_list e)%list)) eqn:M; [discriminate|].
        destruct (check_kwargs e an (m :: r)) as [[v' l'] c'] eqn:R. inversion H; subst.
        destruct pre as [|p pre].
        * cbn [app] in L; injection L as -> _. exfalso. destruct F as [(k & K & Hk) _].
          rewrite (proj2 (key_in_In _ _)) in U; [discriminate|eauto].
        * cbn [app] in L; injection L as -> L. destruct (IHm _ _ eq_refl pre n post L F) as (pre' & d & -> & Hd).
          exists (p :: pre')%list, d. auto.
  Qed.

  Definition forced_count (l : list kwnode) : nat :=
    List.length (filter (fun n => key_in (kw_arg n) (force_kwargs e)) l).

  (** Exact result when there is no unsupported keyword at all. *)
  Lemma check_supported l :
    (forall n, In n l -> ~ names_unsupported e n) ->
    (forall n, In n l -> an = false -> kw_arg n <> None) ->
    (forall n, In n l -> exists k, kw_arg n = Some k /\ In k (args_list e ++ overload_args_list e)%list) ->
    check_kwargs e an l = (None, l, forced_count l).
  Proof.
    unfold forced_count.
    induction l as [|n r IH]; intros HU HN HK; [reflexivity|].
    cbn [check_kwargs]. destruct (HK n (or_introl eq_refl)) as (k & K & Hk). rewrite K.
    assert (U : key_in (Some k) (unsupport_args e) = false).
    { destruct (key_in (Some k) (unsupport_args e)) eqn:U; [|reflexivity]. exfalso.
      apply (HU n (or_introl eq_refl)). apply key_in_In in U as (k' & [= <-] & Hk'). exists k; auto. }
    rewrite U, (proj2 (key_in_In (Some k) _)) by eauto. cbn [negb].
    rewrite IH; [cbn [filter]; rewrite K; destruct (key_in (Some k) (force_kwargs e)); reflexivity| | |];
      intros; [apply HU|apply HN|apply HK]; simpl; auto.
  Qed.

  Lemma check_rejects_unsupported l :
    (forall n, In n l -> ~ harmless e n) ->
    (exists n, In n l /\ names_unsupported e n) ->
    exists v kept c, check_kwargs e an l = (Some v, kept, c).
  Proof.
    induction l as [|x r IH]; intros HH (n & Hn & U); [destruct Hn|].
    cbn [check_kwargs].
    destruct (match kw_arg x with None => negb an | Some _ => false end); [eauto|].
    destruct (key_in (kw_arg x) (unsupport_args e)) eqn:K.
    - destruct (e_none (kw_value x)) eqn:N; [|eauto]. exfalso. apply (HH x (or_introl eq_refl)).
      apply key_in_In in K as (k & K & Hk). split; [exists k; auto|assumption].
    - destruct (negb _); [eauto|]. destruct Hn as [<-|Hn].
      + exfalso. destruct U as (k & K' & Hk). rewrite (proj2 (key_in_In _ _)) in K; [discriminate|eauto].
      + destruct IH as (v & kept & c & ->); [intros; apply HH; right; assumption|eauto|eauto].
  Qed.

  Lemma check_none_supported l : forall kept c,
    (forall n, In n l -> ~ harmless e n) ->
    check_kwargs e an l = (None, kept, c) ->
    kept = l /\ c = forced_count l /\
    forall n, In n l -> (an = false -> kw_arg n <> None) /\
       (~ names_unsupported e n) /\ exists k, kw_arg n = Some k /\ In k (args_list e ++ overload_args_list e)%list.
  Proof.
    induction l as [|x r IH]; intros kept c HH H.
    - inversion H. split; [reflexivity|]. split; [reflexivity|]. intros ? [].
    - cbn [check_kwargs] in H.
      destruct (match kw_arg x with None => negb an | Some _ => false end) eqn:A; [discriminate|].
      destruct (key_in (kw_arg x) (unsupport_args e)) eqn:K.
      { destruct (e_none (kw_value x)) eqn:N; [|discriminate]. exfalso. apply (HH x (or_introl eq_refl)).
        apply key_in_In in K as (k & K & Hk). split; [exists k; auto|assumption]. }
      destruct (negb (key_in (kw_arg x) (args_list e ++ overload_args_list e)%list)) eqn:M; [discriminate|].
      destruct (check_kwargs e an r) as [[v l'] c'] eqn:R. inversion H; subst.
      destruct (IH l' c') as (-> & -> & G); [intros; apply HH; right; assumption|reflexivity|].
      split; [reflexivity|]. split.
      { unfold forced_count. cbn [filter]. destruct (key_in (kw_arg x) (force_kwargs e)); reflexivity. }
      intros n [<-|Hn]; [|apply G; exact Hn].
      apply negb_false_iff, key_in_In in M. repeat split.
      + intros -> E. rewrite E in A. discriminate.
      + intros (k & K' & Hk). rewrite (proj2 (key_in_In _ _)) in K; [discriminate|eauto].
      + exact M.
  Qed.
End Check.

(** ** Splitting the signature *)
Lemma star_groups_app cur l :
  star_groups cur l =
  match (rev cur ++ before_star l)%list with
  | [] => match l with
          | [] => []
          | _ => star_groups [] (after_star l)
          end
  | g => g :: star_groups [] (after_star l)
  end.
Proof.
  revert cur. induction l as [|x r IH]; intros cur.
  - cbn [star_groups before_star after_star]. rewrite app_nil_r. destruct cur as [|c cur]; [reflexivity|].
    destruct (rev (c :: cur)) eqn:E; [|reflexivity]. apply (f_equal (@List.length _)) in E.
    rewrite rev_length in E. discriminate.
  - cbn [star_groups before_star after_star]. destruct (String.eqb x "*").
    + rewrite app_nil_r. destruct cur as [|c cur]; [reflexivity|].
      destruct (rev (c :: cur)) eqn:E; [|reflexivity]. apply (f_equal (@List.length _)) in E.
      rewrite rev_length in E. discriminate.
    + rewrite IH. cbn [rev]. rewrite <- app_assoc. cbn [app].
      destruct (rev cur ++ x :: before_star r)%list eqn:E; [|reflexivity].
      apply app_eq_nil in E as [_ E]. discriminate.
Qed.

Lemma position_args_before e x r :
  args_list e = x :: r -> x <> "*" -> position_args e = before_star (args_list e).
Proof.
  intros H N. unfold position_args. rewrite star_groups_app, H. cbn [rev app before_star].
  destruct (String.eqb_spec x "*"); [contradiction|]. reflexivity.
Qed.
Lemma force_kwargs_after e x r y s :
  args_list e = x :: r -> x <> "*" -> after_star (args_list e) = y :: s -> y <> "*" ->
  force_kwargs e = before_star (after_star (args_list e)).
Proof.
  intros H N A M. unfold force_kwargs. rewrite star_groups_app, A.
  rewrite H. cbn [rev app before_star]. destruct (String.eqb_spec x "*"); [contradiction|].
  cbn [nth]. rewrite star_groups_app. cbn [rev app before_star].
  destruct (String.eqb_spec y "*"); [contradiction|]. reflexivity.
Qed.

Lemma before_star_none l : ~ In "*" l -> before_star l = l.
Proof.
  induction l as [|x l IH]; intros H; [reflexivity|]. cbn [before_star].
  destruct (String.eqb_spec x "*") as [->|]; [exfalso; apply H; left; reflexivity|].
  rewrite IH; [reflexivity|intros K; apply H; right; exact K].
Qed.

(** ** Binding *)
Lemma skipn_nth {A} (l : list A) i k : nth_error l i = Some k -> skipn i l = k :: skipn (S i) l.
Proof.
  revert i; induction l as [|x l IH]; intros [|i] H; try discriminate.
  - injection H as ->. reflexivity.
  - cbn [nth_error] in H. cbn [skipn]. rewrite (IH _ H). reflexivity.
Qed.

Definition binds (b : list (key * string)) (t : table) : table :=
  fold_left (fun acc kv => dset key_eqb (fst kv) (snd kv) acc) b t.

Lemma bind_args_total e args : forall i t,
  (i + List.length args <= List.length (position_args e))%nat -> bind_args e i args t <> IndexError.
Proof.
  induction args as [|a r IH]; intros i t H; cbn [bind_args]; [discriminate|]. simpl in H.
  destruct (nth_error (position_args e) i) as [k|] eqn:E.
  - destruct (mem_str k _); [discriminate|]. apply IH. lia.
  - apply nth_error_None in E. lia.
Qed.

Lemma bind_args_Bound e args : forall i t t',
  bind_args e i args t = Bound t' ->
  t' = binds (combine (map Some (skipn i (position_args e))) (map text args)) t /\
  (i + List.length args <= Nat.max i (List.length (position_args e)))%nat /\
  forall j k, (i <= j < i + List.length args)%nat -> nth_error (position_args e) j = Some k -> ~ In k (unsupport_args e).
Proof.
  induction args as [|a r IH]; intros i t t' H; cbn [bind_args] in H.
  - injection H as <-. cbn [map List.length]. rewrite combine_nil.
    split; [reflexivity|]. split; [lia|]. intros j k Hj. lia.
  - destruct (nth_error (position_args e) i) as [k|] eqn:E; [|discriminate].
    assert (L : (i < List.length (position_args e))%nat) by (apply nth_error_Some; congruence).
    destruct (mem_str k _) eqn:M; [discriminate|].
    apply IH in H as (-> & HL & HU). rewrite (skipn_nth _ _ _ E). cbn [map combine].
    split; [reflexivity|]. cbn [List.length]. split; [lia|].
    intros j k' Hj Ej. destruct (Nat.eq_dec j i) as [->|].
    + rewrite E in Ej. injection Ej as <-. apply mem_str_false. exact M.
    + apply (HU j); [lia|exact Ej].
Qed.

Lemma bind_args_exists e args : forall i t,
  (i + List.length args <= List.length (position_args e))%nat ->
  (forall j k, (i <= j < i + List.length args)%nat -> nth_error (position_args e) j = Some k -> ~ In k (unsupport_args e)) ->
  exists t', bind_args e i args t = Bound t'.
Proof.
  induction args as [|a r IH]; intros i t HL HU; cbn [bind_args]; [eauto|]. simpl in HL.
  destruct (nth_error (position_args e) i) as [k|] eqn:E.
  - rewrite (proj2 (mem_str_false k _)) by (apply (HU i); [simpl; lia|exact E]).
    apply IH; [lia|]. intros j k' Hj. apply HU. simpl. lia.
  - apply nth_error_None in E. lia.
Qed.

Lemma bind_kwargs_binds l t : bind_kwargs l t = binds (map (fun n => (kw_arg n, text (kw_value n))) l) t.
Proof. unfold bind_kwargs, binds. revert t. induction l as [|n l IH]; intros t; [reflexivity|]. apply IH. Qed.
Lemma binds_app a b t : binds (a ++ b)%list t = binds b (binds a t).
Proof. apply fold_left_app. Qed.

Lemma binds_nodup b : forall t, NoDup (dkeys t ++ map fst b)%list -> binds b t = (t ++ b)%list.
Proof.
  induction b as [|[k v] b IH]; intros t H; [symmetry; apply app_nil_r|].
  change (binds ((k, v) :: b) t) with (binds b (dset key_eqb k v t)).
  cbn [map fst] in H.
  rewrite (dset_fresh _ key_eqb_spec).
  - rewrite IH; [rewrite <- app_assoc; reflexivity|].
    unfold dkeys in *. rewrite map_app, <- app_assoc. exact H.
  - apply (dget_none_iff _ key_eqb_spec). apply NoDup_remove_2 in H. intros K. apply H, in_or_app. left. exact K.
Qed.

Lemma dget_app k (a b : table) :
  dget key_eqb k (a ++ b)%list = match dget key_eqb k a with Some v => Some v | None => dget key_eqb k b end.
Proof. induction a as [|[x v] a IH]; cbn [app dget]; [reflexivity|]. destruct (key_eqb k x); [reflexivity|exact IH]. Qed.

Lemma binds_get k b : forall t,
  dget key_eqb k (binds b t) = match last_binding k b with Some v => Some v | None => dget key_eqb k t end.
Proof.
  unfold last_binding. induction b as [|[x v] b IH]; intros t; [reflexivity|].
  change (binds ((x, v) :: b) t) with (binds b (dset key_eqb x v t)). rewrite IH. cbn [rev].
  rewrite dget_app. destruct (dget key_eqb k (rev b)); [reflexivity|]. cbn [dget].
  destruct (key_eqb_spec k x) as [->|N].
  - apply (dget_set_same _ key_eqb_spec).
  - apply (dget_set_other _ key_eqb_spec). exact N.
Qed.

(** ** Whole parse *)
Lemma parse_Bound e st an args kwargs t kept :
  parse_args_and_kwargs e st an args kwargs = (Bound t, kept) ->
  t = binds (bindings (position_args e) args kept) [] /\
  without (harmless e) kwargs kept /\
  (List.length args <= List.length (position_args e))%nat.
Proof.
  unfold parse_args_and_kwargs. destruct (existsb _ args); [discriminate|].
  destruct (check_kwargs e an kwargs) as [[v l] c] eqn:C. destruct v as [v|].
  { intros [= -> _]. destruct (check_early _ _ _ _ _ _ C) as [E|E]; discriminate. }
  destruct (_ <? min_input_args e)%nat; [discriminate|].
  destruct (_ <? _)%nat; [discriminate|].
  destruct (bind_args e 0 args []) as [t'| | |] eqn:B; try discriminate.
  intros [= <- <-]. apply bind_args_Bound in B as (-> & L & _). cbn [skipn] in *.
  rewrite bind_kwargs_binds. unfold bindings. rewrite binds_app.
  split; [reflexivity|]. split; [eapply check_without; exact C|lia].
Qed.

Lemma parse_never_IndexError e st an args kwargs :
  fst (parse_args_and_kwargs e st an args kwargs) <> IndexError.
Proof.
  unfold parse_args_and_kwargs. destruct (existsb _ args); [discriminate|].
  destruct (check_kwargs e an kwargs) as [[v l] c] eqn:C. destruct v as [v|].
  { destruct (check_early _ _ _ _ _ _ C) as [->| ->]; discriminate. }
  destruct (_ <? min_input_args e)%nat; [discriminate|].
  destruct (_ <? _)%nat eqn:L; [discriminate|].
  apply Nat.ltb_ge in L. pose proof (check_forced_le _ _ _ _ _ _ C) as F.
  assert (T := bind_args_total e args 0 []).
  destruct (bind_args e 0 args []) eqn:B; cbn [fst]; try discriminate.
  exfalso. apply T; [lia|reflexivity].
Qed.

Lemma parse_kept e st an args kwargs r kept :
  parse_args_and_kwargs e st an args kwargs = (r, kept) -> without (harmless e) kwargs kept.
Proof.
  assert (RF : forall l : list kwnode, without (harmless e) l l)
    by (induction l; constructor; assumption).
  unfold parse_args_and_kwargs. destruct (existsb _ args); [intros [= _ <-]; apply RF|].
  destruct (check_kwargs e an kwargs) as [[v l] c] eqn:C.
  apply check_without in C. destruct v; [intros [= _ <-]; exact C|].
  destruct (_ <? min_input_args e)%nat; [intros [= _ <-]; exact C|].
  destruct (_ <? _)%nat; [intros [= _ <-]; exact C|].
  destruct (bind_args _ _ _ _); intros [= _ <-]; exact C.
Qed.

(** ** Renaming *)
Lemma ddel_last k v (t : table) : ~ In k (dkeys t) -> ddel key_eqb k (t ++ [(k, v)])%list = t.
Proof.
  induction t as [|[x w] t IH]; intros H; cbn [app ddel].
  - destruct (key_eqb_spec k k); congruence.
  - destruct (key_eqb_spec k x) as [->|]; [exfalso; apply H; left; reflexivity|].
    rewrite IH; [reflexivity|]. intros K. apply H. right. exact K.
Qed.

(** Keys a rename writes to, even if it deletes them again. *)
Definition touched (e : entry) (unuse : list string) (k : key) : list key :=
  match k with
  | Some x => match dget String.eqb x (kwargs_change e) with
              | None => [Some x]
              | Some _ => new_names e unuse k
              end
  | None => [None]
  end.

Lemma change_one_exact e unuse acc k v :
  NoDup (dkeys acc ++ touched e unuse k)%list ->
  change_one e unuse acc (k, v) = (acc ++ map (fun n => (n, v)) (new_names e unuse k))%list.
Proof.
  intros H. unfold change_one, touched, new_names in *.
  assert (fresh : forall x, In x (touched e unuse k) -> ~ In x (dkeys acc)).
  { intros x Hx Hk. unfold touched, new_names in Hx. revert Hx Hk H. clear.
    intros Hx Hk H. apply in_split in Hx as (a & b & E). rewrite E in H.
    rewrite app_assoc in H. apply NoDup_remove_2 in H. apply H.
    apply in_or_app. left. apply in_or_app. left. exact Hk. }
  unfold touched, new_names in fresh.
  destruct k as [x|].
  - destruct (dget String.eqb x (kwargs_change e)) as [[|n|ns]|] eqn:D.
    + cbn [map]. symmetry. apply app_nil_r.
    + destruct (String.eqb n ""); [cbn [map]; symmetry; apply app_nil_r|].
      cbn [map]. apply (dset_fresh _ key_eqb_spec), (dget_none_iff _ key_eqb_spec), fresh. left. reflexivity.
    + assert (E : fold_left (fun a n => dset key_eqb (Some n) v a) ns acc
                  = binds (map (fun n => (n, v)) (map Some ns)) acc).
      { clear. revert acc. induction ns as [|n ns IH]; intros acc; [reflexivity|]. apply IH. }
      rewrite E. apply binds_nodup. rewrite map_map. cbn [fst]. rewrite map_id. exact H.
    + assert (F : ~ In (Some x) (dkeys acc)) by (apply fresh; left; reflexivity).
      rewrite (dset_fresh _ key_eqb_spec) by (apply (dget_none_iff _ key_eqb_spec), F).
      cbn [key_in]. destruct (mem_str x unuse); [|reflexivity].
      rewrite ddel_last by exact F. cbn [map]. symmetry. apply app_nil_r.
  - cbn [key_in map]. apply (dset_fresh _ key_eqb_spec), (dget_none_iff _ key_eqb_spec), fresh. left. reflexivity.
Qed.

Lemma new_names_touched e unuse k x : In x (new_names e unuse k) -> In x (touched e unuse k).
Proof.
  unfold touched. destruct k as [y|]; [|exact (fun H => H)].
  destruct (dget String.eqb y (kwargs_change e)) eqn:D; [exact (fun H => H)|].
  unfold new_names. rewrite D. destruct (mem_str y unuse); [intros []|exact (fun H => H)].
Qed.
Lemma touched_none_or_eq e unuse k :
  new_names e unuse k = touched e unuse k \/ (new_names e unuse k = [] /\ exists y, touched e unuse k = [y]).
Proof.
  unfold touched. destruct k as [y|]; [|left; reflexivity].
  destruct (dget String.eqb y (kwargs_change e)) eqn:D; [left; reflexivity|].
  unfold new_names. rewrite D. destruct (mem_str y unuse); [right; eauto|left; reflexivity].
Qed.

Lemma change_kwargs_exact_from e unuse t : forall acc,
  NoDup (dkeys acc ++ flat_map (fun kv => touched e unuse (fst kv)) t)%list ->
  fold_left (change_one e unuse) t acc = (acc ++ renamed e unuse t)%list.
Proof.
  induction t as [|[k v] t IH]; intros acc H; cbn [fold_left renamed flat_map fst snd].
  - symmetry. apply app_nil_r.
  - cbn [flat_map fst] in H.
    rewrite change_one_exact.
    + rewrite IH; [rewrite <- app_assoc; reflexivity|].
      unfold dkeys. rewrite map_app, map_map. cbn [fst]. rewrite map_id.
      destruct (touched_none_or_eq e unuse k) as [->|[-> (y & E)]].
      * rewrite <- app_assoc. exact H.
      * rewrite app_nil_r. rewrite E in H. cbn [app] in H. apply NoDup_remove_1 in H. exact H.
    + rewrite app_assoc in H. clear -H. induction (flat_map _ t) as [|y l IHl] in H |- *.
      * rewrite app_nil_r in H. exact H.
      * apply NoDup_remove_1 in H. apply IHl. exact H.
Qed.

(** ** Defaults *)
Lemma set_default_exact (ds : dict string string) : forall t,
  NoDup (map fst ds) ->
  fold_left (fun acc d => if dmem key_eqb (Some (fst d)) acc then acc
                          else dset key_eqb (Some (fst d)) (snd d) acc) ds t =
  (t ++ map (fun d => (Some (fst d), snd d))
          (filter (fun d => negb (dmem key_eqb (Some (fst d)) t)) ds))%list.
Proof.
  induction ds as [|[k v] ds IH]; intros t H; cbn [fold_left filter map fst snd].
  - symmetry. apply app_nil_r.
  - cbn [map fst] in H. inversion H as [|? ? N ND]; subst.
    destruct (dmem key_eqb (Some k) t) eqn:M; cbn [negb].
    + rewrite IH by exact ND. reflexivity.
    + assert (G : dget key_eqb (Some k) t = None)
        by (apply (dget_none_iff _ key_eqb_spec), (dmem_false _ key_eqb_spec), M).
      rewrite (dset_fresh _ key_eqb_spec) by exact G. rewrite IH by exact ND. rewrite <- app_assoc. cbn [map app fst snd].
      do 2 f_equal. f_equal. apply filter_ext_in. intros [k' v'] Hd. cbn [fst]. f_equal.
      unfold dmem. rewrite dget_app. cbn [dget].
      destruct (key_eqb_spec (Some k') (Some k)) as [[= ->]|].
      * exfalso. apply N. change k with (fst (k, v')). apply in_map. exact Hd.
      * destruct (dget key_eqb (Some k') t); reflexivity.
Qed.

(** ** Re-emitting matchers *)
Lemma parse_kwargs_binds e l : forall t,
  (forall n, In n l -> ~ names_unsupported e n) ->
  parse_kwargs_from e true l t = Some (binds (map (fun n => (kw_arg n, text (kw_value n))) l) t).
Proof.
  induction l as [|n l IH]; intros t H; [reflexivity|]. cbn [parse_kwargs_from].
  assert (U : key_in (kw_arg n) (unsupport_args e) = false).
  { destruct (key_in (kw_arg n) (unsupport_args e)) eqn:U; [|reflexivity].
    exfalso. apply (H n (or_introl eq_refl)). apply key_in_In in U. exact U. }
  rewrite U. destruct (kw_arg n) eqn:K; cbn [negb]; rewrite IH by (intros; apply H; right; assumption);
    cbn [map]; rewrite K; reflexivity.
Qed.

Lemma filter_filter {A} (p q : A -> bool) l : filter q (filter p l) = filter (fun x => p x && q x) l.
Proof.
  induction l as [|x l IH]; [reflexivity|]. cbn [filter].
  destruct (p x) eqn:P; cbn [filter andb]; rewrite IH; reflexivity.
Qed.

Lemma filter_keys_nodup (p : key * string -> bool) (t : table) : NoDup (dkeys t) -> NoDup (dkeys (filter p t)).
Proof.
  intros H. induction t as [|[x v] t IH]; [constructor|]. cbn [dkeys map fst] in H.
  inversion H as [|? ? N ND]; subst. cbn [filter].
  destruct (p _); [|apply IH; exact ND]. cbn [dkeys map fst]. constructor; [|apply IH; exact ND].
  intros K. apply N. unfold dkeys in K. apply in_map_iff in K as (kv & E & K).
  apply filter_In in K as [K _]. rewrite <- E. apply (in_map fst). exact K.
Qed.

Lemma pop_filter k (t : table) : NoDup (dkeys t) ->
  (if dmem key_eqb (Some k) t then ddel key_eqb (Some k) t else t)
  = filter (fun kv => negb (key_eqb (Some k) (fst kv))) t.
Proof.
  intros H. induction t as [|[x v] t IH]; [reflexivity|].
  unfold dmem. cbn [dget ddel filter fst]. cbn [dkeys map fst] in H. inversion H as [|? ? N ND]; subst.
  destruct (key_eqb_spec (Some k) x) as [<-|Nx]; cbn [negb].
  - clear IH H. induction t as [|[y w] t IHt]; [reflexivity|]. cbn [filter fst].
    destruct (key_eqb_spec (Some k) y) as [<-|]; [exfalso; apply N; left; reflexivity|].
    cbn [negb]. rewrite <- IHt; [reflexivity| |].
    + intros K. apply N. right. exact K.
    + inversion ND; assumption.
  - specialize (IH ND). unfold dmem in IH. destruct (dget key_eqb (Some k) t); rewrite <- IH; reflexivity.
Qed.

Lemma drop_names_filter names : forall t : table, NoDup (dkeys t) ->
  drop_names names t = filter (fun kv => negb (key_in (fst kv) names)) t.
Proof.
  unfold drop_names. induction names as [|k names IH]; intros t H; cbn [fold_left].
  - symmetry. clear. induction t as [|[x v] t IH]; [reflexivity|]. cbn [filter fst].
    destruct x; cbn [key_in mem_str existsb negb]; rewrite IH; reflexivity.
  - rewrite (pop_filter k t H). rewrite IH by (apply filter_keys_nodup, H).
    rewrite filter_filter. apply filter_ext. intros [x v]. cbn [fst].
    destruct x as [x|]; cbn [key_eqb key_in mem_str existsb]; [|reflexivity].
    rewrite (String.eqb_sym k x), negb_orb. reflexivity.
Qed.

Lemma reemit_exact dropped e api args kwargs :
  (forall n, In n kwargs -> ~ names_unsupported e n) ->
  NoDup (map kw_arg kwargs) ->
  reemit dropped e api args kwargs =
  Code (call api (map text args ++ map written (filter (fun n => negb (named_in dropped n)) kwargs)))%list.
Proof.
  intros U N. unfold reemit, parse_kwargs. rewrite parse_kwargs_binds by exact U.
  assert (K : map fst (map (fun n => (kw_arg n, text (kw_value n))) kwargs) = map kw_arg kwargs)
    by (rewrite map_map; reflexivity).
  assert (N' : NoDup (map fst (map (fun n => (kw_arg n, text (kw_value n))) kwargs))) by (rewrite K; exact N).
  rewrite binds_nodup by exact N'. cbn [app].
  rewrite drop_names_filter by exact N'.
  assert (W : map kw_star (filter (fun kv => negb (key_in (fst kv) dropped))
                (map (fun n => (kw_arg n, text (kw_value n))) kwargs))
              = map written (filter (fun n => negb (named_in dropped n)) kwargs)).
  { clear. induction kwargs as [|n l IH]; [reflexivity|]. cbn [map filter fst].
    assert (E : named_in dropped n = key_in (kw_arg n) dropped) by (unfold named_in; destruct (kw_arg n); reflexivity).
    rewrite E. destruct (negb _); [|exact IH]. cbn [map]. rewrite IH. f_equal. }
  unfold call_text, args_and_kwargs_to_str, parse_args, call, join. rewrite W. reflexivity.
Qed.

(** With several [**], the first keeps the place and the last the text. *)
Lemma reemit_two_stars dropped e api args a b :
  reemit dropped e api args [MkKw None a; MkKw None b] =
  Code (call api (map text args ++ [("**" ++ text b)%string])%list).
Proof.
  unfold reemit, parse_kwargs. cbn [parse_kwargs_from kw_arg negb key_in kw_value dset key_eqb].
  assert (D : drop_names dropped [(None, text b)] = [(None, text b)]).
  { unfold drop_names. induction dropped as [|k l IH]; [reflexivity|]. cbn [fold_left]. exact IH. }
  change (match Some (binds [(None, text a); (None, text b)] []) with
          | Some t => Code (call_text api (parse_args args) (drop_names dropped t))
          | None => TypeError end = Code (call api (map text args ++ [("**" ++ text b)%string])%list)).
  change (binds [(None, text a); (None, text b)] []) with [(@None string, text b)].
  cbv iota. rewrite D. reflexivity.
Qed.

(** ** Generic conversion *)
Lemma kw_plain_text kv : kw_plain kv = keyword_text kv.
Proof. destruct kv as [[k|] v]; reflexivity. Qed.

Lemma value_of_dget t n : value_of t n = dget key_eqb (Some n) t.
Proof.
  unfold value_of. induction t as [|[k v] t IH]; [reflexivity|]. cbn [find dget fst].
  destruct (key_eqb (Some n) k); [reflexivity|exact IH].
Qed.

Lemma value_of_filter (p : key * string -> bool) t n :
  (forall v, p (Some n, v) = true) -> value_of (filter p t) n = value_of t n.
Proof.
  intros H. rewrite !value_of_dget. induction t as [|[k v] t IH]; [reflexivity|]. cbn [filter].
  destruct (key_eqb_spec (Some n) k) as [<-|N].
  - rewrite H. cbn [dget]. destruct (key_eqb_spec (Some n) (Some n)); congruence.
  - destruct (p (k, v)); cbn [dget]; destruct (key_eqb_spec (Some n) k); congruence.
Qed.

Lemma is_target_special n e : n <> "" ->
  is_target n e = existsb (fun kv => match snd kv with TName m => String.eqb n m | _ => false end) (kwargs_change e).
Proof.
  intros N. unfold is_target. induction (kwargs_change e) as [|[k t] l IH]; [reflexivity|]. cbn [existsb snd].
  rewrite IH. destruct t; try reflexivity. destruct (String.eqb_spec n ""); congruence.
Qed.

Lemma pop_special_exact n e (t : table) : NoDup (dkeys t) ->
  pop_special n e t = (if negb (is_target n e) then value_of t n else None,
                       filter (fun kv => negb (negb (is_target n e) && key_eqb (Some n) (fst kv))) t).
Proof.
  intros H. unfold pop_special. rewrite value_of_dget.
  destruct (is_target n e); cbn [negb andb].
  - rewrite andb_false_r. f_equal. symmetry. clear. induction t as [|x t IH]; [reflexivity|]. cbn [filter]. rewrite IH. reflexivity.
  - rewrite andb_true_r. pose proof (pop_filter n t H) as P. unfold dmem in *.
    destruct (dget key_eqb (Some n) t) eqn:D; rewrite <- P; reflexivity.
Qed.

Lemma special_mem e n : In n ["dtype"; "pin_memory"; "requires_grad"; "out"] ->
  mem_str n (special_names e) = negb (is_target n e).
Proof.
  intros H. assert (N : n <> "") by (intros ->; simpl in H; intuition discriminate).
  rewrite (is_target_special n e N).
  unfold special_names. destruct (existsb _ (kwargs_change e)) eqn:E; cbn [negb].
  - apply mem_str_false. intros K. apply filter_In in K as [_ K]. rewrite E in K. discriminate.
  - apply mem_str_In. apply filter_In. rewrite E. auto.
Qed.
Lemma special_other e n : ~ In n ["dtype"; "pin_memory"; "requires_grad"; "out"] ->
  mem_str n (special_names e) = false.
Proof. intros H. apply mem_str_false. intros K. apply filter_In in K as [K _]. contradiction. Qed.

Lemma append_nil_r (s : string) : (s ++ "")%string = s.
Proof. apply app_nil_r_s. Qed.

Lemma not_not_None g : String.eqb ("not " ++ g) "None" = false.
Proof. reflexivity. Qed.

Lemma generic_exact e api fresh t :
  let u := set_paddle_default_kwargs e (change_kwargs e generic_unused t) in
  NoDup (dkeys u) ->
  generic_code e api fresh t = generic_text e api fresh u.
Proof.
  cbv zeta. intros N. unfold generic_code.
  set (u := set_paddle_default_kwargs e (change_kwargs e generic_unused t)) in *.
  rewrite (pop_special_exact "dtype" e u N).
  set (p1 := fun kv : key * string => _).
  rewrite (pop_special_exact "pin_memory" e (filter p1 u)) by (apply filter_keys_nodup, N).
  set (p2 := fun kv : key * string => _).
  rewrite (pop_special_exact "requires_grad" e (filter p2 (filter p1 u))) by (do 2 apply filter_keys_nodup; exact N).
  set (p3 := fun kv : key * string => _).
  rewrite (pop_special_exact "out" e (filter p3 (filter p2 (filter p1 u)))) by (do 3 apply filter_keys_nodup; exact N).
  set (p4 := fun kv : key * string => _).
  rewrite (value_of_filter p3 (filter p2 (filter p1 u)) "out") by (intros; unfold p3; cbn; rewrite andb_false_r; reflexivity).
  rewrite (value_of_filter p2 (filter p1 u) "out") by (intros; unfold p2; cbn; rewrite andb_false_r; reflexivity).
  rewrite (value_of_filter p1 u "out") by (intros; unfold p1; cbn; rewrite andb_false_r; reflexivity).
  rewrite (value_of_filter p2 (filter p1 u) "requires_grad") by (intros; unfold p2; cbn; rewrite andb_false_r; reflexivity).
  rewrite (value_of_filter p1 u "requires_grad") by (intros; unfold p1; cbn; rewrite andb_false_r; reflexivity).
  rewrite (value_of_filter p1 u "pin_memory") by (intros; unfold p1; cbn; rewrite andb_false_r; reflexivity).
  assert (F : filter p4 (filter p3 (filter p2 (filter p1 u)))
              = filter (fun kv => negb (key_in (fst kv) (special_names e))) u).
  { rewrite !filter_filter. apply filter_ext. intros [[k|] v]; unfold p1, p2, p3, p4; cbn [fst key_in key_eqb];
      [|rewrite !andb_false_r; reflexivity].
    rewrite !(String.eqb_sym _ k).
    destruct (String.eqb_spec k "dtype") as [->|N1].
    { rewrite special_mem by (simpl; auto). cbn. destruct (is_target "dtype" e); cbn; rewrite ?andb_false_r; reflexivity. }
    destruct (String.eqb_spec k "pin_memory") as [->|N2].
    { rewrite special_mem by (simpl; auto). cbn. rewrite !andb_false_r. cbn. destruct (is_target "pin_memory" e); cbn; rewrite ?andb_false_r; reflexivity. }
    destruct (String.eqb_spec k "requires_grad") as [->|N3].
    { rewrite special_mem by (simpl; auto). cbn. rewrite !andb_false_r. cbn. destruct (is_target "requires_grad" e); cbn; rewrite ?andb_false_r; reflexivity. }
    destruct (String.eqb_spec k "out") as [->|N4].
    { rewrite special_mem by (simpl; auto). cbn. rewrite !andb_false_r. cbn. destruct (is_target "out" e); cbn; rewrite ?andb_false_r; reflexivity. }
    rewrite special_other by (simpl; intros [H|[H|[H|[H|[]]]]]; congruence).
    rewrite !andb_false_r. reflexivity. }
  rewrite F. unfold generic_text.
  rewrite !special_mem by (simpl; auto).
  unfold call, kwargs_to_str, join.
  rewrite (map_ext kw_plain keyword_text kw_plain_text).
  set (inner := filter _ u). clearbody inner. clear F p1 p2 p3 p4. fold is_paren.
  set (V := (api ++ "(" ++ String.concat ", " (map keyword_text inner) ++ ")")%string). clearbody V.
  assert (G : forall (b : bool) (o : option string) v0,
    (if b then match o with Some v => if String.eqb v v0 then None else Some v | None => None end else None)
    = match (if b then o else None) with Some v => if String.eqb v v0 then None else Some v | None => None end)
    by (intros [] o v0; reflexivity).
  cbv beta zeta. rewrite !G. clear G.
  destruct (if negb (is_target "dtype" e) then _ else _) as [d|];
  destruct (if negb (is_target "pin_memory" e) then _ else _) as [pm|];
  destruct (if negb (is_target "requires_grad" e) then _ else _) as [g|];
  destruct (if negb (is_target "out" e) then _ else _) as [o|];
  rewrite ?not_not_None;
  repeat match goal with |- context [String.eqb ?x ?y] => is_var x; destruct (String.eqb x y) end;
  cbn -[String.append strip_by];
  rewrite ?app_assoc_s, ?append_nil_r; reflexivity.
Qed.

Lemma NoDup_app_l {A} (l m : list A) : NoDup (l ++ m)%list -> NoDup l.
Proof.
  induction l as [|x l IH]; intros H; [constructor|]. cbn [app] in H. inversion H as [|? ? N1 N2]; subst.
  constructor; [intros K; apply N1, in_or_app; left; exact K|apply IH, N2].
Qed.

(** What a visitor answers does not depend on what has been recorded before, and it
    records at two places only. *)
From Coq Require Import Lia.
From Verif Require Import PyStr PyStrFacts PyDict PyDictFacts TablesData Lookup Ast ImportPass ImportSpec ImportFacts3 Walk BasicPass NodeEq Placed.
Opaque api_mapping attribute_mapping alias_mapping wildcard_mapping matcher_classes.

(** ** Joining *)
Lemma joined_existsb old new : joined old new = (old ++ filter (fun x => negb (existsb (node_eqb x) old)) new)%list.
Proof.
  unfold joined. f_equal. apply filter_ext. intros x. destruct (in_dec node_dec x old) as [I|N].
  - destruct (existsb (node_eqb x) old) eqn:E; [reflexivity|]. exfalso.
    assert (T : existsb (node_eqb x) old = true) by (apply existsb_exists; exists x; split; [exact I|apply node_eqb_eq; reflexivity]). congruence.
  - destruct (existsb (node_eqb x) old) eqn:E; [|reflexivity]. exfalso. apply existsb_exists in E as (y & Hy & Ey).
    apply node_eqb_eq in Ey. subst y. auto.
Qed.
Lemma joined_nil_l l : joined [] l = l.
Proof. unfold joined. cbn. induction l as [|x l IH]; cbn; [reflexivity|]. f_equal. exact IH. Qed.
Lemma joined_nil_r l : joined l [] = l.
Proof. unfold joined. cbn. apply app_nil_r. Qed.
Definition newb (old : list node) (x : node) : bool := if in_dec node_dec x old then false else true.
Lemma newb_true old x : newb old x = true <-> ~ In x old.
Proof. unfold newb. destruct (in_dec node_dec x old); split; congruence || tauto. Qed.
Lemma filter_twice {A} (f g : A -> bool) l : filter f (filter g l) = filter (fun x => g x && f x) l.
Proof. induction l as [|x l IH]; [reflexivity|]. cbn. destruct (g x); cbn; [|exact IH]. destruct (f x); [f_equal|]; exact IH. Qed.
Lemma joined_assoc a b c : joined (joined a b) c = joined a (joined b c).
Proof.
  change (joined a b) with (a ++ filter (newb a) b)%list.
  change (joined b c) with (b ++ filter (newb b) c)%list.
  change (joined a (b ++ filter (newb b) c)) with (a ++ filter (newb a) (b ++ filter (newb b) c))%list.
  change (joined (a ++ filter (newb a) b) c) with ((a ++ filter (newb a) b) ++ filter (newb (a ++ filter (newb a) b)) c)%list.
  rewrite filter_app, filter_twice, <- app_assoc. do 2 f_equal. apply filter_ext. intros x.
  apply eq_true_iff_eq. rewrite andb_true_iff, !newb_true, in_app_iff, filter_In, newb_true.
  destruct (in_dec node_dec x a); tauto.
Qed.

(** ** Places *)
Lemma place_eqb_spec a b : reflect (a = b) (place_eqb a b).
Proof.
  destruct a as [[p f] i], b as [[q g] j]. unfold place_eqb. cbn [fst snd].
  destruct (path_eqb p q) eqn:E1; cbn [andb].
  - apply path_eqb_eq in E1 as ->. destruct (String.eqb_spec f g) as [->|N]; cbn [andb].
    + destruct (Nat.eqb_spec i j) as [->|N]; constructor; congruence.
    + constructor. congruence.
  - constructor. intros [= -> _ _]. assert (path_eqb q q = true) by (apply path_eqb_eq; reflexivity). congruence.
Qed.
Definition table : Type := dict place (list node).
Definition at_place (k : place) (d : table) : list node := match dget place_eqb k d with Some l => l | None => [] end.

Definition rec1 (q : place * list node) (d : table) : table :=
  match snd q with
  | [] => d
  | _ => dset place_eqb (fst q)
           (match dget place_eqb (fst q) d with
            | Some old => (old ++ filter (fun x => negb (existsb (node_eqb x) old)) (snd q))%list
            | None => snd q
            end) d
  end.
Definition recs (q : list (place * list node)) (d : table) : table := fold_left (fun d x => rec1 x d) q d.
Lemma rec1_at k q d : at_place k (rec1 q d) = if place_eqb k (fst q) then joined (at_place k d) (snd q) else at_place k d.
Proof.
  destruct q as [k' l]. unfold rec1. cbn [fst snd]. destruct (place_eqb_spec k k') as [<-|N].
  - destruct l as [|x l]; [rewrite joined_nil_r; reflexivity|]. unfold at_place. rewrite (dget_set_same _ place_eqb_spec).
    destruct (dget place_eqb k d); [rewrite joined_existsb; reflexivity|rewrite joined_nil_l; reflexivity].
  - destruct l as [|x l]; [reflexivity|]. unfold at_place. rewrite (dget_set_other _ place_eqb_spec) by exact N. reflexivity.
Qed.
Lemma rec1_get k q d : k <> fst q -> dget place_eqb k (rec1 q d) = dget place_eqb k d.
Proof.
  destruct q as [k' l]. unfold rec1. cbn [fst snd]. intros N. destruct l; [reflexivity|].
  apply (dget_set_other _ place_eqb_spec), N.
Qed.
Lemma rec1_nodup q d : NoDup (dkeys d) -> NoDup (dkeys (rec1 q d)).
Proof. unfold rec1. destruct (snd q); [auto|]. apply (dset_nodup _ place_eqb_spec). Qed.
Lemma recs_nodup q : forall d, NoDup (dkeys d) -> NoDup (dkeys (recs q d)).
Proof. induction q as [|x q IH]; intros d H; [exact H|]. cbn. apply IH, rec1_nodup, H. Qed.
Lemma recs_at k q : forall d, at_place k (recs q d) = joined (at_place k d) (at_place k (recs q [])).
Proof.
  induction q as [|x q IH]; intros d; cbn [recs fold_left]; [cbn; rewrite joined_nil_r; reflexivity|].
  fold (recs q (rec1 x d)). fold (recs q (rec1 x [])). rewrite IH, (IH (rec1 x [])), <- joined_assoc. f_equal.
  rewrite !rec1_at. destruct (place_eqb k (fst x)); [|cbn; rewrite joined_nil_r; reflexivity].
  change (at_place k []) with (@nil node). rewrite joined_nil_l. reflexivity.
Qed.
Lemma recs_get k q : forall d, Forall (fun x => k <> fst x) q -> dget place_eqb k (recs q d) = dget place_eqb k d.
Proof.
  induction q as [|x q IH]; intros d H; [reflexivity|]. inversion_clear H as [|? ? H1 H2]. cbn.
  fold (recs q (rec1 x d)). rewrite IH by exact H2. apply rec1_get, H1.
Qed.
Lemma recs_keys q k : forall d, In k (dkeys (recs q d)) -> In k (dkeys d) \/ exists x, In x q /\ fst x = k.
Proof.
  induction q as [|x q IH]; intros d H; [auto|]. cbn in H. fold (recs q (rec1 x d)) in H.
  apply IH in H as [H|(y & Hy & E)]; [|right; exists y; cbn; auto].
  unfold rec1 in H. destruct (snd x); [auto|]. apply (dset_keys_iff _ place_eqb_spec) in H as [->|H]; [|auto].
  right. exists x. cbn; auto.
Qed.
Lemma recs_app q q' d : recs (q ++ q') d = recs q' (recs q d).
Proof. apply fold_left_app. Qed.

(** What is asked for, when only two places occur. *)
Lemma collect_none (f : place * list node -> list node) (d : table) :
  (forall kv, In kv d -> f kv = []) -> flat_map f d = [].
Proof. induction d as [|x d IH]; intros H; [reflexivity|]. cbn. rewrite H by (left; reflexivity). apply IH. intros y Hy. apply H. right. exact Hy. Qed.
Lemma collect_one (c : place -> bool) k (d : table) : NoDup (dkeys d) -> c k = true ->
  (forall x, In x (dkeys d) -> c x = true -> x = k) ->
  flat_map (fun kv => if c (fst kv) then snd kv else []) d = at_place k d.
Proof.
  unfold at_place. induction d as [|[x v] d IH]; intros N Ck H; [reflexivity|]. cbn [dkeys map fst] in N. inversion_clear N as [|? ? N1 N2].
  cbn [flat_map fst snd dget]. destruct (place_eqb_spec k x) as [<-|D].
  - rewrite Ck, collect_none; [apply app_nil_r|]. intros [y w] Hy. cbn [fst snd]. destruct (c y) eqn:Cy; [|reflexivity].
    exfalso. assert (I : In y (dkeys d)) by (apply (in_map fst) in Hy; exact Hy).
    rewrite (H y) in I; [auto|right; exact I|exact Cy].
  - destruct (c x) eqn:Cx; [exfalso; apply D; symmetry; apply H; [left; reflexivity|exact Cx]|]. cbn [app].
    apply IH; [exact N2|exact Ck|]. intros y Hy. apply H. right. exact Hy.
Qed.
Lemma for_top_at d : NoDup (dkeys d) -> for_top d = at_place file_top d.
Proof.
  intros N. apply (collect_one (fun k => place_eqb k file_top)); [exact N| |].
  - destruct (place_eqb_spec file_top file_top); congruence.
  - intros x _ E. destruct (place_eqb_spec x file_top); congruence.
Qed.
Lemma for_line_at k d : NoDup (dkeys d) -> k <> file_top -> (forall x, In x (dkeys d) -> x = file_top \/ x = k) -> for_line d = at_place k d.
Proof.
  intros N D H. unfold for_line. rewrite <- (collect_one (fun k => negb (place_eqb k file_top)) k d); [|exact N| |].
  - apply flat_map_ext. intros [x v]. cbn [fst snd]. destruct (place_eqb x file_top); reflexivity.
  - destruct (place_eqb_spec k file_top); [contradiction|reflexivity].
  - intros x Hx E. destruct (place_eqb_spec x file_top); [discriminate|]. destruct (H x Hx); congruence.
Qed.
Lemma for_line_none d : (forall x, In x (dkeys d) -> x = file_top) -> for_line d = [].
Proof.
  intros H. apply collect_none. intros [x v] Hx. cbn [fst snd]. apply (in_map fst) in Hx. cbn in Hx. apply H in Hx as ->.
  destruct (place_eqb_spec file_top file_top); congruence.
Qed.

(** ** Uniformity *)
Section Pass.
Context {M : Type}.
Variable e : benv M.
Notation bst := (bst M).
Definition with_records (s : bst) (d : table) : bst :=
  MkBst (torch_count s) (success_count s) (all_apis s) (unsupported s) (scopes s) d (shared s).
Lemma with_own s : with_records s (records s) = s. Proof. destruct s; reflexivity. Qed.
Lemma record_rec1 p l s : record p l s = with_records s (rec1 (p, l) (records s)).
Proof. unfold record, rec1. cbn [fst snd]. destruct l; [symmetry; apply with_own|reflexivity]. Qed.

Definition uniform (stack : list frame) {A} (f : bst -> res (A * bst)) : Prop := forall s,
  match f s with
  | Ok (a, s') =>
      scopes s' = scopes s /\
      exists q, Forall (fun x => fst x = file_top \/ scope_body_index stack (scopes s) = Ok (fst x)) q /\
                forall R, f (with_records s R) = Ok (a, with_records s' (recs q R))
  | Raise x => forall R, f (with_records s R) = Raise x
  end.
Definition neutral (h : bst -> bst) : Prop := forall s, scopes (h s) = scopes s /\ forall R, h (with_records s R) = with_records (h s) R.

Variable stack : list frame.
Lemma uniform_ret {A} (a : A) h : neutral h -> uniform stack (fun s => Ok (a, h s)).
Proof. intros H s. destruct (H s) as [H1 H2]. split; [exact H1|]. exists []. split; [constructor|]. intros R. rewrite H2. reflexivity. Qed.
Lemma uniform_raise {A} x : uniform (A := A) stack (fun s => Raise x).
Proof. intros s R. reflexivity. Qed.
Lemma uniform_after {A} (f : bst -> res (A * bst)) h : neutral h -> uniform stack f -> uniform stack (fun s => f (h s)).
Proof.
  intros H U s. destruct (H s) as [H1 H2]. specialize (U (h s)). destruct (f (h s)) as [[a s']|x].
  - destruct U as (U1 & q & U2 & U3). split; [congruence|]. exists q. rewrite <- H1. split; [exact U2|]. intros R. rewrite H2. apply U3.
  - intros R. rewrite H2. apply U.
Qed.
Lemma uniform_bind {A B} (f : bst -> res (A * bst)) (g : A -> bst -> res (B * bst)) :
  uniform stack f -> (forall a, uniform stack (g a)) -> uniform stack (fun s => let* (a, s') := f s in g a s').
Proof.
  intros F G s. specialize (F s). destruct (f s) as [[a s1]|x].
  - destruct F as (F1 & q & F2 & F3). cbn [bind]. specialize (G a s1). destruct (g a s1) as [[b s2]|y].
    + destruct G as (G1 & q' & G2 & G3). split; [congruence|]. exists (q ++ q')%list. split.
      * apply Forall_app. split; [exact F2|]. rewrite <- F1. exact G2.
      * intros R. rewrite F3. cbn [bind]. rewrite G3, recs_app. reflexivity.
    + intros R. rewrite F3. cbn [bind]. apply G.
  - intros R. rewrite F. reflexivity.
Qed.
Lemma uniform_ext {A} (f g : bst -> res (A * bst)) : (forall s, f s = g s) -> uniform stack g -> uniform stack f.
Proof.
  intros E U s. specialize (U s). rewrite E. destruct (g s) as [[a s']|x].
  - destruct U as (U1 & q & U2 & U3). split; [exact U1|]. exists q. split; [exact U2|]. intros R. rewrite E. apply U3.
  - intros R. rewrite E. apply U.
Qed.
Lemma uniform_res {A B} (r : res A) (g : A -> bst -> res (B * bst)) :
  (forall a, uniform stack (g a)) -> uniform stack (fun s => let* a := r in g a s).
Proof. intros G. destruct r as [a|x]; cbn [bind]; [apply G|apply uniform_raise]. Qed.
Lemma uniform_shared {A B} (r : M -> res A) (g : A -> bst -> res (B * bst)) :
  (forall a, uniform stack (g a)) -> uniform stack (fun s => let* a := r (shared s) in g a s).
Proof.
  intros G s. destruct (r (shared s)) as [a|x] eqn:E; cbn [bind].
  - specialize (G a s). destruct (g a s) as [[b s']|y].
    + destruct G as (G1 & q & G2 & G3). split; [exact G1|]. exists q. split; [exact G2|]. intros R. cbn [with_records shared]. rewrite E. apply G3.
    + intros R. cbn [with_records shared]. rewrite E. apply G.
  - intros R. cbn [with_records shared]. rewrite E. reflexivity.
Qed.
(** From states to states and a dummy value. *)
Lemma uniform_unit {B} (f : bst -> res bst) (g : bst -> res (B * bst)) :
  uniform stack (fun s => let* s' := f s in Ok (tt, s')) -> uniform stack g -> uniform stack (fun s => let* s' := f s in g s').
Proof.
  intros F G. pose proof (uniform_bind (fun s => let* s' := f s in Ok (tt, s')) (fun _ => g) F (fun _ => G)) as U.
  intros s. specialize (U s). cbn beta in U.
  assert (E : forall s, (let* (_, s') := (let* s' := f s in Ok (tt, s')) in g s') = (let* s' := f s in g s')) by (intros t; destruct (f t); reflexivity).
  rewrite E in U. destruct (let* s' := f s in g s') as [[b s']|x].
  - destruct U as (U1 & q & U2 & U3). split; [exact U1|]. exists q. split; [exact U2|]. intros R. rewrite <- E. apply U3.
  - intros R. rewrite <- E. apply U.
Qed.

Lemma neutral_id : neutral (fun s => s). Proof. split; reflexivity. Qed.
Lemma neutral_recognise a : neutral (recognise a). Proof. split; reflexivity. Qed.
Lemma neutral_succeed : neutral succeed. Proof. split; reflexivity. Qed.
Lemma neutral_mis a : neutral (misidentified a). Proof. split; reflexivity. Qed.
Lemma neutral_unsupport a : neutral (unsupport a). Proof. split; reflexivity. Qed.
Lemma neutral_shared w : neutral (fun s => with_shared s w). Proof. split; reflexivity. Qed.
Lemma neutral_note a p : neutral (note_paddle a p).
Proof.
  intros s. unfold note_paddle. cbn [with_records all_apis]. destruct (dget String.eqb a (all_apis s)) as [[]|]; split; reflexivity.
Qed.
Lemma neutral_comp h g : neutral h -> neutral g -> neutral (fun s => g (h s)).
Proof. intros H G s. destruct (H s) as [H1 H2], (G (h s)) as [G1 G2]. split; [congruence|]. intros R. rewrite H2. apply G2. Qed.

Lemma uniform_record_top l : uniform stack (fun s => Ok (tt, record file_top l s)).
Proof.
  intros s. rewrite record_rec1. split; [reflexivity|]. exists [(file_top, l)]. split; [constructor; [left; reflexivity|constructor]|].
  intros R. rewrite record_rec1. reflexivity.
Qed.
Lemma uniform_here {A} (f : place -> bst -> res (A * bst)) :
  (forall k s, scope_body_index stack (scopes s) = Ok k ->
     match f k s with
     | Ok (a, s') => scopes s' = scopes s /\ exists q, Forall (fun x => fst x = file_top \/ fst x = k) q /\
                       forall R, f k (with_records s R) = Ok (a, with_records s' (recs q R))
     | Raise x => forall R, f k (with_records s R) = Raise x
     end) ->
  uniform stack (fun s => let* k := scope_body_index stack (scopes s) in f k s).
Proof.
  intros H s. destruct (scope_body_index stack (scopes s)) as [k|x] eqn:E; cbn [bind].
  - specialize (H k s E). destruct (f k s) as [[a s']|y].
    + destruct H as (H1 & q & H2 & H3). split; [exact H1|]. exists q. split.
      * eapply Forall_impl; [|exact H2]. intros x [-> | ->]; auto.
      * intros R. cbn [with_records scopes]. rewrite E. apply H3.
    + intros R. cbn [with_records scopes]. rewrite E. apply H.
  - intros R. cbn [with_records scopes]. rewrite E. reflexivity.
Qed.
Lemma record_two {A} (a : A) h l k s : neutral h ->
  scopes (h (record k l s)) = scopes s /\
  exists q, Forall (fun x => fst x = file_top \/ fst x = k) q /\
            forall R, Ok (a, h (record k l (with_records s R))) = Ok (a, with_records (h (record k l s)) (recs q R)).
Proof.
  intros H. rewrite record_rec1. destruct (H (with_records s (rec1 (k, l) (records s)))) as [H1 H2]. split; [exact H1|].
  exists [(k, l)]. split; [constructor; [right; reflexivity|constructor]|]. intros R. rewrite record_rec1. cbn [recs fold_left].
  rewrite <- H2. reflexivity.
Qed.
Lemma uniform_multi l : uniform stack (insert_multi_node e l stack).
Proof.
  unfold insert_multi_node. set (to_root n := is_import n || mentions_sys_path e n).
  apply (uniform_bind (fun s => Ok (tt, record file_top (filter to_root l) s))
           (fun _ s => match filter (fun n => negb (to_root n)) l with
                       | [] => Ok (true, s)
                       | o :: r => let* p := parent stack in
                                   if mem_str (kind_of p) ["DictComp"; "ListComp"] then Ok (false, s)
                                   else let* at_ := scope_body_index stack (scopes s) in Ok (true, record at_ (o :: r) s)
                       end)); [apply uniform_record_top|].
  intros _. destruct (filter _ l) as [|o r]; [apply uniform_ret, neutral_id|].
  apply uniform_res. intros p. destruct (mem_str _ _); [apply uniform_ret, neutral_id|].
  apply uniform_here. intros k s _. apply (record_two true (fun s => s)). apply neutral_id.
Qed.
Lemma uniform_ask m : uniform stack (ask_api e m stack).
Proof.
  unfold ask_api.
  apply (uniform_shared (fun w => api_of e m stack w)
           (fun x s => let '(p, l, w) := x in let* (_, s) := insert_multi_node e l stack (with_shared s w) in Ok (p, s))).
  intros [[p l] w].
  apply (uniform_bind (fun s => insert_multi_node e l stack (with_shared s w)) (fun _ s => Ok (p, s))).
  - apply (uniform_after (insert_multi_node e l stack)); [apply neutral_shared|apply uniform_multi].
  - intros _. apply uniform_ret, neutral_id.
Qed.
Lemma uniform_note api m : uniform stack (fun s => let* s' := ask_and_note e api m stack s in Ok (tt, s')).
Proof.
  assert (U : uniform stack (fun s => let* (p, s) := ask_api e m stack s in
     if truthy p then let* (p, s) := ask_api e m stack s in Ok (tt, note_paddle api (match p with Some p => p | None => "" end) s)
     else Ok (tt, note_paddle api "" s))).
  { apply uniform_bind; [apply uniform_ask|]. intros p. destruct (truthy p).
    - apply uniform_bind; [apply uniform_ask|]. intros p'. apply uniform_ret, neutral_note.
    - apply uniform_ret, neutral_note. }
  assert (E : forall s, (let* s' := ask_and_note e api m stack s in Ok (tt, s')) =
     (let* (p, s) := ask_api e m stack s in
     if truthy p then let* (p, s) := ask_api e m stack s in Ok (tt, note_paddle api (match p with Some p => p | None => "" end) s)
     else Ok (tt, note_paddle api "" s))).
  { intros s. unfold ask_and_note. destruct (ask_api e m stack s) as [[p s1]|]; [|reflexivity]. cbn [bind].
    destruct (truthy p); [|reflexivity]. destruct (ask_api e m stack s1) as [[p' s2]|]; reflexivity. }
  apply (uniform_ext _ _ E U).
Qed.
Lemma uniform_annotate {A} (a : A) api : uniform stack (fun s => let* s := annotate api stack s in Ok (a, s)).
Proof.
  assert (U : uniform stack (fun s => let* at_ := scope_body_index stack (scopes s) in Ok (a, unsupport api (record at_ [annotation api] s)))).
  { apply uniform_here. intros k s _. apply (record_two a (unsupport api)). apply neutral_unsupport. }
  assert (E : forall s : bst, (let* s := annotate api stack s in Ok (a, s)) = (let* at_ := scope_body_index stack (scopes s) in Ok (a, unsupport api (record at_ [annotation api] s)))).
  { intros s. unfold annotate. destruct (scope_body_index stack (scopes s)); reflexivity. }
  apply (uniform_ext _ _ E U).
Qed.
Lemma uniform_rest n api origin : uniform stack (attribute_rest e n api origin stack).
Proof.
  unfold attribute_rest. destruct (3 <=? _)%nat; [|apply uniform_ret, neutral_unsupport].
  apply uniform_res. intros [m|]; [|apply uniform_ret, neutral_unsupport].
  apply uniform_bind; [apply uniform_ask|]. intros [p|]; [|apply uniform_raise].
  destruct (String.eqb p "unchange"); [apply uniform_ret, neutral_succeed|].
  apply uniform_res. intros new. apply uniform_ret, neutral_succeed.
Qed.
Lemma uniform_torch_attribute n api origin : uniform stack (visit_torch_attribute e n api origin stack).
Proof.
  unfold visit_torch_attribute.
  apply uniform_res. intros [m|]; [|apply (uniform_after (attribute_rest e n api origin stack)); [apply neutral_recognise|apply uniform_rest]].
  apply (uniform_bind (fun s => ask_api e m stack (recognise api s))).
  { apply (uniform_after (ask_api e m stack)); [apply neutral_recognise|apply uniform_ask]. }
  intros [p|]; [|apply uniform_rest].
  destruct (String.eqb p "delete").
  { apply uniform_res. intros a. apply uniform_res. intros b.
    destruct a; [apply uniform_ret, neutral_succeed|]. destruct (b && _); [apply uniform_ret, neutral_succeed|apply uniform_rest]. }
  destruct (String.eqb p "misidentify"); [apply uniform_ret, neutral_mis|].
  destruct (String.eqb p "unchange"); [apply uniform_ret, neutral_succeed|].
  destruct (String.eqb p ""); [apply uniform_rest|].
  apply uniform_res. intros new. apply (uniform_ret (Reply (VNode new)) (fun s => succeed (note_paddle api p s))).
  apply neutral_comp; [apply neutral_note|apply neutral_succeed].
Qed.
Lemma uniform_class_attribute n api origin : uniform stack (trans_class_attribute e n api origin stack).
Proof.
  unfold trans_class_attribute. apply uniform_res. intros [m|]; [|apply uniform_annotate].
  apply uniform_unit; [apply uniform_note|].
  apply (uniform_shared (fun w => attr_nodes e m n stack w)). intros [[a l] w].
  apply (uniform_bind (fun s => insert_multi_node e l stack (with_shared s w))).
  { apply (uniform_after (insert_multi_node e l stack)); [apply neutral_shared|apply uniform_multi]. }
  intros _. destruct a as [| | |ns|].
  - apply uniform_res. intros x. destruct x; [apply uniform_ret, neutral_succeed|apply uniform_annotate].
  - apply uniform_ret, neutral_mis.
  - apply uniform_ret, neutral_succeed.
  - destruct ns as [|x ns]; [apply uniform_annotate|]. destruct (mem_str _ _); [|apply uniform_annotate].
    apply uniform_bind; [apply uniform_multi|]. intros ok. destruct ok; [apply uniform_ret, neutral_succeed|apply uniform_annotate].
  - apply uniform_annotate.
Qed.
Lemma uniform_attribute n : uniform stack (finish_attribute e n stack).
Proof.
  unfold finish_attribute. apply uniform_res. intros p. destruct (_ && _); [apply uniform_ret, neutral_id|].
  apply uniform_res. intros full. destruct (start_with_torch e full); [apply uniform_torch_attribute|].
  destruct (contains "NonTorchClass" full); [apply uniform_ret, neutral_id|].
  destruct (find _ _) as [api|]; [|apply uniform_ret, neutral_id].
  apply (uniform_after (trans_class_attribute e n api _ stack)); [apply neutral_recognise|apply uniform_class_attribute].
Qed.
Lemma uniform_torch_call f a k api origin : uniform stack (visit_torch_call e f a k api origin stack).
Proof.
  unfold visit_torch_call.
  apply uniform_res. intros [m|];
    [|apply (uniform_ret _ (fun s => unsupport api (recognise api s))); apply neutral_comp; [apply neutral_recognise|apply neutral_unsupport]].
  apply (uniform_unit (fun s => ask_and_note e api m stack (recognise api s))).
  { apply (uniform_after (fun s => let* s' := ask_and_note e api m stack s in Ok (tt, s'))); [apply neutral_recognise|apply uniform_note]. }
  apply (uniform_shared (fun w => call_nodes e m a k stack w)). intros [[[x kept] l] w].
  apply (uniform_bind (fun s => insert_multi_node e l stack (with_shared s w))).
  { apply (uniform_after (insert_multi_node e l stack)); [apply neutral_shared|apply uniform_multi]. }
  intros _. destruct x as [| | |ns|].
  - apply uniform_res. intros x. destruct x; [apply uniform_ret, neutral_succeed|apply uniform_ret, neutral_unsupport].
  - apply uniform_ret, neutral_mis.
  - apply uniform_ret, neutral_succeed.
  - destruct ns as [|x ns]; [apply uniform_ret, neutral_unsupport|]. destruct (mem_str _ _); [|apply uniform_ret, neutral_unsupport].
    apply uniform_bind; [apply uniform_multi|]. intros ok. destruct ok; [apply uniform_ret, neutral_succeed|apply uniform_ret, neutral_unsupport].
  - apply uniform_ret, neutral_unsupport.
Qed.
Lemma uniform_class_method f a k api origin : uniform stack (trans_class_method e f a k api origin stack).
Proof.
  unfold trans_class_method. apply uniform_res. intros [m|]; [|apply uniform_annotate].
  apply uniform_unit; [apply uniform_note|].
  apply (uniform_shared (fun w => class_nodes e m f _ k stack w)). intros [[[x kept] l] w].
  apply (uniform_bind (fun s => insert_multi_node e l stack (with_shared s w))).
  { apply (uniform_after (insert_multi_node e l stack)); [apply neutral_shared|apply uniform_multi]. }
  intros _. destruct x as [| | |ns|].
  - apply uniform_res. intros x. destruct x; [apply uniform_ret, neutral_succeed|apply uniform_annotate].
  - apply uniform_ret, neutral_mis.
  - apply uniform_ret, neutral_succeed.
  - destruct ns as [|x ns]; [apply uniform_annotate|]. destruct (mem_str _ _); [|apply uniform_annotate].
    apply uniform_bind; [apply uniform_multi|]. intros ok. destruct ok; [apply uniform_ret, neutral_succeed|apply uniform_annotate].
  - apply uniform_annotate.
Qed.
Lemma uniform_call f a k : uniform stack (finish_call e f a k stack).
Proof.
  unfold finish_call. apply uniform_res. intros full. destruct (_ || _); [apply uniform_torch_call|].
  destruct (contains "NonTorchClass" full); [apply uniform_ret, neutral_id|].
  destruct (find _ _) as [api|]; [|apply uniform_ret, neutral_id].
  apply (uniform_after (trans_class_method e f a k api _ stack)); [apply neutral_recognise|apply uniform_class_method].
Qed.
Lemma uniform_name i : uniform stack (visit_name i stack).
Proof.
  unfold visit_name. apply uniform_res. intros p. destruct p as [| |[] a k| | |]; try (apply uniform_ret, neutral_id).
  destruct (mem_str _ _); [|apply uniform_ret, neutral_id]. destruct (dget _ _ _); apply uniform_ret, neutral_id.
Qed.
Theorem uniform_post n : ~ In (kind_of n) scope_kinds -> uniform stack (basic_post e n stack).
Proof.
  intros N. unfold basic_post. destruct n as [i|v a|f a k|l|m l i|k fs].
  - apply uniform_name.
  - apply uniform_attribute.
  - apply uniform_call.
  - apply uniform_ret, neutral_id.
  - apply uniform_ret, neutral_id.
  - destruct (mem_str k ["Attribute"; "Call"]); [apply uniform_raise|].
    destruct (String.eqb k "Expr"); [apply uniform_ret, neutral_id|].
    destruct (mem_str k scope_kinds) eqn:E; [|apply uniform_ret, neutral_id].
    exfalso. apply N. apply mem_str_In, E.
Qed.
End Pass.

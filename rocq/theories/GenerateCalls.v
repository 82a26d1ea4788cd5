(** Every call of a modelled row is an instance of one of the symbolic results. *)
From Verif Require Import PyStr PyDict PyDictFacts PyStrFacts UtilsFile Args ArgsSpec ArgsFacts TablesData
  Generate GenerateData GenerateSym GenerateRel GenerateSound GenerateRows GenerateSpec GenerateCheck Names.
Opaque api_mapping generators.

(** A check of all modelled rows. *)
Definition all_rows (f : row -> bool * block -> bool) : bool :=
  forallb (fun r => match generator r with Some g => f r g | None => true end) api_mapping.
Lemma all_rows_in f r g : all_rows f = true -> In r api_mapping -> generator r = Some g -> f r g = true.
Proof.
  intros H I G. unfold all_rows in H. rewrite forallb_forall in H. specialize (H r I). rewrite G in H. exact H.
Qed.

Lemma methodb_iff r : is_methodb (r_name r) = true <-> is_method r.
Proof.
  unfold is_methodb, is_method. rewrite existsb_exists. split.
  - intros (c & I & P). apply prefix_spec in P. destruct P as [m ->]. exists c, m. tauto.
  - intros (c & m & I & ->). exists c. split; [exact I|apply prefix_app].
Qed.

Definition row_ok (r : row) : bool :=
  forallb (fun k => mem_str k (args_list (r_entry r))) (position_args (r_entry r)) &&
  forallb (fun k => negb (mem_str k (unsupport_args (r_entry r)))) (required r).
Lemma rows_ok : all_rows (fun r _ => row_ok r) = true.
Proof. vm_compute. reflexivity. Qed.

Definition by_name (t : table) : dict string string :=
  flat_map (fun kv => match fst kv with Some k => [(k, snd kv)] | None => [] end) t.
Lemma by_name_get t k : dget String.eqb k (by_name t) = dget key_eqb (Some k) t.
Proof.
  induction t as [|[[x|] v] t IH]; [reflexivity| |exact IH].
  cbn [by_name flat_map fst snd app dget key_eqb]. destruct (String.eqb k x); [reflexivity|exact IH].
Qed.

Lemma binds_keys b : forall t x, In x (dkeys (binds b t)) -> In x (dkeys t) \/ In x (map fst b).
Proof.
  induction b as [|[k v] b IH]; intros t x H; [left; exact H|].
  change (binds ((k, v) :: b) t) with (binds b (dset key_eqb k v t)) in H.
  destruct (IH _ _ H) as [I|I]; [|right; right; exact I].
  apply (dset_keys_iff _ key_eqb_spec) in I. destruct I as [->|I]; [right; left; reflexivity|left; exact I].
Qed.
Lemma binds_NoDup b : forall t, NoDup (dkeys t) -> NoDup (dkeys (binds b t)).
Proof.
  induction b as [|[k v] b IH]; intros t H; [exact H|].
  change (binds ((k, v) :: b) t) with (binds b (dset key_eqb k v t)). apply IH.
  apply (dset_nodup _ key_eqb_spec). exact H.
Qed.
Lemma last_binding_in k b : (exists v, last_binding k b = Some v) <-> In k (map fst b).
Proof.
  unfold last_binding. destruct (dget key_eqb k (rev b)) as [v|] eqn:G.
  - split; [intros _|intros _; exists v; reflexivity].
    apply (dget_some_in _ key_eqb_spec) in G. apply in_rev in G. apply in_map_iff. exists (k, v). tauto.
  - apply (dget_none_iff _ key_eqb_spec) in G. split; [intros [v Q]; discriminate|].
    intros I. exfalso. apply G. unfold dkeys. rewrite map_rev. apply in_rev. rewrite rev_involutive. exact I.
Qed.
Lemma without_in {A} (P : A -> Prop) l m x : without P l m -> In x m -> In x l.
Proof. induction 1; [tauto|intros [->|I]; [left; reflexivity|right; auto]|intros I; right; auto]. Qed.

(** Harmless arguments do not touch the others. *)
Lemma last_app k a b : last_binding k (a ++ b)%list =
  match last_binding k b with Some v => Some v | None => last_binding k a end.
Proof. unfold last_binding. rewrite rev_app_distr. apply dget_app. Qed.
Lemma last_cons k x v b : last_binding k ((x, v) :: b) =
  match last_binding k b with Some w => Some w | None => if key_eqb k x then Some v else None end.
Proof. change ((x, v) :: b) with ([(x, v)] ++ b)%list. rewrite last_app. reflexivity. Qed.
Lemma last_without e k l m : without (harmless e) l m -> ~ In k (unsupport_args e) ->
  last_binding (Some k) (map (fun n => (kw_arg n, text (kw_value n))) m) =
  last_binding (Some k) (map (fun n => (kw_arg n, text (kw_value n))) l).
Proof.
  intros W U. induction W as [|n l m W IH|n l m H W IH]; [reflexivity| |]; cbn [map]; rewrite !last_cons.
  - rewrite IH. reflexivity.
  - rewrite IH. destruct H as [(x & Q & I) _]. rewrite Q. cbn [key_eqb].
    destruct (String.eqb_spec k x) as [->|]; [contradiction|].
    destruct (last_binding (Some k) (map (fun n => (kw_arg n, text (kw_value n))) l)); reflexivity.
Qed.

Lemma row_sound r g recv args kwargs i :
  In r api_mapping -> generator r = Some g ->
  called_properly r recv -> documented (r_entry r) kwargs -> complete r args kwargs ->
  paddle_nodes r g recv args kwargs i = Ret Refused \/
  paddle_nodes r g recv args kwargs i = Ret Misidentify \/
  exists kw fr h res,
    (forall k v, supplies (r_entry r) args kwargs k v -> ~ In k (unsupport_args (r_entry r)) ->
                 dget String.eqb k kw = Some v) /\
    (forall k, dmem String.eqb k kw = true -> exists v, supplies (r_entry r) args kwargs k v) /\
    (forall k v, dget String.eqb k kw = Some v -> In (Some k, v) (bindings (position_args (r_entry r)) args kwargs)) /\
    In (h, res) (row_paths r g) /\ sat kw recv fr h /\
    result_ok kw recv fr res (paddle_nodes r g recv args kwargs i) /\
    (forall k n, fr k n -> exists i, n = snd (unique_name i k)) /\
    (forall x, paddle_nodes r g recv args kwargs i = Ret x ->
       forall k n, fr k n -> drawn i (paddle_counters r g recv args kwargs i) k n).
Proof.
  intros I G C D U. unfold paddle_nodes.
  destruct (parse_args_and_kwargs (r_entry r) false false args kwargs) as [p kept] eqn:P. cbn [fst].
  destruct p as [t| | |]; [|left; reflexivity|right; left; reflexivity|].
  2:{ exfalso. apply (parse_never_IndexError (r_entry r) false false args kwargs). rewrite P. reflexivity. }
  right; right. pose proof P as P0. apply parse_Bound in P. destruct P as (T & W & L).
  pose proof (all_rows_in _ _ _ rows_ok I G) as OK. cbv beta in OK. unfold row_ok in OK.
  apply Bool.andb_true_iff in OK. destruct OK as [OK1 OK2]. rewrite forallb_forall in OK1, OK2.
  set (e := r_entry r) in *.
  assert (GET : forall k, dget String.eqb k (by_name t) = last_binding (Some k) (bindings (position_args e) args kept)).
  { intros k. rewrite by_name_get, T, binds_get. destruct (last_binding _ _); reflexivity. }
  assert (SUP : forall k v, supplies e args kwargs k v -> ~ In k (unsupport_args e) -> dget String.eqb k (by_name t) = Some v).
  { intros k v S N. rewrite GET. unfold supplies in S. rewrite <- S. unfold bindings. rewrite !last_app.
    rewrite (last_without e k kwargs kept W N). reflexivity. }
  assert (PRES : forall k, dmem String.eqb k (by_name t) = true -> exists v, supplies e args kwargs k v).
  { intros k M. unfold dmem in M. rewrite GET in M.
    assert (B : In (Some k) (map fst (bindings (position_args e) args kept))).
    { apply last_binding_in. destruct (last_binding _ _) as [v|]; [exists v; reflexivity|discriminate]. }
    unfold supplies. apply last_binding_in. unfold bindings in *. rewrite map_app in *. apply in_app_iff in B.
    apply in_app_iff. destruct B as [B|B]; [left; exact B|right].
    rewrite map_map in *. apply in_map_iff in B. destruct B as (n & Q & J). apply in_map_iff. exists n.
    split; [exact Q|]. exact (without_in _ _ _ _ W J). }
  assert (ALL : forall k v, dget String.eqb k (by_name t) = Some v -> In (Some k, v) (bindings (position_args e) args kwargs)).
  { intros k v V. rewrite GET in V. unfold last_binding in V. apply (dget_some_in _ key_eqb_spec) in V. apply in_rev in V.
    unfold bindings in *. apply in_app_iff in V. apply in_app_iff. destruct V as [V|V]; [left; exact V|right].
    apply in_map_iff in V. destruct V as (n & Q & J). apply in_map_iff. exists n.
    split; [exact Q|]. exact (without_in _ _ _ _ W J). }
  assert (MR : c_method (config_of r (fst g)) = match recv with Some _ => true | None => false end).
  { cbn [config_of c_method]. destruct recv as [v|].
    - apply methodb_iff. apply C. exists v. reflexivity.
    - destruct (is_methodb (r_name r)) eqn:B; [|reflexivity]. exfalso. apply methodb_iff in B.
      apply C in B. destruct B; discriminate. }
  assert (X : exists within : ids -> Prop,
    (forall i j, grown i j -> within j -> within i) /\
    match exec (context (config_of r (fst g)) recv) (snd g)
      (MkState [] [("kwargs", start t)] (initial_api (context (config_of r (fst g)) recv)) i false) with
    | Ret (_, s) => within (counters s) /\ forall j, within j -> grown j (counters s)
    | Fail _ => forall i, within i
    end).
  { destruct (exec _ _ _) as [[x s]|].
    - exists (fun j => grown j (counters s)). split; [intros ? ? A B; exact (grown_trans _ _ _ A B)|].
      split; [apply grown_refl|intros j J; exact J].
    - exists (fun _ => True). split; [intros; exact Logic.I|intros; exact Logic.I]. }
  destruct X as (within & WG & WX).
  destruct (generate_sound (config_of r (fst g)) (by_name t) recv MR i within WG (required r) (snd g) t i) as (h & res & I1 & S1 & R1).
  - rewrite T. apply binds_NoDup. constructor.
  - intros k K. rewrite T in K. apply binds_keys in K. destruct K as [[]|K].
    unfold bindings in K. rewrite map_app in K. apply in_app_iff in K. destruct K as [K|K].
    + apply in_map_iff in K. destruct K as ([x v] & Q & K). cbn in Q. subst x.
      apply in_combine_l in K. apply in_map_iff in K. destruct K as (x & <- & K).
      exists x. split; [reflexivity|]. apply in_app_iff. left. apply mem_str_In. apply OK1, K.
    + rewrite map_map in K. apply in_map_iff in K. destruct K as (n & Q & K). cbn in Q.
      destruct (D n (without_in _ _ _ _ W K)) as (x & E & J). exists x. split; [congruence|].
      apply filter_In in J. exact (proj1 J).
  - intros k. symmetry. apply by_name_get.
  - intros k K. destruct (U k K) as [v S]. unfold dmem. rewrite (SUP k v S); [reflexivity|].
    intros N. specialize (OK2 k K). apply mem_str_In in N. rewrite N in OK2. discriminate.
  - apply grown_refl.
  - destruct (exec _ _ _) as [[x s]|]; [apply WX|exact WX].
  - exists (by_name t), (fr i within), h, res. repeat (split; [assumption|]). split.
    + intros k n (j & _ & _ & E). exists j. exact E.
    + intros x E k n (j & A & B & ->). unfold paddle_counters. fold e. rewrite P0. cbn [fst].
      unfold generate in E. change (context_of r (fst g) recv) with (context (config_of r (fst g)) recv) in *.
      destruct (exec _ _ _) as [[y s]|]; [|discriminate]. apply drawn_made; [exact A|]. apply WX, B.
Qed.

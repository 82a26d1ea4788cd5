(** Proofs about Special.v. *)
From Coq Require Import Lia.
From Verif Require Import PyStr PyStrFacts PyDict PyDictFacts UtilsFile UtilsFacts Ast Args ArgsSpec ArgsFacts Special SpecialSpec.

(** ** Removing apostrophes *)
Fixpoint unquote (s : string) : string :=
  match s with
  | EmptyString => ""
  | String c r => if Ascii.eqb c "'" then unquote r else String c (unquote r)
  end.
Lemma replace_apostrophe s : py_replace s "'" "" = unquote s.
Proof.
  unfold py_replace. induction s as [|c s IH]; [reflexivity|].
  cbn [replace_aux prefix unquote]. rewrite (eqb_sym_ascii c "'").
  destruct (ascii_dec "'" c) as [<-|N].
  - rewrite Ascii.eqb_refl. destruct s; cbn [prefix append]; exact IH.
  - destruct (Ascii.eqb_spec "'" c); [contradiction|]. cbn [append]. rewrite IH. reflexivity.
Qed.
Lemma unquote_app a b : unquote (a ++ b) = unquote a ++ unquote b.
Proof. induction a as [|c a IH]; cbn [append unquote]; [reflexivity|]. destruct (Ascii.eqb c "'"); [exact IH|]. cbn [append]. rewrite IH. reflexivity. Qed.
Lemma unquote_none s : mem_char "'" (unquote s) = false.
Proof.
  induction s as [|c s IH]; [reflexivity|]. cbn [unquote]. destruct (Ascii.eqb c "'") eqn:E; [exact IH|].
  cbn [mem_char]. rewrite (eqb_sym_ascii "'" c), E. exact IH.
Qed.
Lemma unquote_id s : mem_char "'" s = false -> unquote s = s.
Proof.
  induction s as [|c s IH]; intros H; [reflexivity|]. cbn [mem_char] in H. apply orb_false_iff in H as [A B].
  cbn [unquote]. rewrite (eqb_sym_ascii c "'"), A, IH by exact B. reflexivity.
Qed.
Lemma unquote_id_iff s : unquote s = s <-> mem_char "'" s = false.
Proof. split; [intros <-; apply unquote_none|apply unquote_id]. Qed.
Lemma mem_char_app c a b : mem_char c (a ++ b) = mem_char c a || mem_char c b.
Proof. induction a as [|x a IH]; cbn [append mem_char]; [reflexivity|]. rewrite IH, orb_assoc. reflexivity. Qed.
Lemma unquote_concat l : unquote (String.concat ", " l) = String.concat ", " (map unquote l).
Proof.
  induction l as [|x l IH]; [reflexivity|]. destruct l as [|y l]; [reflexivity|].
  cbn [map]. rewrite !concat_cons2. rewrite !unquote_app, IH. reflexivity.
Qed.
Lemma mem_char_concat c l s : In s l -> mem_char c s = true -> mem_char c (String.concat ", " l) = true.
Proof.
  induction l as [|x l IH]; [intros []|]. intros [->|H] M.
  - destruct l; [exact M|]. rewrite concat_cons2, mem_char_app, M. reflexivity.
  - destruct l as [|y l]; [destruct H|]. rewrite concat_cons2, !mem_char_app, IH by assumption.
    rewrite !orb_true_r. reflexivity.
Qed.

(** ** [repr] *)
Definition plain_char (c : ascii) : bool :=
  negb (Ascii.eqb c "'") && negb (Ascii.eqb c "\") && printable c.
Fixpoint plain_chars (s : string) : bool :=
  match s with EmptyString => true | String c r => plain_char c && plain_chars r end.
Lemma plain_chars_spec s : plain_chars s = true <-> plain_text s.
Proof.
  induction s as [|c s IH]; cbn [plain_chars]; unfold plain_text in *.
  - split; [intros _ c H; discriminate|reflexivity].
  - rewrite andb_true_iff, IH. unfold plain_char. rewrite !andb_true_iff, !negb_true_iff. cbn [mem_char]. split.
    + intros [[[A B] C] D] x H. apply orb_true_iff in H as [H|H]; [|apply D, H].
      apply Ascii.eqb_eq in H as ->.
      destruct (Ascii.eqb_spec c "'"); [discriminate|]. destruct (Ascii.eqb_spec c "\"); [discriminate|]. auto.
    + intros H. split; [|intros x Hx; apply H; rewrite Hx; apply orb_true_r].
      destruct (H c) as (A & B & C); [rewrite Ascii.eqb_refl; reflexivity|].
      destruct (Ascii.eqb_spec c "'"); [contradiction|]. destruct (Ascii.eqb_spec c "\"); [contradiction|]. auto.
Qed.
Lemma printable_big c : printable c = false ->
  ((nat_of_ascii c <? 32)%nat || (nat_of_ascii c =? 127)%nat) = true.
Proof.
  unfold printable. intros H. destruct (nat_of_ascii c =? 127)%nat eqn:E; [apply orb_true_r|].
  rewrite andb_true_r in H. apply Nat.leb_gt in H. rewrite orb_false_r. apply Nat.ltb_lt. exact H.
Qed.
Lemma printable_true c : printable c = true ->
  ((nat_of_ascii c <? 32)%nat || (nat_of_ascii c =? 127)%nat) = false.
Proof.
  unfold printable. intros H. apply andb_true_iff in H as [A B]. apply negb_true_iff in B. rewrite B, orb_false_r.
  apply Nat.ltb_ge. apply Nat.leb_le. exact A.
Qed.
(** Between apostrophes: a plain character is printed as it is, any other one longer
    (an apostrophe excepted). *)
Lemma repr_char_plain c : plain_char c = true -> repr_char "'" c = String c "".
Proof.
  unfold plain_char. rewrite !andb_true_iff, !negb_true_iff. intros [[A B] C]. unfold repr_char.
  change "092"%char with "\"%char. rewrite A, B. cbn [orb].
  destruct (Ascii.eqb_spec c "009") as [->|]; [discriminate|].
  destruct (Ascii.eqb_spec c "010") as [->|]; [discriminate|].
  destruct (Ascii.eqb_spec c "013") as [->|]; [discriminate|].
  rewrite (printable_true c C). reflexivity.
Qed.
Lemma repr_char_other c : c <> "'"%char -> plain_char c = false ->
  (1 < String.length (unquote (repr_char "'" c)))%nat.
Proof.
  intros N P. unfold plain_char in P. destruct (Ascii.eqb_spec c "'"); [contradiction|]. cbn [negb andb] in P.
  unfold repr_char. change "092"%char with "\"%char. destruct (Ascii.eqb_spec c "'"); [contradiction|]. rewrite orb_false_r.
  destruct (Ascii.eqb_spec c "\") as [->|NB]; [cbn; lia|]. cbn [negb andb] in P.
  destruct (Ascii.eqb_spec c "009"); [cbn; lia|].
  destruct (Ascii.eqb_spec c "010"); [cbn; lia|].
  destruct (Ascii.eqb_spec c "013"); [cbn; lia|].
  rewrite (printable_big c P). rewrite unquote_app, length_app_s.
  change (String.length (unquote "\x")) with 2%nat. lia.
Qed.
Lemma repr_chars_plain s : plain_chars s = true -> repr_chars "'" s = s.
Proof.
  induction s as [|c s IH]; [reflexivity|]. cbn [plain_chars repr_chars]. rewrite andb_true_iff. intros [A B].
  rewrite repr_char_plain, IH by assumption. reflexivity.
Qed.
Lemma repr_chars_length s : mem_char "'" s = false ->
  (String.length s <= String.length (unquote (repr_chars "'" s)))%nat /\
  (plain_chars s = false -> (String.length s < String.length (unquote (repr_chars "'" s)))%nat).
Proof.
  induction s as [|c s IH]; intros H; [split; [cbn; lia|discriminate]|].
  cbn [mem_char] in H. apply orb_false_iff in H as [A B]. destruct (IH B) as [L S]. clear IH.
  assert (N : c <> "'"%char) by (intros ->; discriminate).
  cbn [plain_chars repr_chars]. rewrite unquote_app, length_app_s. cbn [String.length].
  destruct (plain_char c) eqn:P; cbn [andb].
  - rewrite (repr_char_plain c P). cbn [unquote]. destruct (Ascii.eqb_spec c "'"); [contradiction|].
    cbn [String.length]. split; [lia|]. intros F. specialize (S F). lia.
  - pose proof (repr_char_other c N P). split; intros; lia.
Qed.
Lemma py_repr_no_apostrophe s : mem_char "'" s = false ->
  unquote (py_repr s) = unquote (repr_chars "'" s).
Proof.
  intros H. unfold py_repr. change quote1 with "'"%char. rewrite H. cbn [andb].
  cbn [unquote]. change (Ascii.eqb "'" "'") with true. cbv iota.
  rewrite unquote_app. cbn [unquote]. change (Ascii.eqb "'" "'") with true. cbv iota. apply app_nil_r_s.
Qed.

Lemma concat_length_le l m : Forall2 (fun a b : string => (String.length a <= String.length b)%nat) l m ->
  (String.length (String.concat ", " l) <= String.length (String.concat ", " m))%nat.
Proof.
  induction 1 as [|a b l m H HF IH]; [reflexivity|]. destruct HF as [|a' b' l m H' HF]; [exact H|].
  rewrite !concat_cons2, !length_app_s. lia.
Qed.
Lemma concat_length_eq l m : Forall2 (fun a b : string => (String.length a <= String.length b)%nat) l m ->
  String.length (String.concat ", " l) = String.length (String.concat ", " m) ->
  Forall2 (fun a b : string => String.length a = String.length b) l m.
Proof.
  induction 1 as [|a b l m H HF IH]; intros E; [constructor|]. pose proof (concat_length_le _ _ HF) as LE.
  destruct HF as [|a' b' l m H' HF]; [constructor; [exact E|constructor]|].
  rewrite !concat_cons2, !length_app_s in E. constructor; [lia|]. apply IH. lia.
Qed.

Lemma list_text_exact texts :
  py_replace (str_of_list texts) "'" "" = list_display texts <-> Forall plain_text texts.
Proof.
  rewrite replace_apostrophe. unfold str_of_list, list_display, join.
  rewrite !unquote_app, unquote_concat, map_map. change (unquote "[") with "[". change (unquote "]") with "]".
  split.
  - intros E. apply app_inj_l, app_inj_r in E.
    assert (NA : Forall (fun s => mem_char "'" s = false) texts).
    { apply Forall_forall. intros s Hs. destruct (mem_char "'" s) eqn:M; [|reflexivity]. exfalso.
      pose proof (mem_char_concat "'" texts s Hs M) as C. rewrite <- E in C.
      assert (Q : forall l, mem_char "'" (String.concat ", " (map (fun x => unquote (py_repr x)) l)) = false).
      { clear. intros l. rewrite <- (map_map py_repr unquote), <- unquote_concat. apply unquote_none. }
      rewrite Q in C. discriminate. }
    assert (LE : Forall2 (fun a b : string => (String.length a <= String.length b)%nat)
                   texts (map (fun x => unquote (py_repr x)) texts)).
    { clear E. induction NA as [|s l M NA IH]; [constructor|]. cbn [map]. constructor; [|exact IH].
      rewrite py_repr_no_apostrophe by exact M. apply repr_chars_length, M. }
    assert (EQ := concat_length_eq _ _ LE (f_equal String.length (eq_sym E))). clear E LE.
    induction NA as [|s l M NA IH]; [constructor|]. cbn [map] in EQ. inversion EQ as [|? ? ? ? E1 E2]; subst.
    constructor; [|apply IH, E2]. apply plain_chars_spec.
    destruct (plain_chars s) eqn:P; [reflexivity|]. exfalso.
    change (String.length s = String.length (unquote (py_repr s))) in E1.
    rewrite py_repr_no_apostrophe in E1 by exact M.
    apply (proj2 (repr_chars_length s M)) in P. lia.
  - intros H. f_equal. f_equal.
    induction H as [|s l P H IH]; [reflexivity|]. cbn [map].
    apply plain_chars_spec in P.
    assert (M : mem_char "'" s = false).
    { apply plain_chars_spec in P. destruct (mem_char "'" s) eqn:M; [|reflexivity]. apply P in M as [M _]. congruence. }
    assert (E : unquote (py_repr s) = s).
    { rewrite py_repr_no_apostrophe by exact M. rewrite repr_chars_plain by exact P. apply unquote_id, M. }
    rewrite E. destruct l as [|y l]; [reflexivity|]. cbn [map] in IH |- *. rewrite !concat_cons2, IH. reflexivity.
Qed.

(** ** Parsing without checks *)
Lemma loose_args_binds : forall names args t,
  loose_args names args t = binds (combine (map Some names) (map text args)) t.
Proof.
  induction names as [|k ns IH]; intros [|a r] t; try reflexivity. cbn [loose_args map combine].
  rewrite IH. reflexivity.
Qed.
Lemma loose_kwargs_binds kwargs : forall t,
  ~ In None (map kw_arg kwargs) ->
  loose_kwargs kwargs t = Some (binds (map (fun n => (kw_arg n, text (kw_value n))) kwargs) t).
Proof.
  induction kwargs as [|n r IH]; intros t H; [reflexivity|]. cbn [loose_kwargs map].
  cbn [map] in H. destruct (kw_arg n) as [k|] eqn:K; [|exfalso; apply H; left; reflexivity].
  rewrite IH by (intros X; apply H; right; exact X). reflexivity.
Qed.
Lemma loose_kwargs_none kwargs : forall t, In None (map kw_arg kwargs) -> loose_kwargs kwargs t = None.
Proof.
  induction kwargs as [|n r IH]; intros t H; [destruct H|]. cbn [loose_kwargs]. cbn [map] in H.
  destruct (kw_arg n) as [k|] eqn:K; [|reflexivity]. apply IH. destruct H as [H|H]; [discriminate|exact H].
Qed.
Lemma parse_loosely_bound e args kwargs :
  (List.length args <= List.length (args_list e))%nat -> ~ In None (map kw_arg kwargs) ->
  NoDup (map fst (bindings (args_list e) args kwargs)) ->
  parse_loosely e args kwargs = Bound (bindings (args_list e) args kwargs).
Proof.
  intros L S N. unfold parse_loosely. rewrite (proj2 (Nat.ltb_ge _ _) L).
  rewrite loose_args_binds, loose_kwargs_binds by exact S. rewrite <- binds_app.
  f_equal. apply (binds_nodup _ []). exact N.
Qed.

(** ** Generic code of entries that only drop names *)
Lemma only_drops_names e unuse k : only_drops e ->
  new_names e unuse k = if key_in k (map fst (kwargs_change e) ++ unuse)%list then [] else [k].
Proof.
  intros [D _]. destruct k as [x|]; [|reflexivity]. cbn [new_names key_in].
  assert (M : mem_str x (map fst (kwargs_change e) ++ unuse)%list = mem_str x (map fst (kwargs_change e)) || mem_str x unuse)
    by (unfold mem_str; apply existsb_app).
  rewrite M. clear M. destruct (dget String.eqb x (kwargs_change e)) as [t|] eqn:G.
  - apply (dget_some_in _ String.eqb_spec) in G.
    assert (K : mem_str x (map fst (kwargs_change e)) = true)
      by (apply mem_str_In, in_map_iff; exists (x, t); auto).
    rewrite K. rewrite (D _ _ G). reflexivity.
  - apply (dget_none_iff _ String.eqb_spec) in G. apply mem_str_false in G. unfold dkeys in G. rewrite G.
    destruct (mem_str x unuse); reflexivity.
Qed.
Lemma only_drops_renamed e t : only_drops e ->
  renamed e generic_unused t = without_names (dropped_names e) t.
Proof.
  intros D. unfold renamed, without_names, dropped_names. induction t as [|[k v] t IH]; [reflexivity|].
  cbn [flat_map filter fst snd]. rewrite (only_drops_names e _ k D). fold generic_unused.
  destruct (key_in k _); cbn [negb map app]; rewrite IH; reflexivity.
Qed.
Lemma only_drops_special e : only_drops e ->
  special_names e = ["dtype"; "pin_memory"; "requires_grad"; "out"].
Proof.
  intros [D _]. unfold special_names.
  assert (X : forall n, existsb (fun kv : string * target => match snd kv with TName m => String.eqb n m | _ => false end)
                          (kwargs_change e) = false).
  { intros n. destruct (existsb _ _) eqn:E; [|reflexivity]. apply existsb_exists in E as ([k t] & H & E).
    rewrite (D _ _ H) in E. discriminate. }
  cbn [filter]. rewrite !X. reflexivity.
Qed.
Lemma only_drops_generic e api fresh t :
  only_drops e -> NoDup (map fst t) -> ordinary t ->
  generic_code e api fresh t = call api (map keyword_text (without_names (dropped_names e) t)).
Proof.
  intros D N O.
  assert (R : change_kwargs e generic_unused t = without_names (dropped_names e) t).
  { rewrite <- only_drops_renamed by exact D. unfold change_kwargs.
    apply (change_kwargs_exact_from e generic_unused t []). cbn [dkeys map app].
    assert (T : forall k, touched e generic_unused k = [k] \/ touched e generic_unused k = []).
    { intros k. destruct (touched_none_or_eq e generic_unused k) as [E|[E (y & Ey)]].
      - rewrite <- E, only_drops_names by exact D. destruct (key_in _ _); auto.
      - unfold touched in Ey |- *. destruct k as [z|]; [|left; reflexivity].
        destruct (dget String.eqb z (kwargs_change e)) eqn:G; [|left; reflexivity].
        rewrite E in Ey. discriminate. }
    clear O. induction t as [|[k v] t IH]; [constructor|]. cbn [flat_map fst]. cbn [map fst] in N.
    inversion N as [|? ? N1 N2]; subst. destruct (T k) as [-> | ->]; cbn [app]; [|apply IH, N2].
    constructor; [|apply IH, N2]. intros H. apply N1. apply in_flat_map in H as ([k' v'] & H' & H). cbn [fst] in H.
    destruct (T k') as [X|X]; rewrite X in H; [|destruct H]. destruct H as [<-|[]]. apply (in_map fst) in H'. exact H'. }
  assert (U : set_paddle_default_kwargs e (change_kwargs e generic_unused t) = without_names (dropped_names e) t).
  { unfold set_paddle_default_kwargs. rewrite (proj2 D), R. reflexivity. }
  assert (NU : NoDup (dkeys (without_names (dropped_names e) t))) by (apply filter_keys_nodup, N).
  rewrite generic_exact by (rewrite U; exact NU). rewrite U. unfold generic_text.
  rewrite only_drops_special by exact D.
  assert (V : forall n, In n ["dtype"; "pin_memory"; "requires_grad"; "out"] ->
              value_of (without_names (dropped_names e) t) n = None).
  { intros n Hn. rewrite value_of_dget. apply (dget_none_iff _ key_eqb_spec). intros H.
    apply (O n Hn). unfold dkeys, without_names in H. apply in_map_iff in H as (kv & E & H).
    apply filter_In in H as [H _]. rewrite <- E. apply in_map, H. }
  cbn [mem_str existsb String.eqb Ascii.eqb Bool.eqb orb].
  rewrite !V by (cbn [In]; auto). cbv zeta. cbn [append].
  rewrite !app_nil_r_s. f_equal. f_equal. 
  assert (F : forall l : table, (forall kv, In kv l -> key_in (fst kv) ["dtype"; "pin_memory"; "requires_grad"; "out"] = false) ->
     filter (fun kv => negb (key_in (fst kv) ["dtype"; "pin_memory"; "requires_grad"; "out"])) l = l).
  { induction l as [|x l IH]; intros H; [reflexivity|]. cbn [filter]. rewrite H by (left; reflexivity). cbn [negb].
    rewrite IH; [reflexivity|]. intros kv Hk. apply H. right. exact Hk. }
  apply F. intros [k v] Hk. cbn [fst]. destruct k as [k|]; [|reflexivity].
  destruct (key_in (Some k) _) eqn:E; [|reflexivity]. exfalso. cbn [key_in] in E. apply mem_str_In in E.
  apply (O k E). unfold without_names in Hk. apply filter_In in Hk as [Hk _]. apply (in_map fst) in Hk. exact Hk.
Qed.

(** ** Chosen weights *)
Lemma key_eqb_sym a b : key_eqb a b = key_eqb b a.
Proof. destruct (key_eqb_spec a b), (key_eqb_spec b a); congruence. Qed.
Lemma dset_with (b : table) k (v : string) : NoDup (map fst b) ->
  dset key_eqb (Some k) v b =
  if existsb (fun kv => key_eqb (fst kv) (Some k)) b
  then map (fun kv => if key_eqb (fst kv) (Some k) then (fst kv, v) else kv) b
  else (b ++ [(Some k, v)])%list.
Proof.
  intros N. induction b as [|[x w] b IH]; [reflexivity|]. cbn [map fst] in N. inversion N as [|? ? N1 N2]; subst.
  cbn [dset existsb map fst app]. rewrite (key_eqb_sym x (Some k)).
  destruct (key_eqb_spec (Some k) x) as [<-|NE]; cbn [orb].
  - f_equal. transitivity (map (fun kv : key * string => kv) b); [symmetry; apply map_id|].
    apply map_ext_in. intros [y u] Hy. cbn [fst]. destruct (key_eqb_spec y (Some k)) as [->|]; [|reflexivity].
    exfalso. apply N1. apply (in_map fst) in Hy. exact Hy.
  - rewrite (IH N2). destruct (existsb _ b); reflexivity.
Qed.
Lemma chosen_exact (b : table) : NoDup (map fst b) ->
  (match dget key_eqb (Some "weights") b with
   | Some w => negb (String.eqb w "") && negb (String.eqb w "None")
   | None => false
   end) = chooses_weights b.
Proof.
  intros N. induction b as [|[x w] b IH]; [reflexivity|]. cbn [map fst] in N. inversion N as [|? ? N1 N2]; subst.
  unfold chooses_weights. cbn [dget existsb fst snd]. fold (chooses_weights b).
  rewrite (key_eqb_sym x (Some "weights")).
  destruct (key_eqb_spec (Some "weights") x) as [<-|NE]; cbn [andb orb]; [|apply IH, N2].
  assert (F : chooses_weights b = false).
  { unfold chooses_weights. destruct (existsb _ b) eqn:E; [|reflexivity]. apply existsb_exists in E as ([y u] & Hy & E).
    cbn [fst] in E. destruct (key_eqb_spec y (Some "weights")) as [->|]; [|discriminate].
    exfalso. apply N1. apply (in_map fst) in Hy. exact Hy. }
  rewrite F, orb_false_r. apply andb_comm.
Qed.

(** The tables of two calls that differ in the chosen weights only. *)
Definition chosen_text (w : string) : Prop := w <> "" /\ w <> "None".
Definition same_but_weights (a b : key * string) : Prop :=
  fst a = fst b /\ (snd a = snd b \/ fst a = Some "weights" /\ chosen_text (snd a) /\ chosen_text (snd b)).
Lemma same_dset k v a b : Forall2 same_but_weights a b ->
  Forall2 same_but_weights (dset key_eqb k v a) (dset key_eqb k v b).
Proof.
  induction 1 as [|[x w] [y u] a b [E D] H IH]; cbn [dset].
  - constructor; [split; auto|constructor].
  - cbn [fst] in E. subst y. destruct (key_eqb k x).
    + constructor; [split; auto|exact H].
    + constructor; [split; auto|exact IH].
Qed.
Lemma same_loose_args names : forall args a b, Forall2 same_but_weights a b ->
  Forall2 same_but_weights (loose_args names args a) (loose_args names args b).
Proof.
  induction names as [|k ns IH]; intros [|x r] a b H; cbn [loose_args]; try exact H.
  apply IH, same_dset, H.
Qed.
Lemma same_loose_kwargs kwargs : forall a b, Forall2 same_but_weights a b ->
  match loose_kwargs kwargs a, loose_kwargs kwargs b with
  | Some x, Some y => Forall2 same_but_weights x y
  | None, None => True
  | _, _ => False
  end.
Proof.
  induction kwargs as [|n r IH]; intros a b H; cbn [loose_kwargs]; [exact H|].
  destruct (kw_arg n); [|exact I]. apply IH, same_dset, H.
Qed.
Lemma same_get a b : Forall2 same_but_weights a b ->
  match dget key_eqb (Some "weights") a, dget key_eqb (Some "weights") b with
  | Some x, Some y => x = y \/ chosen_text x /\ chosen_text y
  | None, None => True
  | _, _ => False
  end.
Proof.
  induction 1 as [|[x w] [y u] a b [E D] H IH]; cbn [dget]; [exact I|]. cbn [fst snd] in *. subst y.
  destruct (key_eqb (Some "weights") x); [|exact IH]. destruct D as [->|(_ & A & B)]; auto.
Qed.
Lemma same_del a b : Forall2 same_but_weights a b -> NoDup (map fst a) ->
  ddel key_eqb (Some "weights") a = ddel key_eqb (Some "weights") b.
Proof.
  induction 1 as [|[x w] [y u] a b [E D] H IH]; intros N; cbn [ddel]; [reflexivity|]. cbn [fst snd] in *. subst y.
  cbn [map fst] in N. inversion N as [|? ? N1 N2]; subst.
  destruct (key_eqb_spec (Some "weights") x) as [<-|NE].
  - clear IH N N2 D. revert N1. induction H as [|[x w'] [y u'] a b [E D] H IH]; intros N1; [reflexivity|].
    cbn [fst snd] in *. subst y. cbn [map fst In] in N1. destruct D as [->|(K & _)]; [|exfalso; apply N1; left; exact K].
    f_equal. apply IH. intros X. apply N1. right. exact X.
  - rewrite IH by exact N2. destruct D as [->|(K & _)]; [reflexivity|congruence].
Qed.
Lemma loose_args_nodup names : forall args t, NoDup (dkeys t) -> NoDup (dkeys (loose_args names args t)).
Proof.
  induction names as [|k ns IH]; intros [|x r] t H; cbn [loose_args]; try exact H.
  apply IH, (dset_nodup _ key_eqb_spec), H.
Qed.
Lemma loose_kwargs_nodup kwargs : forall t t', NoDup (dkeys t) -> loose_kwargs kwargs t = Some t' -> NoDup (dkeys t').
Proof.
  induction kwargs as [|n r IH]; intros t t' H E; cbn [loose_kwargs] in E; [congruence|].
  destruct (kw_arg n); [|discriminate]. eapply IH; [|exact E]. apply (dset_nodup _ key_eqb_spec), H.
Qed.
Lemma weights_same e api fresh a b : Forall2 same_but_weights a b -> NoDup (dkeys a) ->
  weights_code e api fresh a = weights_code e api fresh b.
Proof.
  intros S N. unfold weights_code, weights_table. pose proof (same_get a b S) as G.
  assert (M : dmem key_eqb (Some "weights") a = dmem key_eqb (Some "weights") b).
  { unfold dmem. destruct (dget _ _ a), (dget _ _ b); try reflexivity; destruct G. }
  rewrite <- M.
  assert (C : match dget key_eqb (Some "weights") a with
              | Some w => negb (String.eqb w "") && negb (String.eqb w "None") | None => false end =
              match dget key_eqb (Some "weights") b with
              | Some w => negb (String.eqb w "") && negb (String.eqb w "None") | None => false end).
  { destruct (dget _ _ a) as [x|], (dget _ _ b) as [y|]; try reflexivity; try destruct G.
    - subst. reflexivity.
    - destruct H as [[A1 A2] [B1 B2]].
      destruct (String.eqb_spec x ""), (String.eqb_spec y ""), (String.eqb_spec x "None"), (String.eqb_spec y "None"); congruence || reflexivity. }
  rewrite C.
  assert (T : (if dmem key_eqb (Some "weights") a then ddel key_eqb (Some "weights") a else a) =
              (if dmem key_eqb (Some "weights") a then ddel key_eqb (Some "weights") b else b)).
  { destruct (dmem key_eqb (Some "weights") a) eqn:D; [apply same_del; assumption|].
    apply (dmem_false _ key_eqb_spec) in D. clear -S D.
    induction S as [|[x w] [y u] a b [E Q] S IH]; [reflexivity|]. cbn [fst snd dkeys map In] in *. subst y.
    destruct Q as [->|(K & _)]; [|exfalso; apply D; left; exact K]. f_equal. apply IH. intros X. apply D. right. exact X. }
  rewrite T. reflexivity.
Qed.

(** ** Keyword tables *)
Definition kw_table (kwargs : list kwnode) : table := map (fun n => (kw_arg n, text (kw_value n))) kwargs.
Lemma kw_table_keys kwargs : map fst (kw_table kwargs) = map kw_arg kwargs.
Proof. unfold kw_table. rewrite map_map. reflexivity. Qed.
Lemma parse_kwargs_exact e an kwargs :
  unsupport_args e = [] -> NoDup (map kw_arg kwargs) -> (an = false -> ~ In None (map kw_arg kwargs)) ->
  parse_kwargs e an kwargs = Some (kw_table kwargs).
Proof.
  intros U N S. unfold parse_kwargs.
  assert (G : forall l t, (an = false -> ~ In None (map kw_arg l)) ->
     parse_kwargs_from e an l t = Some (binds (kw_table l) t)).
  { clear N S kwargs. induction l as [|n l IH]; intros t S; [reflexivity|]. cbn [parse_kwargs_from].
    rewrite U. assert (K : key_in (kw_arg n) [] = false) by (destruct (kw_arg n); reflexivity). rewrite K.
    assert (Q : match kw_arg n with Some _ => false | None => negb an end = false).
    { destruct (kw_arg n) eqn:E; [reflexivity|]. destruct an; [reflexivity|]. exfalso. apply (S eq_refl). left. exact E. }
    rewrite Q. rewrite IH; [reflexivity|]. intros A X. apply (S A). right. exact X. }
  rewrite G by exact S. f_equal. apply (binds_nodup _ []). cbn [dkeys map app]. rewrite kw_table_keys. exact N.
Qed.
Lemma parse_kwargs_star e kwargs : In None (map kw_arg kwargs) -> parse_kwargs e false kwargs = None.
Proof.
  intros H. unfold parse_kwargs.
  assert (G : forall l t, In None (map kw_arg l) -> parse_kwargs_from e false l t = None).
  { clear H kwargs. induction l as [|n l IH]; intros t H; [destruct H|]. cbn [parse_kwargs_from]. cbn [map] in H.
    destruct (kw_arg n) eqn:K; cbn [negb]; [|reflexivity]. destruct (key_in _ _); [reflexivity|].
    apply IH. destruct H as [H|H]; [discriminate|exact H]. }
  apply G, H.
Qed.
Lemma star_written kwargs : map kw_star (kw_table kwargs) = map written kwargs.
Proof. unfold kw_table. rewrite map_map. apply map_ext. intros n. reflexivity. Qed.
Lemma kw_table_get k kwargs : dget key_eqb (Some k) (kw_table kwargs) =
  match find (named_in [k]) kwargs with Some n => Some (text (kw_value n)) | None => None end.
Proof.
  induction kwargs as [|n l IH]; [reflexivity|]. cbn [kw_table map dget find]. fold (kw_table l).
  assert (E : named_in [k] n = key_eqb (Some k) (kw_arg n)).
  { unfold named_in. destruct (kw_arg n) as [x|]; [|reflexivity]. cbn [mem_str existsb key_eqb].
    rewrite orb_false_r, String.eqb_sym. reflexivity. }
  rewrite E. destruct (key_eqb _ _); [reflexivity|exact IH].
Qed.
Lemma kw_table_filter l kwargs :
  filter (fun kv => negb (key_in (fst kv) l)) (kw_table kwargs) = kw_table (filter (fun n => negb (named_in l n)) kwargs).
Proof.
  induction kwargs as [|n r IH]; [reflexivity|]. cbn [kw_table map filter fst]. fold (kw_table r).
  assert (E : key_in (kw_arg n) l = named_in l n) by (unfold named_in; destruct (kw_arg n); reflexivity).
  rewrite E, IH. destruct (named_in l n); reflexivity.
Qed.
Lemma rename_key_exact old new v kwargs : NoDup (map kw_arg kwargs) -> old <> new ->
  ~ In (Some new) (map kw_arg kwargs) ->
  rename_key old new v (kw_table kwargs) =
  (kw_table (filter (fun n => negb (named_in [old] n)) kwargs) ++ [(Some new, v)])%list.
Proof.
  intros N NE F. unfold rename_key. rewrite <- kw_table_keys in N, F.
  rewrite (ddel_filter _ key_eqb_spec) by exact N. rewrite <- kw_table_filter.
  assert (E : filter (fun kv => negb (key_eqb (Some old) (fst kv))) (kw_table kwargs) =
              filter (fun kv => negb (key_in (fst kv) [old])) (kw_table kwargs)).
  { apply filter_ext. intros [[x|] w]; cbn [fst key_eqb key_in mem_str existsb]; [|reflexivity].
    rewrite orb_false_r, String.eqb_sym. reflexivity. }
  rewrite E. apply (dset_fresh _ key_eqb_spec). apply (dget_none_iff _ key_eqb_spec). intros H. apply F.
  unfold dkeys in H. apply in_map_iff in H as (kv & K & H). apply filter_In in H as [H _]. rewrite <- K. apply in_map, H.
Qed.
Lemma chain_concat rest : forall first,
  fold_left (fun code arg => code ++ " @ " ++ arg) rest first = String.concat " @ " (first :: rest).
Proof.
  induction rest as [|x l IH]; intros first; [reflexivity|]. cbn [fold_left]. rewrite IH.
  destruct l as [|y l]; [reflexivity|].
  change (String.concat " @ " ((first ++ " @ " ++ x) :: y :: l)) with ((first ++ " @ " ++ x) ++ " @ " ++ String.concat " @ " (y :: l)).
  change (String.concat " @ " (first :: x :: y :: l)) with (first ++ " @ " ++ (x ++ " @ " ++ String.concat " @ " (y :: l))).
  rewrite !app_assoc_s. reflexivity.
Qed.

(** ** The split helper *)
Lemma repeat_eq_length {A} (x y : A) n m : repeat x n = repeat y m -> n = m.
Proof. intros H. apply (f_equal (@List.length A)) in H. rewrite !repeat_length in H. exact H. Qed.
Lemma split_exact n size : (0 < n)%nat -> (0 < size)%nat ->
  (helper_split_sizes n size = Ok (torch_split_sizes n size) <-> (n mod size = 0)%nat).
Proof.
  intros Hn Hs. unfold helper_split_sizes, torch_split_sizes. destruct size as [|size]; [lia|].
  set (s := S size) in *. pose proof (Nat.div_mod n s ltac:(lia)) as DM.
  pose proof (Nat.mod_upper_bound n s ltac:(lia)) as MB. split.
  - intros H. destruct (n mod s =? 0)%nat eqn:Z; [apply Nat.eqb_eq, Z|]. exfalso.
    destruct (n / s =? 0)%nat eqn:Q; [discriminate|].
    destruct (n mod (n / s) =? 0)%nat eqn:R; [|discriminate].
    injection H as H. apply (f_equal (@List.length nat)) in H. rewrite app_length, !repeat_length in H. cbn in H. lia.
  - intros Z. rewrite Z. cbn [Nat.eqb]. rewrite app_nil_r.
    assert (Q : n = (s * (n / s))%nat) by lia.
    assert (P : (n / s <> 0)%nat) by (intros E; rewrite E in Q; lia).
    destruct (n / s =? 0)%nat eqn:E; [apply Nat.eqb_eq in E; contradiction|].
    assert (M : (n mod (n / s) = 0)%nat). { rewrite Q at 1. apply Nat.mod_mul. exact P. }
    rewrite M. cbn [Nat.eqb].
    assert (D : (n / (n / s) = s)%nat). { rewrite Q at 1. apply Nat.div_mul. exact P. }
    rewrite D. reflexivity.
Qed.

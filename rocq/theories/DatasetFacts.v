(** Facts for C139: what the matchers of data sets do with any dictionary of arguments. *)
From Verif Require Import PyStr PyStrFacts PyDict PyDictFacts Ast Args ArgsFacts UtilsFile TablesData Generate GenerateData GenerateRows FlagSpec FlagFacts DatasetSpec.
Opaque g_GenericMatcher.


Section D.
Context {V : Type}.
Notation dict' := (dict string V).
Lemma hit k (v : V) r : dget String.eqb k ((k, v) :: r) = Some v. Proof. cbn. rewrite String.eqb_refl. reflexivity. Qed.
Lemma miss k k' (v : V) r o : String.eqb k k' = false -> dget String.eqb k r = o -> dget String.eqb k ((k', v) :: r) = o. Proof. cbn. intros -> H. exact H. Qed.
Lemma put_hit k (v w : V) r : dset String.eqb k w ((k, v) :: r) = (k, w) :: r. Proof. cbn. rewrite String.eqb_refl. reflexivity. Qed.
Lemma put_miss k k' (v w : V) r r' : String.eqb k k' = false -> dset String.eqb k w r = r' -> dset String.eqb k w ((k', v) :: r) = (k', v) :: r'. Proof. cbn. intros -> <-. reflexivity. Qed.
Lemma put_new k (w : V) : dset String.eqb k w [] = [(k, w)]. Proof. reflexivity. Qed.
Lemma get_put k (v : V) (d : dict') : dget String.eqb k (dset String.eqb k v d) = Some v. Proof. apply dget_set_same. apply String.eqb_spec. Qed.
Lemma get_put_other k k' (v : V) (d : dict') o : String.eqb k k' = false -> dget String.eqb k d = o -> dget String.eqb k (dset String.eqb k' v d) = o.
Proof. intros N <-. apply String.eqb_neq in N. apply dget_set_other; [apply String.eqb_spec|congruence]. Qed.
Lemma get_out_other k k' (d : dict') o : String.eqb k k' = false -> dget String.eqb k d = o -> dget String.eqb k (ddel String.eqb k' d) = o.
Proof. intros N <-. apply String.eqb_neq in N. apply ddel_get_other; [apply String.eqb_spec|congruence]. Qed.
Lemma get_out k (d : dict') : NoDup (dkeys d) -> dget String.eqb k (ddel String.eqb k d) = None.
Proof. apply ddel_get_same. apply String.eqb_spec. Qed.
Lemma mem_yes k (d : dict') v : dget String.eqb k d = Some v -> dmem String.eqb k d = true. Proof. unfold dmem. intros ->. reflexivity. Qed.
Lemma mem_no k (d : dict') : dget String.eqb k d = None -> dmem String.eqb k d = false. Proof. unfold dmem. intros ->. reflexivity. Qed.
End D.
(** Rules for single steps. *)
Section S.
Variable c : ctx.
Variables (vs : dict string value) (ds : dict string kwdict) (r : option rope) (i : ids) (u : bool).
Notation S0 := (MkState vs ds r i u).
Lemma r_lit t : eval c (ELit t) S0 = Ret (Text (lit t), S0). Proof. reflexivity. Qed.
Lemma r_var x v : dget String.eqb x vs = Some v -> eval c (EVar x) S0 = Ret (v, S0). Proof. intros H. rewrite ev_var. cbn [vars]. rewrite H. reflexivity. Qed.
Lemma r_get d k w x : dget String.eqb d ds = Some w -> dget String.eqb k w = Some x -> eval c (EGet d k) S0 = Ret (Text x, S0).
Proof. intros G H. rewrite ev_get. unfold get_dict. cbn [dicts]. rewrite G, then_ret, H. reflexivity. Qed.
Lemma r_pop d k w x ds' : dget String.eqb d ds = Some w -> dget String.eqb k w = Some x -> dset String.eqb d (ddel String.eqb k w) ds = ds' -> eval c (EPop d k) S0 = Ret (Text x, MkState vs ds' r i u).
Proof. intros G H <-. rewrite ev_pop. unfold get_dict. cbn [dicts]. rewrite G, then_ret, H. reflexivity. Qed.
Lemma r_popor d k t w x ds' : dget String.eqb d ds = Some w -> dget String.eqb k w = Some x -> dset String.eqb d (ddel String.eqb k w) ds = ds' -> eval c (EPopOr d k (ELit t)) S0 = Ret (Text x, MkState vs ds' r i u).
Proof. intros G H <-. rewrite ev_popor, ev_lit, then_ret. unfold get_dict. cbn [dicts]. rewrite G, then_ret, H. reflexivity. Qed.
Lemma r_popor_none d k t w : dget String.eqb d ds = Some w -> dget String.eqb k w = None -> eval c (EPopOr d k (ELit t)) S0 = Ret (Text (lit t), S0).
Proof. intros G H. rewrite ev_popor, ev_lit, then_ret. unfold get_dict. cbn [dicts]. rewrite G, then_ret, H. reflexivity. Qed.
Lemma r_in d k w b : dget String.eqb d ds = Some w -> dmem String.eqb k w = b -> eval c (EIn k d) S0 = Ret (Bool b, S0). Proof. intros G <-. rewrite ev_in. unfold get_dict. cbn [dicts]. rewrite G. reflexivity. Qed.
Lemma r_kwargs d w : dget String.eqb d ds = Some w -> eval c (EKwargs d) S0 = Ret (Text (join_kwargs w), S0).
Proof. intros G. change (eval c (EKwargs d) S0) with (run* v := get_dict d S0 in Ret (Text (join_kwargs v), S0)). unfold get_dict. cbn [dicts]. rewrite G. reflexivity. Qed.
Lemma r_api v : get_paddle_api c S0 = Ret v -> eval c EApi S0 = Ret (v, S0). Proof. intros G. change (eval c EApi S0) with (run* v := get_paddle_api c S0 in Ret (v, S0)). rewrite G. reflexivity. Qed.
Lemma r_let x e s v vs' : eval c e s = Ret (v, S0) -> dset String.eqb x v vs = vs' -> step c (SLet x e) s = Ret (None, MkState vs' ds r i u). Proof. intros A <-. rewrite st_let, A. reflexivity. Qed.
Lemma r_set d k e s v w x ds' : eval c e s = Ret (v, S0) -> dget String.eqb d ds = Some w -> show v = x -> dset String.eqb d (dset String.eqb k x w) ds = ds' -> step c (SSet d k e) s = Ret (None, MkState vs ds' r i u).
Proof. intros A B <- <-. rewrite st_set, A, then_ret. unfold get_dict. cbn [dicts]. rewrite B. reflexivity. Qed.
Lemma r_new d ds' : dset String.eqb d [] ds = ds' -> step c (SNew d) S0 = Ret (None, MkState vs ds' r i u). Proof. intros <-. reflexivity. Qed.
Lemma r_update d e v w ds' : dget String.eqb d ds = Some v -> dget String.eqb e ds = Some w -> dset String.eqb d (dupdate String.eqb v w) ds = ds' -> step c (SUpdate d e) S0 = Ret (None, MkState vs ds' r i u).
Proof. intros A B <-. change (step c (SUpdate d e) S0) with (run* v := get_dict d S0 in run* w := get_dict e S0 in Ret (@None value, upd_dict d (dupdate String.eqb v w) S0)). unfold get_dict. cbn [dicts]. rewrite A, B. reflexivity. Qed.
Lemma r_change d e l w ds' : dget String.eqb e ds = Some w -> dset String.eqb d (change_rope (row_of c) l w) ds = ds' -> step c (SChange d e l) S0 = Ret (None, MkState vs ds' r i u).
Proof. intros A <-. change (step c (SChange d e l) S0) with (run* v := get_dict e S0 in Ret (@None value, upd_dict d (change_rope (row_of c) l v) S0)). unfold get_dict. cbn [dicts]. rewrite A. reflexivity. Qed.
Lemma r_defaults d w ds' : dget String.eqb d ds = Some w -> dset String.eqb d (add_missing w (default_ropes (row_of c))) ds = ds' -> step c (SDefaults d) S0 = Ret (None, MkState vs ds' r i u).
Proof. intros A <-. change (step c (SDefaults d) S0) with (run* v := get_dict d S0 in Ret (@None value, upd_dict d (add_missing v (default_ropes (row_of c))) S0)). unfold get_dict. cbn [dicts]. rewrite A. reflexivity. Qed.
Lemma r_choose_var x a b w o : dget String.eqb x vs = Some (Text w) -> String.eqb (render w) "" = false -> exec c a S0 = o -> step c (SIf (EVar x) a b) S0 = o.
Proof. intros A B <-. rewrite st_if, (r_var _ _ A), then_ret. cbn [truth]. rewrite B. reflexivity. Qed.
Lemma r_choose_bool x a b (w : bool) o : dget String.eqb x vs = Some (Bool w) -> exec c (if w then a else b) S0 = o -> step c (SIf (EVar x) a b) S0 = o.
Proof. intros A <-. rewrite st_if, (r_var _ _ A), then_ret. reflexivity. Qed.
Lemma r_none : eval c ENone S0 = Ret (NoneV, S0). Proof. reflexivity. Qed.
Lemma r_bool b : eval c (EBool b) S0 = Ret (Bool b, S0). Proof. reflexivity. Qed.
Lemma r_utils : step c SUtils S0 = Ret (None, MkState vs ds r i true). Proof. reflexivity. Qed.
End S.
Section T.
Variable c : ctx.
Lemma r_format t l s s1 s2 w vs r : eval c t s = Ret (w, s1) -> evals c l s1 = Ret (vs, s2) -> format w vs = Ret r -> eval c (EFormat t l) s = Ret (Text r, s2).
Proof. intros A B D. rewrite ev_format, A, then_ret, B, then_ret, D. reflexivity. Qed.
Lemma r_test t a s s1 r b : eval c a s = Ret (Text r, s1) -> run_test t (render r) = b -> eval c (ETest t a) s = Ret (Bool b, s1). Proof. intros G <-. rewrite ev_test, G. reflexivity. Qed.
Lemma r_not_yes a s s1 : eval c a s = Ret (Bool false, s1) -> eval c (ENot a) s = Ret (Bool true, s1).
Proof. intros A. change (eval c (ENot a) s) with (run* (v, s) := eval c a s in Ret (Bool (negb (truth v)), s)). rewrite A. reflexivity. Qed.
Lemma r_not_no a s s1 : eval c a s = Ret (Bool true, s1) -> eval c (ENot a) s = Ret (Bool false, s1).
Proof. intros A. change (eval c (ENot a) s) with (run* (v, s) := eval c a s in Ret (Bool (negb (truth v)), s)). rewrite A. reflexivity. Qed.
Lemma r_and a b s s1 o : eval c a s = Ret (Bool true, s1) -> eval c b s1 = o -> eval c (EAnd a b) s = o.
Proof. intros A <-. rewrite ev_and, A. reflexivity. Qed.
Lemma r_and_no a b s s1 : eval c a s = Ret (Bool false, s1) -> eval c (EAnd a b) s = Ret (Bool false, s1).
Proof. intros A. rewrite ev_and, A. reflexivity. Qed.
Lemma r_cat a b s s1 s2 x y : eval c a s = Ret (Text x, s1) -> eval c b s1 = Ret (Text y, s2) -> eval c (ECat a b) s = Ret (Text (x ++ y)%list, s2).
Proof. intros A B. rewrite ev_cat, A, then_ret, B. reflexivity. Qed.
Lemma r_if_yes x a b s s1 o : eval c x s = Ret (Bool true, s1) -> eval c a s1 = o -> eval c (EIf x a b) s = o.
Proof. intros A D. change (eval c (EIf x a b) s) with (run* (v, s) := eval c x s in if truth v then eval c a s else eval c b s). rewrite A, then_ret. exact D. Qed.
Lemma r_if_no x a b s s1 o : eval c x s = Ret (Bool false, s1) -> eval c b s1 = o -> eval c (EIf x a b) s = o.
Proof. intros A D. change (eval c (EIf x a b) s) with (run* (v, s) := eval c x s in if truth v then eval c a s else eval c b s). rewrite A, then_ret. exact D. Qed.
Lemma r_str f a s s1 r : eval c a s = Ret (Text r, s1) -> eval c (EStr f a) s = Ret (Text [MkPiece (origins r) (edit_text f (render r))], s1).
Proof. intros A. change (eval c (EStr f a) s) with (run* (v, s) := eval c a s in match v with Text r => Ret (Text [MkPiece (origins r) (edit_text f (render r))], s) | _ => Fail "AttributeError" end). rewrite A. reflexivity. Qed.
Lemma r_nil s : evals c Nil s = Ret ([], s). Proof. reflexivity. Qed.
Lemma r_cons e r s s1 s2 v vs : eval c e s = Ret (Text v, s1) -> evals c r s1 = Ret (vs, s2) -> evals c (Cons e r) s = Ret (v :: vs, s2).
Proof. intros A B. rewrite evs_cons, A, then_ret, B. reflexivity. Qed.
Lemma r_choose_yes x a b s s1 o : eval c x s = Ret (Bool true, s1) -> exec c a s1 = o -> step c (SIf x a b) s = o.
Proof. intros A D. rewrite st_if, A, then_ret. exact D. Qed.
Lemma r_choose_no x a b s s1 o : eval c x s = Ret (Bool false, s1) -> exec c b s1 = o -> step c (SIf x a b) s = o.
Proof. intros A D. rewrite st_if, A, then_ret. exact D. Qed.
Lemma r_return e s s1 v r : eval c e s = Ret (v, s1) -> exec c (Seq (SReturn e) r) s = Ret (Some v, s1). Proof. intros A. rewrite ex_seq, st_return, A. reflexivity. Qed.
Lemma r_seq t r s s1 o : step c t s = Ret (None, s1) -> exec c r s1 = o -> exec c (Seq t r) s = o. Proof. intros A B. rewrite ex_seq, A. exact B. Qed.
Lemma r_stop t r s v s1 : step c t s = Ret (Some v, s1) -> exec c (Seq t r) s = Ret (Some v, s1). Proof. intros A. rewrite ex_seq, A. reflexivity. Qed.
Lemma r_done s : exec c Done s = Ret (None, s). Proof. reflexivity. Qed.
End T.
(** Filling a template. *)
Lemma fill_last p args : fill [p] args = Ret [MkPiece [] p]. Proof. reflexivity. Qed.
Lemma fill_more p q ps a l r : fill (q :: ps) l = Ret r -> fill (p :: q :: ps) (a :: l) = Ret (MkPiece [] p :: a ++ r)%list.
Proof. intros H. change (fill (p :: q :: ps) (a :: l)) with (run* r := fill (q :: ps) l in Ret (MkPiece [] p :: a ++ r)%list). rewrite H. reflexivity. Qed.
Lemma format_lit t ps args r : holes t "" = Some ps -> fill ps args = Ret r -> format (Text (lit t)) args = Ret r.
Proof. intros H F. unfold format. change (origins (lit t)) with (@nil source). cbv iota. unfold lit at 1. rewrite render_one, H. exact F. Qed.
Ltac fills := lazymatch goal with
  | |- fill [_] _ = _ => apply fill_last
  | |- _ => eapply fill_more; fills
  end.
(** Looking up in, and adding to, dictionaries of which only some changes are known. *)
Ltac finds := lazymatch goal with
  | |- dget _ _ (_ :: _) = _ => first [apply hit | eapply miss; [reflexivity|finds]]
  | |- dget _ _ (dset _ _ _ _) = _ => first [apply get_put | eapply get_put_other; [reflexivity|finds]]
  | |- dget _ _ (ddel _ _ _) = _ => eapply get_out_other; [reflexivity|finds]
  | |- dget _ _ _ = _ => eassumption
  end.
Ltac puts := first [apply put_new | apply put_hit | eapply put_miss; [reflexivity|puts]].
Ltac says := first [eassumption | reflexivity | match goal with H : forall _, _ |- _ => apply H end].
Ltac opened g := let b := eval cbv [g of_stmts of_exps] in g in let H := fresh in assert (H : g = b) by reflexivity; rewrite H; clear H.
Ltac go :=
  lazymatch goal with
  | |- exec _ (Seq (SReturn _) _) _ = _ => eapply r_return; go
  | |- exec _ (Seq (SIf _ _ _) _) _ = _ => first [eapply r_seq; [go|go] | eapply r_stop; go]
  | |- exec _ (Seq _ _) _ = _ => eapply r_seq; [go|go]
  | |- exec _ Done _ = _ => apply r_done
  | |- step _ (SLet _ _) _ = _ => eapply r_let; [go|puts]
  | |- step _ (SSet _ _ _) _ = _ => eapply r_set; [go|finds|cbn [show]; reflexivity|puts]
  | |- step _ (SUpdate _ _) _ = _ => eapply r_update; [finds|finds|puts]
  | |- step _ (SChange _ _ _) _ = _ => eapply r_change; [finds|puts]
  | |- step _ (SDefaults _) _ = _ => eapply r_defaults; [finds|puts]
  | |- step _ (SIf (EVar _) _ _) _ = _ => first [eapply r_choose_var; [finds|says|go] | eapply r_choose_bool; [finds|cbv iota; go]]
  | |- step _ (SIf _ _ _) _ = _ => first [eapply r_choose_yes; [go|]; go | eapply r_choose_no; [go|]; go]
  | |- step _ (SNew _) _ = _ => eapply r_new; puts
  | |- step _ SUtils _ = _ => apply r_utils
  | |- eval _ (ELit _) _ = _ => apply r_lit
  | |- eval _ (EVar _) _ = _ => eapply r_var; finds
  | |- eval _ (EGet _ _) _ = _ => eapply r_get; [finds|finds]
  | |- eval _ (EPop _ _) _ = _ => eapply r_pop; [finds|finds|puts]
  | |- eval _ (EPopOr _ _ _) _ = _ => first [eapply r_popor; [finds|finds|puts] | eapply r_popor_none; [finds|finds]]
  | |- eval _ (EFormat _ _) _ = _ => eapply r_format; [go|go|eapply format_lit; [vm_compute; reflexivity|fills]]
  | |- eval _ (EIn _ _) _ = Ret (Bool true, _) => eapply r_in; [finds|eapply mem_yes; finds]
  | |- eval _ (EIn _ _) _ = Ret (Bool false, _) => eapply r_in; [finds|eapply mem_no; finds]
  | |- eval _ (ETest _ _) _ = _ => eapply r_test; [go|cbn [run_test]; says]
  | |- eval _ ENone _ = _ => apply r_none
  | |- eval _ (EBool _) _ = _ => apply r_bool
  | |- eval _ (ENot _) _ = Ret (Bool true, _) => eapply r_not_yes; go
  | |- eval _ (ENot _) _ = Ret (Bool false, _) => eapply r_not_no; go
  | |- eval _ (EAnd _ _) _ = Ret (Bool true, _) => eapply r_and; [go|go]
  | |- eval _ (EAnd _ _) _ = Ret (Bool false, _) => first [eapply r_and_no; go | eapply r_and; [go|go]]
  | |- eval _ (EAnd _ _) _ = _ => first [eapply r_and_no; go | eapply r_and; [go|first [eapply r_not_yes; go | eapply r_not_no; go]]]
  | |- eval _ (ECat _ _) _ = _ => eapply r_cat; [go|go]
  | |- eval _ EApi _ = _ => eapply r_api; says
  | |- eval _ (EIf _ _ _) _ = _ => first [eapply r_if_yes; [go|]; go | eapply r_if_no; [go|]; go]
  | |- eval _ (EStr _ _) _ = _ => eapply r_str; go
  | |- eval _ (EKwargs _) _ = _ => eapply r_kwargs; finds
  | |- evals _ Nil _ = _ => apply r_nil
  | |- evals _ (Cons _ _) _ = _ => eapply r_cons; [go|go]
  end.


(** The arguments as texts. *)
Definition texts (d : kwdict) : list (string * string) := map (fun kv => (fst kv, render (snd kv))) d.
Lemma render_cons p l : render (p :: l) = content p ++ render l.
Proof. reflexivity. Qed.
Lemma render_more a b : render (a ++ b)%list = render a ++ render b.
Proof. induction a as [|p a IH]; [reflexivity|]. cbn [List.app]. rewrite !render_cons, IH, app_assoc_s. reflexivity. Qed.
Lemma join_commas d : render (join_kwargs d) = commas (texts d).
Proof.
  induction d as [|[k v] d IH]; [reflexivity|]. cbn [join_kwargs texts map commas fst snd]. rewrite render_cons, render_more. cbn [content].
  destruct d as [|[k' v'] d]; [rewrite app_assoc_s; change (render []) with ""; rewrite app_nil_r_s; reflexivity|].
  rewrite render_cons. cbn [content]. rewrite IH. cbn [texts map]. rewrite !app_assoc_s. reflexivity.
Qed.
Lemma texts_keys d : map fst (texts d) = dkeys d.
Proof. unfold texts, dkeys. rewrite map_map. reflexivity. Qed.
Lemma in_texts d k v : NoDup (dkeys d) -> In (k, v) (texts d) <-> exists r, dget String.eqb k d = Some r /\ render r = v.
Proof.
  intros N. unfold texts. rewrite in_map_iff. split.
  - intros ([k' r] & E & H). cbn [fst snd] in E. injection E as -> <-. exists r. split; [|reflexivity]. revert H. apply (dget_in_nodup _ String.eqb_spec). exact N.
  - intros (r & G & <-). exists (k, r). split; [reflexivity|]. exact (dget_some_in _ String.eqb_spec _ _ _ G).
Qed.

Lemma member_put d k' r k v : NoDup (dkeys d) -> In (k, v) (texts (dset String.eqb k' r d)) <-> (k = k' /\ v = render r) \/ (k <> k' /\ In (k, v) (texts d)).
Proof.
  intros N. rewrite (in_texts _ _ _ (dset_nodup _ String.eqb_spec _ _ _ N)), (in_texts _ _ _ N).
  destruct (String.eqb_spec k k') as [->|D].
  - rewrite get_put. split; [intros (q & E & <-); injection E as <-; left; split; reflexivity|]. intros [[_ ->]|[H _]]; [exists r; split; reflexivity|contradiction].
  - rewrite (dget_set_other _ String.eqb_spec) by congruence. split; [intros H; right; split; assumption|]. intros [[H _]|[_ H]]; [contradiction|exact H].
Qed.
Lemma out_nodup k (d : kwdict) : NoDup (dkeys d) -> NoDup (dkeys (ddel String.eqb k d)).
Proof. apply ddel_nodup. apply String.eqb_spec. Qed.
Lemma put_nodup k v (d : kwdict) : NoDup (dkeys d) -> NoDup (dkeys (dset String.eqb k v d)).
Proof. apply dset_nodup. apply String.eqb_spec. Qed.
Lemma member_out d k' k v : NoDup (dkeys d) -> In (k, v) (texts (ddel String.eqb k' d)) <-> k <> k' /\ In (k, v) (texts d).
Proof.
  intros N. rewrite (in_texts _ _ _ (out_nodup _ _ N)), (in_texts _ _ _ N).
  destruct (String.eqb_spec k k') as [->|D].
  - rewrite get_out by exact N. split; [intros (q & E & _); discriminate|intros [H _]; contradiction].
  - rewrite ddel_get_other; [|apply String.eqb_spec|congruence]. split; [intros H; split; assumption|intros [_ H]; exact H].
Qed.
Lemma member_start t k v : (forall w, ~ In (None, w) t) -> In (k, v) (texts (start t)) <-> In (Some k, v) t.
Proof.
  induction t as [|[a x] t IH]; intros S; [reflexivity|]. rewrite start_cons. destruct a as [a|]; [|exfalso; exact (S x (or_introl eq_refl))].
  cbn [started texts map fst snd In]. rewrite render_one. fold (texts (start t)). rewrite IH by (intros w H; exact (S w (or_intror H))).
  split; (intros [H|H]; [left; injection H as -> ->; reflexivity|right; exact H]).
Qed.
Lemma start_nodup t : NoDup (dkeys t) -> (forall w, ~ In (None, w) t) -> NoDup (dkeys (start t)).
Proof.
  induction t as [|[a x] t IH]; intros N S; [constructor|]. rewrite start_cons. destruct a as [a|]; [|exfalso; exact (S x (or_introl eq_refl))].
  cbn [dkeys map fst started] in *. apply NoDup_cons_iff in N. destruct N as [A N]. constructor; [|apply IH; [exact N|intros w H; exact (S w (or_intror H))]].
  intros H. apply A. clear -H S. unfold dkeys, start in H. rewrite map_map in H. apply in_map_iff in H. destruct H as ([b y] & E & H). cbn [fst snd] in E.
  destruct b as [b|]; cbn [fst] in E; [subst b|exfalso; exact (S y (or_intror H))]. apply in_map_iff. exists (Some a, y). split; [reflexivity|exact H].
Qed.

(** Membership in a changed dictionary. *)
Ltac nodup := lazymatch goal with
  | |- NoDup (dkeys (dset _ _ _ _)) => apply put_nodup; nodup
  | |- NoDup (dkeys (ddel _ _ _)) => apply out_nodup; nodup
  | |- _ => assumption
  end.
Ltac members := repeat first [rewrite member_put by nodup | rewrite member_out by nodup].
(** The text a data set is replaced by. *)
Definition imports_os (api : string) (d : kwdict) : string := String nl "import os" ++ String nl "" ++ call_of api (texts d) ++ String nl "".
Definition stops (o : outcome (option value * state)) (api : string) (d : kwdict) : Prop :=
  exists q s, o = Ret (Some (Text q), s) /\ render q = imports_os api d.
Definition api_known c r (x : string) : Prop := forall vs ds i u, get_paddle_api c (MkState vs ds r i u) = Ret (Text (lit x)).
Lemma stop_text x d : render (MkPiece [] (String nl "import os" ++ String nl "")%string :: lit x ++ MkPiece [] "(" :: join_kwargs d ++ [MkPiece [] (")" ++ String nl "")%string])%list = imports_os x d.
Proof.
  unfold imports_os, call_of. rewrite render_cons, render_more, render_cons, render_more. unfold lit. rewrite !render_one, join_commas. cbn [content].
  rewrite !app_assoc_s. reflexivity.
Qed.
Ltac tx := unfold lit, below; repeat first [rewrite render_more | rewrite render_cons]; cbn [content render];
  rewrite ?app_nil_r_s; repeat rewrite app_assoc_s; reflexivity.
Ltac decide_it := match goal with
  | B : String.eqb ?v "(True)" = true |- decides _ _ _ _ => left; split; [apply String.eqb_eq; exact B|tx]
  | B : String.eqb ?v "(False)" = true |- decides _ _ _ _ => right; left; split; [apply String.eqb_eq; exact B|tx]
  | B : String.eqb ?v "(False)" = false |- decides _ _ _ _ => right; right; tx
  | |- decides _ _ _ _ => left; split; [reflexivity|tx]
  end.
Lemma mnist_runs c d r i u x y w : api_known c r x -> dget String.eqb "root" d = Some y ->
  (match dget String.eqb "train" d with Some v => v | None => lit "(True)" end) = w ->
  exists m a b,
    stops (exec c g_MNISTMatcher (st [] d r i u)) x
      (dset String.eqb "label_path" b (dset String.eqb "image_path" a (ddel String.eqb "root" (dset String.eqb "mode" m (ddel String.eqb "train" d))))) /\
    decides (render w) "'train'" "'test'" (render m) /\
    let name := if contains "FashionMNIST" x then "FashionMNIST" else "MNIST" in
    decides (render w) (below (render y) (name ++ "/raw/train-images-idx3-ubyte.gz")) (below (render y) (name ++ "/raw/t10k-images-idx3-ubyte.gz")) (render a) /\
    decides (render w) (below (render y) (name ++ "/raw/train-labels-idx1-ubyte.gz")) (below (render y) (name ++ "/raw/t10k-labels-idx1-ubyte.gz")) (render b).
Proof.
  intros A R W. unfold api_known in A.
  assert (X : render (lit x) = x) by apply render_one.
  destruct (contains "FashionMNIST" (render (lit x))) eqn:F; rewrite <- X, F;
  destruct (dget String.eqb "train" d) as [v|] eqn:E; subst w;
   [destruct (String.eqb (render v) "(True)") eqn:B; [|destruct (String.eqb (render v) "(False)") eqn:D] | idtac
   |destruct (String.eqb (render v) "(True)") eqn:B; [|destruct (String.eqb (render v) "(False)") eqn:D] | idtac];
  try rewrite (no_del _ _ E);
  (eexists; eexists; eexists; split; [eexists; eexists; split; [opened g_MNISTMatcher; unfold st; go|rewrite X; apply stop_text] | cbv zeta; split; [decide_it|split; decide_it] ]).
Qed.
Lemma cifar_train c d r i u x y v : api_known c r x -> dget String.eqb "root" d = Some y -> dget String.eqb "train" d = Some v ->
  exists m a,
    stops (exec c g_CifarMatcher (st [] d r i u)) x
      (dset String.eqb "mode" m (ddel String.eqb "train" (dset String.eqb "data_file" a (ddel String.eqb "root" d)))) /\
    decides (py_strip (render v)) "'train'" "'test'" (render m) /\
    render a = below (render y) (if contains "Cifar100" x then "cifar-100-python.tar.gz" else "cifar-10-python.tar.gz").
Proof.
  intros A R E. unfold api_known in A. assert (X : render (lit x) = x) by apply render_one.
  assert (Y : forall o, render [MkPiece o (py_strip (render v))] = py_strip (render v)) by (intros; apply render_one).
  destruct (contains "Cifar100" (render (lit x))) eqn:F; rewrite <- X, F;
  (destruct (String.eqb (py_strip (render v)) "(True)") eqn:B; [|destruct (String.eqb (py_strip (render v)) "(False)") eqn:D]);
  try (rewrite <- (Y (origins v)) in B); try (rewrite <- (Y (origins v)) in D);
  (eexists; eexists; split; [eexists; eexists; split; [opened g_CifarMatcher; unfold st; go|rewrite X; apply stop_text] |
    split; [rewrite <- (Y (origins v)); decide_it|tx]]).
Qed.
Lemma cifar_default c d r i u x y : api_known c r x -> dget String.eqb "root" d = Some y -> dget String.eqb "train" d = None ->
  exists a,
    stops (exec c g_CifarMatcher (st [] d r i u)) x (dset String.eqb "data_file" a (ddel String.eqb "root" d)) /\
    render a = below (render y) (if contains "Cifar100" x then "cifar-100-python.tar.gz" else "cifar-10-python.tar.gz").
Proof.
  intros A R E. unfold api_known in A. assert (X : render (lit x) = x) by apply render_one.
  destruct (contains "Cifar100" (render (lit x))) eqn:F; rewrite <- X, F;
  (eexists; split; [eexists; eexists; split; [opened g_CifarMatcher; unfold st; go|rewrite X; apply stop_text] | tx]).
Qed.
Lemma flowers_runs c d r i u x y w : api_known c r x -> dget String.eqb "root" d = Some y ->
  (match dget String.eqb "split" d with Some v => v | None => lit """""""train""""""" end) = w ->
  exists m a b e,
    stops (exec c g_Flowers102Matcher (st [] d r i u)) x
      (dset String.eqb "setid_file" e (dset String.eqb "label_file" b (dset String.eqb "data_file" a (ddel String.eqb "root" (dset String.eqb "mode" m (ddel String.eqb "split" d)))))) /\
    renames (render w) (render m) /\
    render a = below (render y) "flowers-102/102flowers.tgz" /\ render b = below (render y) "flowers-102/imagelabels.mat" /\
    render e = below (render y) "flowers-102/setid.mat".
Proof.
  intros A R W. unfold api_known in A.
  destruct (dget String.eqb "split" d) as [v|] eqn:E; subst w;
   [destruct (String.eqb (render v) """""""val""""""") eqn:B; [|destruct (String.eqb (render v) """""""test""""""") eqn:D; [|destruct (String.eqb (render v) """""""train""""""") eqn:G]] | idtac];
  try rewrite (no_del _ _ E);
  (eexists; eexists; eexists; eexists; split; [eexists; eexists; split; [opened g_Flowers102Matcher; unfold st; go|apply stop_text] | split; [|split; [tx|split; tx]]]).
  - left. split; [apply String.eqb_eq; exact B|reflexivity].
  - right. left. split; [apply String.eqb_eq; exact D|reflexivity].
  - right. right. left. split; [apply String.eqb_eq; exact G|reflexivity].
  - right. right. right. tx.
  - right. right. left. split; reflexivity.
Qed.

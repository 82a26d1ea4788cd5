(** The generated code of the class [GenericMatcher] (Generate.v, GenerateData.v) is the
    code described in Args.v. *)
From Verif Require Import PyStr PyStrFacts PyDict UtilsFile Args ArgsFacts Generate GenerateData.

(** A dictionary of texts under construction, read as a dictionary of texts. *)
Definition keyed (d : kwdict) : table := map (fun kv => (Some (fst kv), render (snd kv))) d.

Lemma render_app a b : render (a ++ b)%list = render a ++ render b.
Proof. induction a as [|p a IH]; [reflexivity|]. cbn [app render]. rewrite IH, app_assoc_s. reflexivity. Qed.
Lemma render_lit s : render (lit s) = s.
Proof. cbn. apply append_nil_r. Qed.
Lemma keyed_get k d : dget key_eqb (Some k) (keyed d) = option_map render (dget String.eqb k d).
Proof. induction d as [|[x v] d IH]; [reflexivity|]. cbn [keyed map dget fst snd key_eqb]. destruct (String.eqb k x); [reflexivity|apply IH]. Qed.
Lemma keyed_mem k d : dmem key_eqb (Some k) (keyed d) = dmem String.eqb k d.
Proof. unfold dmem. rewrite keyed_get. destruct (dget String.eqb k d); reflexivity. Qed.
Lemma keyed_set k v d : keyed (dset String.eqb k v d) = dset key_eqb (Some k) (render v) (keyed d).
Proof.
  induction d as [|[x w] d IH]; [reflexivity|]. cbn [keyed map dset fst snd key_eqb]. destruct (String.eqb k x); [reflexivity|].
  cbn [map fst snd]. change (map _ (dset String.eqb k v d)) with (keyed (dset String.eqb k v d)). rewrite IH. reflexivity.
Qed.
Lemma keyed_del k d : keyed (ddel String.eqb k d) = ddel key_eqb (Some k) (keyed d).
Proof.
  induction d as [|[x w] d IH]; [reflexivity|]. cbn [keyed map ddel fst snd key_eqb]. destruct (String.eqb k x); [reflexivity|].
  cbn [map fst snd]. change (map _ (ddel String.eqb k d)) with (keyed (ddel String.eqb k d)). rewrite IH. reflexivity.
Qed.
Lemma keyed_sets ns v : forall d,
  keyed (fold_left (fun a n => dset String.eqb n v a) ns d) = fold_left (fun a n => dset key_eqb (Some n) (render v) a) ns (keyed d).
Proof. induction ns as [|n ns IH]; intros d; [reflexivity|]. cbn [fold_left]. rewrite IH, keyed_set. reflexivity. Qed.
Lemma keyed_change e unuse d : keyed (change_rope e unuse d) = change_kwargs e unuse (keyed d).
Proof.
  unfold change_rope, change_kwargs. change (@nil (key * string)) with (keyed []). generalize (@nil (string * rope)) as acc.
  induction d as [|[k v] d IH]; intros acc; [reflexivity|]. cbn [fold_left keyed map]. rewrite IH. f_equal.
  cbn [fst snd change_one]. unfold change_names. destruct (dget String.eqb k (kwargs_change e)) as [[|n|ns]|].
  - reflexivity.
  - destruct (String.eqb n ""); [reflexivity|]. apply keyed_set.
  - apply keyed_sets.
  - cbn [key_in]. destruct (mem_str k unuse); [rewrite keyed_del, keyed_set|rewrite keyed_set]; reflexivity.
Qed.
Lemma keyed_defaults e d : keyed (add_missing d (default_ropes e)) = set_paddle_default_kwargs e (keyed d).
Proof.
  unfold add_missing, default_ropes, set_paddle_default_kwargs. revert d. induction (paddle_default_kwargs e) as [|[k v] l IH]; intros d; [reflexivity|].
  cbn [map fold_left fst snd]. rewrite IH. f_equal. rewrite keyed_mem. destruct (dmem String.eqb k d); [reflexivity|]. rewrite keyed_set, render_lit. reflexivity.
Qed.
Lemma keyed_text d : render (join_kwargs d) = kwargs_to_str (keyed d).
Proof.
  unfold kwargs_to_str. induction d as [|[k v] d IH]; [reflexivity|].
  cbn [join_kwargs render content]. rewrite render_app. destruct d as [|[k' v'] d].
  - cbn. rewrite !append_nil_r. rewrite app_assoc_s. reflexivity.
  - cbn [render content]. rewrite IH.
    change (join ", " (map kw_plain (keyed ((k, v) :: (k', v') :: d))))
      with ((k ++ "=" ++ render v) ++ ", " ++ join ", " (map kw_plain (keyed ((k', v') :: d)))).
    rewrite !app_assoc_s. reflexivity.
Qed.
Lemma keyed_start (t : table) : ~ In None (dkeys t) -> keyed (start t) = t.
Proof.
  induction t as [|[k v] t IH]; intros N; [reflexivity|]. cbn [start map fst snd keyed]. f_equal.
  - destruct k as [k|]; [cbn; rewrite append_nil_r; reflexivity|]. exfalso. apply N. left. reflexivity.
  - apply IH. intros I. apply N. right. exact I.
Qed.

(** What [self.get_paddle_api()] prints. *)
Definition api_text (c : ctx) : string :=
  match initial_api c with
  | Some r => if String.eqb (render r) "" then match paddle_api (row_of c) with Some a => a | None => "None" end else render r
  | None => match paddle_api (row_of c) with Some a => a | None => "None" end
  end.
Definition asserts (c : ctx) : bool := strict c && match paddle_api (row_of c) with None => true | Some _ => false end.

Lemma api_value c v d i u :
  match get_paddle_api c (MkState v d (initial_api c) i u) with
  | Ret w => asserts c = false /\ render (show w) = api_text c
  | Fail x => asserts c = true /\ x = "AssertionError"
  end.
Proof.
  unfold get_paddle_api, asserts, api_text. cbn [self_api]. destruct (strict c && _); [split; reflexivity|].
  split; [reflexivity|]. destruct (initial_api c) as [r|].
  - destruct (String.eqb (render r) ""); [|reflexivity]. destruct (paddle_api (row_of c)); [apply render_lit|reflexivity].
  - destruct (paddle_api (row_of c)); [apply render_lit|reflexivity].
Qed.

Definition popped (n : string) (e : entry) (d : kwdict) : option rope * kwdict :=
  if dmem String.eqb n d && negb (is_target n e)
  then (dget String.eqb n d, ddel String.eqb n d) else (None, d).
Lemma popped_keyed n e d : pop_special n e (keyed d) = (option_map render (fst (popped n e d)), keyed (snd (popped n e d))).
Proof.
  unfold pop_special, popped. rewrite keyed_mem. destruct (dmem String.eqb n d && negb (is_target n e)); [|reflexivity].
  cbn [fst snd]. rewrite keyed_get, keyed_del. reflexivity.
Qed.

Lemma dset_twice {V} k (v w : V) d : dset String.eqb k w (dset String.eqb k v d) = dset String.eqb k w d.
Proof.
  induction d as [|[x z] d IH]; cbn [dset]; [rewrite String.eqb_refl; reflexivity|].
  destruct (String.eqb k x) eqn:E; cbn [dset]; rewrite E; [reflexivity|rewrite IH; reflexivity].
Qed.
Lemma mem_get {V} k (d : dict string V) : dmem String.eqb k d = true -> exists r, dget String.eqb k d = Some r.
Proof. unfold dmem. destruct (dget String.eqb k d) as [r|]; [exists r; reflexivity|discriminate]. Qed.

(** One of the four [x = default; if k in kwargs and ..: x = .. kwargs.pop(k) ..]. *)
Definition plainly (r : rope) : rope := r.
Definition negated (r : rope) : rope := (lit "not " ++ [MkPiece (origins r) (edit_text (Strip "()") (render r))])%list.
Definition taken (f : rope -> rope) (init : string) (o : option rope) : value := Text (match o with Some r => f r | None => lit init end).
Lemma pop_runs c x k init E f rest vs d a i u :
  (forall r v, dget String.eqb k d = Some r -> eval c E (MkState v [("kwargs", d)] a i u) = Ret (Text (f r), MkState v [("kwargs", ddel String.eqb k d)] a i u)) ->
  exec c (Seq (SLet x (ELit init)) (Seq (SIf (EAnd (EIn k "kwargs") (ENot (ETarget k))) (Seq (SLet x E) Done) Done) rest))
       (MkState vs [("kwargs", d)] a i u) =
  exec c rest (MkState (dset String.eqb x (taken f init (fst (popped k (row_of c) d))) vs) [("kwargs", snd (popped k (row_of c) d))] a i u).
Proof.
  intros HE. unfold popped, taken.
  change (exec c (Seq (SLet x (ELit init)) ?q) ?s) with (exec c q (upd_vars (dset String.eqb x (Text (lit init)) (vars s)) s)).
  cbn [exec step]. cbn [eval]. unfold upd_vars, get_dict. cbn [dicts dget String.eqb Ascii.eqb Bool.eqb andthen vars self_api counters utils truth].
  destruct (dmem String.eqb k d) eqn:D; cbn [andb truth andthen].
  - destruct (is_target k (row_of c)); cbn [negb truth andthen exec step fst snd]; [reflexivity|].
    destruct (mem_get _ _ D) as [r G]. rewrite (HE r _ G). cbn [andthen fst snd]. unfold upd_vars. cbn [dicts vars self_api counters utils].
    rewrite G, dset_twice. reflexivity.
  - reflexivity.
Qed.
Lemma pop_plain c k d a i u r v : dget String.eqb k d = Some r ->
  eval c (EPop "kwargs" k) (MkState v [("kwargs", d)] a i u) = Ret (Text (plainly r), MkState v [("kwargs", ddel String.eqb k d)] a i u).
Proof. intros G. cbn [eval]. unfold get_dict. cbn [dicts dget String.eqb Ascii.eqb Bool.eqb andthen]. rewrite G. reflexivity. Qed.
Lemma pop_negated c k d a i u r v : dget String.eqb k d = Some r ->
  eval c (ECat (ELit "not ") (EStr (Strip "()") (EPop "kwargs" k))) (MkState v [("kwargs", d)] a i u) =
  Ret (Text (negated r), MkState v [("kwargs", ddel String.eqb k d)] a i u).
Proof. intros G. cbn [eval andthen]. unfold get_dict. cbn [dicts dget String.eqb Ascii.eqb Bool.eqb andthen]. rewrite G. reflexivity. Qed.

Lemma exec_seq c t r s s' : step c t s = Ret (None, s') -> exec c (Seq t r) s = exec c r s'.
Proof.
  intros H. change (exec c (Seq t r) s) with (run* (w, s) := step c t s in match w with Some v => Ret (Some v, s) | None => exec c r s end).
  rewrite H. reflexivity.
Qed.
Lemma step_let c x e s v s' : eval c e s = Ret (v, s') -> step c (SLet x e) s = Ret (None, upd_vars (dset String.eqb x v (vars s')) s').
Proof.
  intros H. change (step c (SLet x e) s) with (run* (v, s) := eval c e s in @Ret (option value * state) (None, upd_vars (dset String.eqb x v (vars s)) s)).
  rewrite H. reflexivity.
Qed.
Lemma step_if c x a b s v s' : eval c x s = Ret (v, s') -> step c (SIf x a b) s = exec c (if truth v then a else b) s'.
Proof.
  intros H. change (step c (SIf x a b) s) with (run* (v, s) := eval c x s in exec c (if truth v then a else b) s).
  rewrite H. reflexivity.
Qed.
Lemma eval_and c a b s p q : eval c a s = Ret (Bool p, s) -> eval c b s = Ret (Bool q, s) -> eval c (EAnd a b) s = Ret (Bool (p && q), s).
Proof.
  intros H K. change (eval c (EAnd a b) s) with (run* (v, s) := eval c a s in if truth v then eval c b s else Ret (v, s)).
  rewrite H. cbn [andthen truth]. destruct p; [exact K|reflexivity].
Qed.
Lemma exec_return c e r s v s' : eval c e s = Ret (v, s') -> exec c (Seq (SReturn e) r) s = Ret (Some v, s').
Proof.
  intros H. change (exec c (Seq (SReturn e) r) s) with
    (run* (w, s) := (run* (v, s) := eval c e s in @Ret (option value * state) (Some v, s)) in match w with Some v => Ret (Some v, s) | None => exec c r s end).
  rewrite H. reflexivity.
Qed.
Lemma generic_runs c d i :
  match exec c g_GenericMatcher (MkState [] [("kwargs", d)] (initial_api c) i false) with
  | Ret (w, s) =>
      asserts c = false /\ utils s = false /\
      exists r, w = Some (Text r) /\ render r = generic_code (row_of c) (api_text c) (snd (unique_name i "out")) (keyed d)
  | Fail x => asserts c = true /\ x = "AssertionError"
  end.
Proof.
  unfold generic_code. rewrite <- keyed_change, <- keyed_defaults. unfold g_GenericMatcher. cbn [of_stmts].
  change (exec c (Seq (SChange "kwargs" "kwargs" ?u) (Seq (SDefaults "kwargs") ?q)) _)
    with (exec c q (MkState [] [("kwargs", add_missing (change_rope (row_of c) u d) (default_ropes (row_of c)))] (initial_api c) i false)).
  change ["layout"; "device"; "memory_format"; "inplace"; "generator"; "non_blocking"; "async"] with generic_unused.
  set (d0 := add_missing _ _). clearbody d0. clear d.
  rewrite (pop_runs c "dtype_v" "dtype" "None" _ plainly); [|intros; apply pop_plain; assumption].
  rewrite popped_keyed. destruct (popped "dtype" (row_of c) d0) as [dt d1]. cbn [fst snd dset]. clear d0.
  rewrite (pop_runs c "pin_memory_v" "pin_memory" "(False)" _ plainly); [|intros; apply pop_plain; assumption].
  rewrite popped_keyed. destruct (popped "pin_memory" (row_of c) d1) as [pm d2]. cbn [fst snd dset]. clear d1.
  rewrite (pop_runs c "stop_gradient_v" "requires_grad" "None" _ negated); [|intros; apply pop_negated; assumption].
  rewrite popped_keyed. destruct (popped "requires_grad" (row_of c) d2) as [gr d3]. cbn [fst snd dset]. clear d2.
  rewrite (pop_runs c "out_v" "out" "None" _ plainly); [|intros; apply pop_plain; assumption].
  rewrite popped_keyed. destruct (popped "out" (row_of c) d3) as [ou d4]. cbn [fst snd]. clear d3.
  cbn [dset String.eqb Ascii.eqb Bool.eqb].
  unfold taken. set (vd := match dt with Some r => plainly r | None => lit "None" end). set (vp := match pm with Some r => plainly r | None => lit "(False)" end).
  set (vg := match gr with Some r => negated r | None => lit "None" end). set (vo := match ou with Some r => plainly r | None => lit "None" end).
  replace (match option_map render dt with Some v => v | None => "None" end) with (render vd) by (unfold vd; destruct dt; reflexivity).
  replace (match option_map render pm with Some v => v | None => "(False)" end) with (render vp) by (unfold vp; destruct pm; reflexivity).
  replace (match option_map render ou with Some v => v | None => "None" end) with (render vo) by (unfold vo; destruct ou; reflexivity).
  replace (match option_map render gr with Some v => "not " ++ strip_by is_paren v | None => "None" end) with (render vg)
    by (unfold vg; destruct gr as [g|]; [cbn; rewrite append_nil_r; reflexivity|reflexivity]).
  clearbody vd vp vg vo. clear dt pm gr ou. rewrite <- keyed_text.
  cbn [of_exps].
  remember (MkState _ _ _ _ _) as s0 eqn:S0.
  assert (V0 : get_paddle_api c s0 = match get_paddle_api c s0 with Ret w => Ret w | Fail x => Fail x end) by (destruct (get_paddle_api c s0); reflexivity).
  pose proof (api_value c (vars s0) (dicts s0) i false) as A.
  replace (MkState (vars s0) (dicts s0) (initial_api c) i false) with s0 in A by (rewrite S0; reflexivity).
  destruct (get_paddle_api c s0) as [w|x] eqn:P.
  2:{ replace (exec c _ s0) with (@Fail (option value * state) x); [exact A|]. subst s0. cbn [exec step eval evals andthen]. rewrite P. reflexivity. }
  destruct A as [A R].
  set (c0 := (MkPiece [] "" :: show w ++ MkPiece [] "(" :: join_kwargs d4 ++ [MkPiece [] ")"])%list).
  assert (T0 : render c0 = api_text c ++ "(" ++ render (join_kwargs d4) ++ ")").
  { unfold c0. cbn [render content append]. rewrite render_app. cbn [render content]. rewrite render_app, R. cbn [render content]. reflexivity. }
  rewrite (exec_seq _ _ _ _ (upd_vars (dset String.eqb "code" (Text c0) (vars s0)) s0))
    by (apply step_let; subst s0; cbn [eval evals andthen]; rewrite P; reflexivity).
  rewrite <- T0. clearbody c0. clear T0 P R V0 w. subst s0. unfold upd_vars. cbn [vars dicts self_api counters utils dset String.eqb Ascii.eqb Bool.eqb].
  set (code v := [("dtype_v", Text vd); ("pin_memory_v", Text vp); ("stop_gradient_v", Text vg); ("out_v", Text vo); ("code", Text v)]).
  change [("dtype_v", Text vd); ("pin_memory_v", Text vp); ("stop_gradient_v", Text vg); ("out_v", Text vo); ("code", Text c0)] with (code c0).
  set (st v := MkState (code v) [("kwargs", d4)] (initial_api c) i false). change (MkState (code c0) _ _ _ _) with (st c0).
  (* .astype *)
  set (c1 := if String.eqb (render vd) "None" then c0 else (c0 ++ MkPiece [] ".astype(" :: vd ++ [MkPiece [] ")"])%list).
  rewrite (exec_seq _ _ _ _ (st c1)).
  2:{ rewrite (step_if c _ _ _ (st c0) (Bool (negb (String.eqb (render vd) "None"))) (st c0)) by reflexivity. cbn [truth].
      unfold c1. destruct (String.eqb (render vd) "None"); reflexivity. }
  replace (if String.eqb (render vd) "None" then render c0 else render c0 ++ ".astype(" ++ render vd ++ ")") with (render c1).
  2:{ unfold c1. destruct (String.eqb (render vd) "None"); [reflexivity|]. rewrite !render_app. cbn [render content]. rewrite !render_app. reflexivity. }
  clearbody c1.
  set (c2 := if String.eqb (render vp) "(False)" then c1 else (c1 ++ lit ".pin_memory()")%list).
  rewrite (exec_seq _ _ _ _ (st c2)).
  2:{ rewrite (step_if c _ _ _ (st c1) (Bool (negb (String.eqb (render vp) "(False)"))) (st c1)) by reflexivity. cbn [truth].
      unfold c2. destruct (String.eqb (render vp) "(False)"); reflexivity. }
  replace (if String.eqb (render vp) "(False)" then render c1 else render c1 ++ ".pin_memory()") with (render c2).
  2:{ unfold c2. destruct (String.eqb (render vp) "(False)"); [reflexivity|]. rewrite !render_app. cbn [render content lit]. reflexivity. }
  clearbody c2.
  set (g := String.eqb (render vg) "None"). set (o := String.eqb (render vo) "None").
  assert (EG : eval c (ETest (Is "None") (EVar "stop_gradient_v")) (st c2) = Ret (Bool g, st c2)) by reflexivity.
  assert (EO : eval c (ETest (Is "None") (EVar "out_v")) (st c2) = Ret (Bool o, st c2)) by reflexivity.
  assert (NG : eval c (ENot (ETest (Is "None") (EVar "stop_gradient_v"))) (st c2) = Ret (Bool (negb g), st c2)) by reflexivity.
  assert (NO : eval c (ENot (ETest (Is "None") (EVar "out_v"))) (st c2) = Ret (Bool (negb o), st c2)) by reflexivity.
  pose proof (eval_and _ _ _ _ _ _ NG NO) as E1. pose proof (eval_and _ _ _ _ _ _ NG EO) as E2. pose proof (eval_and _ _ _ _ _ _ NO EG) as E3.
  clear EG EO NG NO. clearbody g o.
  destruct g, o; cbn [negb andb] in *.
  - rewrite (exec_seq _ _ _ _ (st c2)).
    2:{ rewrite (step_if _ _ _ _ _ _ _ E1). cbn [truth]. erewrite exec_seq; [reflexivity|]. rewrite (step_if _ _ _ _ _ _ _ E2). cbn [truth].
        erewrite exec_seq; [reflexivity|]. rewrite (step_if _ _ _ _ _ _ _ E3). reflexivity. }
    erewrite exec_return; [|reflexivity]. split; [exact A|]. split; [reflexivity|]. eexists. split; reflexivity.
  - erewrite exec_seq.
    2:{ rewrite (step_if _ _ _ _ _ _ _ E1). cbn [truth]. erewrite exec_seq; [reflexivity|]. rewrite (step_if _ _ _ _ _ _ _ E2). cbn [truth].
        erewrite exec_seq; [reflexivity|]. rewrite (step_if _ _ _ _ _ _ _ E3). reflexivity. }
    erewrite exec_return; [|reflexivity]. split; [exact A|]. split; [reflexivity|]. eexists. split; [reflexivity|].
    cbn [render content]. repeat (rewrite render_app; cbn [render content]). reflexivity.
  - destruct (unique_name i "out") as [j n] eqn:U. cbn [snd].
    erewrite exec_seq.
    2:{ rewrite (step_if _ _ _ _ _ _ _ E1). cbn [truth]. erewrite exec_seq; [reflexivity|]. rewrite (step_if _ _ _ _ _ _ _ E2). cbn [truth].
        erewrite exec_seq; [|eapply step_let; reflexivity].
        erewrite exec_seq; [|eapply (step_let _ _ _ _ (Text (lit n)) (MkState _ _ _ j _)); cbn [eval]; unfold upd_vars, st; cbn [counters]; rewrite U; reflexivity].
        reflexivity. }
    erewrite exec_return; [|reflexivity]. split; [exact A|]. split; [reflexivity|]. eexists. split; [reflexivity|].
    cbn [render content app lit show]. repeat (rewrite render_app; cbn [render content app lit show]). rewrite ?append_nil_r. reflexivity.
  - erewrite exec_seq.
    2:{ rewrite (step_if _ _ _ _ _ _ _ E1). reflexivity. }
    erewrite exec_return; [|reflexivity]. split; [exact A|]. split; [reflexivity|]. eexists. split; [reflexivity|].
    cbn [render content]. repeat (rewrite render_app; cbn [render content]). reflexivity.
Qed.

(** ** From the run to the answer *)
Lemma mem_char_app c a b : mem_char c (a ++ b) = mem_char c a || mem_char c b.
Proof. induction a as [|x a IH]; [reflexivity|]. cbn [String.append mem_char]. rewrite IH. destruct (Ascii.eqb c x); reflexivity. Qed.
Lemma generic_paren e api fresh t : mem_char "(" (generic_code e api fresh t) = true.
Proof.
  unfold generic_code. destruct (pop_special "dtype" e _) as [dt t1]. destruct (pop_special "pin_memory" e t1) as [pm t2].
  destruct (pop_special "requires_grad" e t2) as [gr t3]. destruct (pop_special "out" e t3) as [ou t4]. cbv zeta.
  set (c0 := api ++ "(" ++ _). assert (P : mem_char "(" c0 = true) by (unfold c0; rewrite !mem_char_app; cbn; apply Bool.orb_true_r).
  clearbody c0.
  set (c1 := if String.eqb (match dt with Some v => v | None => "None" end) "None" then _ else _).
  assert (P1 : mem_char "(" c1 = true) by (unfold c1; destruct (String.eqb _ _); [exact P|rewrite mem_char_app, P; reflexivity]). clearbody c1.
  set (c2 := if String.eqb _ "(False)" then _ else _).
  assert (P2 : mem_char "(" c2 = true) by (unfold c2; destruct (String.eqb _ _); [exact P1|rewrite mem_char_app, P1; reflexivity]). clearbody c2.
  destruct (negb _ && negb _); [|destruct (negb _); [|destruct (negb _); [|exact P2]]];
    repeat (rewrite mem_char_app); rewrite P2, ?Bool.orb_true_r; cbn [orb]; rewrite ?Bool.orb_true_r; reflexivity.
Qed.
Lemma generic_generates c t i : ~ In None (dkeys t) -> asserts c = false ->
  exists q, generate c g_GenericMatcher t i = Ret (Converted q false) /\
            render q = generic_code (row_of c) (api_text c) (snd (unique_name i "out")) t.
Proof.
  intros N A. pose proof (generic_runs c (start t) i) as R. unfold generate.
  destruct (exec c g_GenericMatcher _) as [[w s]|x]; [|destruct R as [R _]; congruence].
  destruct R as (_ & U & q & -> & Q). rewrite (keyed_start t N) in Q. cbn [andthen]. exists q.
  pose proof (generic_paren (row_of c) (api_text c) (snd (unique_name i "out")) t) as P. rewrite <- Q in P.
  destruct (String.eqb_spec (render q) "misidentify") as [E|_]; [rewrite E in P; discriminate|].
  destruct (String.eqb_spec (render q) "unchange") as [E|_]; [rewrite E in P; discriminate|].
  destruct (String.eqb_spec (render q) "") as [E|_]; [rewrite E in P; discriminate|].
  rewrite U. split; [reflexivity|exact Q].
Qed.

(** Facts about [Generate.exec] for C137: equations for single steps and what the matchers
    of recurrent layers and of stft do with any dictionary of arguments. *)
From Verif Require Import PyStr PyStrFacts PyDict PyDictFacts Ast Args ArgsFacts UtilsFile TablesData Generate GenerateData GenerateRows FlagSpec.
Opaque g_GenericMatcher.

Section D.
Context {V : Type}.
Notation dict' := (dict string V).
Lemma ddel_set k k2 (v : V) (d : dict') : k <> k2 -> ddel String.eqb k (dset String.eqb k2 v d) = dset String.eqb k2 v (ddel String.eqb k d).
Proof.
  intros N. induction d as [|[a x] d IH]; cbn.
  - destruct (String.eqb_spec k k2); [contradiction|reflexivity].
  - destruct (String.eqb_spec k2 a) as [<-|A]; cbn.
    + destruct (String.eqb_spec k k2); [contradiction|]. cbn. rewrite String.eqb_refl. reflexivity.
    + destruct (String.eqb_spec k a); [reflexivity|]. cbn. destruct (String.eqb_spec k2 a); [contradiction|]. rewrite IH. reflexivity.
Qed.
Lemma ddel_del k k2 (d : dict') : ddel String.eqb k (ddel String.eqb k2 d) = ddel String.eqb k2 (ddel String.eqb k d).
Proof.
  induction d as [|[a x] d IH]; cbn; [reflexivity|].
  destruct (String.eqb k2 a) eqn:A; destruct (String.eqb k a) eqn:B; cbn; rewrite ?A, ?B; try reflexivity; [|rewrite IH; reflexivity].
  apply String.eqb_eq in A, B. subst. reflexivity.
Qed.
End D.

Section Eqs.
Variable c : ctx.
Lemma ev_lit t s : eval c (ELit t) s = Ret (Text (lit t), s). Proof. reflexivity. Qed.
Lemma ev_var x s : eval c (EVar x) s = match dget String.eqb x (vars s) with Some v => Ret (v, s) | None => Fail "UnboundLocalError" end. Proof. reflexivity. Qed.
Lemma ev_get d k s : eval c (EGet d k) s = (run* v := get_dict d s in match dget String.eqb k v with Some r => Ret (Text r, s) | None => Fail "KeyError" end). Proof. reflexivity. Qed.
Lemma ev_pop d k s : eval c (EPop d k) s = (run* v := get_dict d s in match dget String.eqb k v with Some r => Ret (Text r, upd_dict d (ddel String.eqb k v) s) | None => Fail "KeyError" end). Proof. reflexivity. Qed.
Lemma ev_popor d k e s : eval c (EPopOr d k e) s = (run* (w, s) := eval c e s in run* v := get_dict d s in match dget String.eqb k v with Some r => Ret (Text r, upd_dict d (ddel String.eqb k v) s) | None => Ret (w, s) end). Proof. reflexivity. Qed.
Lemma ev_format t l s : eval c (EFormat t l) s = (run* (w, s) := eval c t s in run* (vs, s) := evals c l s in run* r := format w vs in Ret (Text r, s)). Proof. reflexivity. Qed.
Lemma ev_cat a b s : eval c (ECat a b) s = (run* (v, s) := eval c a s in run* (w, s) := eval c b s in match v, w with Text x, Text y => Ret (Text (x ++ y)%list, s) | _, _ => Fail "TypeError" end). Proof. reflexivity. Qed.
Lemma ev_in k d s : eval c (EIn k d) s = (run* v := get_dict d s in Ret (Bool (dmem String.eqb k v), s)). Proof. reflexivity. Qed.
Lemma ev_test t a s : eval c (ETest t a) s = (run* (v, s) := eval c a s in match v with Text r => Ret (Bool (run_test t (render r)), s) | _ => match t with Is _ => Ret (Bool false, s) | _ => Fail "TypeError" end end). Proof. reflexivity. Qed.
Lemma ev_and a b s : eval c (EAnd a b) s = (run* (v, s) := eval c a s in if truth v then eval c b s else Ret (v, s)). Proof. reflexivity. Qed.
Lemma ev_none s : eval c ENone s = Ret (NoneV, s). Proof. reflexivity. Qed.
Lemma ev_bool b s : eval c (EBool b) s = Ret (Bool b, s). Proof. reflexivity. Qed.
Lemma ev_generate b d s : eval c (EGenerate b d) s = (run* v := get_dict d s in run* (w, s') := exec c b (MkState [] [("kwargs", v)] (self_api s) (counters s) (utils s)) in
        Ret (match w with Some x => x | None => NoneV end, MkState (vars s) (dicts s) (self_api s') (counters s') (utils s'))). Proof. reflexivity. Qed.
Lemma evs_nil s : evals c Nil s = Ret ([], s). Proof. reflexivity. Qed.
Lemma evs_cons e r s : evals c (Cons e r) s = (run* (v, s) := eval c e s in run* (vs, s) := evals c r s in Ret (show v :: vs, s)). Proof. reflexivity. Qed.
Lemma st_let x e s : step c (SLet x e) s = (run* (v, s) := eval c e s in Ret (None, upd_vars (dset String.eqb x v (vars s)) s)). Proof. reflexivity. Qed.
Lemma st_set d k e s : step c (SSet d k e) s = (run* (v, s) := eval c e s in run* w := get_dict d s in Ret (None, upd_dict d (dset String.eqb k (show v) w) s)). Proof. reflexivity. Qed.
Lemma st_do e s : step c (SDo e) s = (run* (_, s) := eval c e s in Ret (None, s)). Proof. reflexivity. Qed.
Lemma st_if x a b s : step c (SIf x a b) s = (run* (v, s) := eval c x s in exec c (if truth v then a else b) s). Proof. reflexivity. Qed.
Lemma st_return e s : step c (SReturn e) s = (run* (v, s) := eval c e s in Ret (Some v, s)). Proof. reflexivity. Qed.
Lemma ex_done s : exec c Done s = Ret (None, s). Proof. reflexivity. Qed.
Lemma ex_seq t r s : exec c (Seq t r) s = (run* (w, s) := step c t s in match w with Some v => Ret (Some v, s) | None => exec c r s end). Proof. reflexivity. Qed.
End Eqs.
(** The state in which only the dictionary of arguments is known. *)
Definition st (vs : dict string value) (d : kwdict) r i u : state := MkState vs [("kwargs", d)] r i u.
Lemma kw_get vs d r i u : get_dict "kwargs" (st vs d r i u) = Ret d. Proof. reflexivity. Qed.
Lemma kw_upd vs d r i u d' : upd_dict "kwargs" d' (st vs d r i u) = st vs d' r i u. Proof. reflexivity. Qed.
Lemma kw_vars vs d r i u : vars (st vs d r i u) = vs. Proof. reflexivity. Qed.
Lemma kw_upd_vars vs d r i u v : upd_vars v (st vs d r i u) = st v d r i u. Proof. reflexivity. Qed.
Global Hint Rewrite ev_lit ev_var ev_get ev_pop ev_popor ev_format ev_cat ev_in ev_test ev_and ev_none ev_bool ev_generate evs_nil evs_cons st_let st_set st_do st_if st_return ex_done ex_seq kw_get kw_upd kw_vars kw_upd_vars : steps.
Lemma then_ret {A B} (a : A) (f : A -> outcome B) : andthen (Ret a) f = f a. Proof. reflexivity. Qed.
Global Hint Rewrite @then_ret : steps.
Ltac runs := repeat (progress (autorewrite with steps; cbn [truth show])).


(** What is left of a state by [generate]. *)
Definition ends (o : outcome (option value * state)) : outcome (option value * bool) :=
  match o with Ret (w, s) => Ret (w, utils s) | Fail e => Fail e end.
Definition by_generic c (d : kwdict) r i u : outcome (option value * bool) :=
  match exec c g_GenericMatcher (st [] d r i u) with
  | Ret (w, s) => Ret (Some (match w with Some x => x | None => NoneV end), utils s)
  | Fail e => Fail e
  end.
Lemma returned c vs d r i u :
  ends (exec c (Seq (SReturn (EGenerate g_GenericMatcher "kwargs")) Done) (st vs d r i u)) = by_generic c d r i u.
Proof.
  runs. unfold by_generic. change (MkState [] [("kwargs", d)] (self_api (st vs d r i u)) (counters (st vs d r i u)) (utils (st vs d r i u))) with (st [] d r i u).
  destruct (exec c g_GenericMatcher (st [] d r i u)) as [[w s]|e]; reflexivity.
Qed.
Definition major (d : kwdict) : rope :=
  (MkPiece [] "not " :: (match dget String.eqb "batch_first" d with Some x => x | None => lit "False" end) ++ [MkPiece [] ""])%list.
Definition timed (d : kwdict) : kwdict := dset String.eqb "time_major" (major d) (ddel String.eqb "batch_first" d).
Lemma no_del {V} k (d : dict string V) : dget String.eqb k d = None -> ddel String.eqb k d = d.
Proof.
  induction d as [|[a x] d IH]; cbn; [reflexivity|]. destruct (String.eqb k a); [discriminate|]. intros H. rewrite (IH H). reflexivity.
Qed.
Lemma rnn_runs c d r i u :
  ends (exec c g_RNNMatcher (st [] d r i u)) =
  by_generic c (match dget String.eqb "bidirectional" d with
                | Some v => ddel String.eqb "bidirectional" (if String.eqb (render v) "(True)" then dset String.eqb "direction" (lit "'bidirect'") (timed d) else timed d)
                | None => timed d
                end) r i u.
Proof.
  unfold g_RNNMatcher. cbn [of_stmts of_exps].
  assert (T : forall vs, ends (exec c
            (Seq
               (SIf (EIn "bidirectional" "kwargs")
                  (Seq
                     (SIf
                        (ETest (Is "(True)") (EGet "kwargs" "bidirectional"))
                        (Seq (SSet "kwargs" "direction" (ELit "'bidirect'"))
                           Done) Done)
                     (Seq (SDo (EPop "kwargs" "bidirectional")) Done)) Done)
               (Seq (SReturn (EGenerate g_GenericMatcher "kwargs")) Done)) (st vs (timed d) r i u)) = by_generic c (match dget String.eqb "bidirectional" d with
                | Some v => ddel String.eqb "bidirectional" (if String.eqb (render v) "(True)" then dset String.eqb "direction" (lit "'bidirect'") (timed d) else timed d)
                | None => timed d
                end) r i u).
  { intros vs. assert (G : dget String.eqb "bidirectional" (timed d) = dget String.eqb "bidirectional" d).
    { unfold timed. rewrite dget_set_other; [|apply String.eqb_spec|discriminate]. apply ddel_get_other; [apply String.eqb_spec|discriminate]. }
    rewrite ex_seq, st_if, ev_in, kw_get, !then_ret. cbn [truth]. unfold dmem. rewrite G.
    destruct (dget String.eqb "bidirectional" d) as [v|] eqn:E.
    - rewrite ex_seq, st_if, ev_test, ev_get, kw_get, !then_ret, G, !then_ret. cbn [truth run_test].
      destruct (String.eqb (render v) "(True)"); cbn [truth].
      + rewrite ex_seq, st_set, ev_lit, then_ret, kw_get, then_ret, kw_upd, then_ret, ex_done, then_ret.
        rewrite ex_seq, st_do, ev_pop, kw_get, then_ret, dget_set_other, G; [|apply String.eqb_spec|discriminate].
        rewrite kw_upd, !then_ret, ex_done, then_ret. apply returned.
      + rewrite ex_done, then_ret, ex_seq, st_do, ev_pop, kw_get, then_ret, G, kw_upd, !then_ret, ex_done, then_ret. apply returned.
    - rewrite ex_done, then_ret. apply returned. }
  rewrite ex_seq, st_if, ev_in, kw_get, !then_ret. cbn [truth]. unfold dmem.
  destruct (dget String.eqb "batch_first" d) as [x|] eqn:E.
  - rewrite ex_seq, st_let, ev_pop, kw_get, then_ret, E, kw_upd, then_ret, kw_vars, kw_upd_vars, then_ret, ex_done, then_ret.
    rewrite ex_seq, st_set, ev_format, ev_lit, then_ret, evs_cons, ev_var, kw_vars. cbn [dset dget]. rewrite String.eqb_refl, then_ret, evs_nil, !then_ret. cbn [show].
    change (format (Text (lit "not {}")) [x]) with (Ret (MkPiece [] "not " :: (x ++ [MkPiece [] ""]))%list).
    rewrite !then_ret, kw_get, then_ret, kw_upd, then_ret. cbn [show]. 
    specialize (T [("batch_first", Text x)]). unfold timed at 1, major at 1 in T. rewrite E in T. exact T.
  - rewrite ex_seq, st_let, ev_bool, then_ret, kw_vars, kw_upd_vars, then_ret, ex_done, then_ret.
    rewrite ex_seq, st_set, ev_format, ev_lit, then_ret, evs_cons, ev_var, kw_vars. cbn [dset dget]. rewrite String.eqb_refl, then_ret, evs_nil, !then_ret. cbn [show].
    change (format (Text (lit "not {}")) [lit "False"]) with (Ret (MkPiece [] "not " :: (lit "False" ++ [MkPiece [] ""]))%list).
    rewrite !then_ret, kw_get, then_ret, kw_upd, then_ret. cbn [show].
    specialize (T [("batch_first", Bool false)]). unfold timed at 1, major at 1 in T. rewrite E in T. rewrite (no_del _ _ E) in T. exact T.
Qed.
Lemma rnn_alike c d r i u v : dget String.eqb "bidirectional" (ddel String.eqb "bidirectional" d) = None ->
  dget String.eqb "bidirectional" d = Some v -> render v <> "(True)" ->
  ends (exec c g_RNNMatcher (st [] d r i u)) = ends (exec c g_RNNMatcher (st [] (ddel String.eqb "bidirectional" d) r i u)).
Proof.
  intros N G T. rewrite !rnn_runs, G, N.
  destruct (String.eqb_spec (render v) "(True)"); [contradiction|]. f_equal.
  unfold timed, major. rewrite ddel_set by discriminate. rewrite ddel_del.
  rewrite ddel_get_other; [reflexivity|apply String.eqb_spec|discriminate].
Qed.

(** RNNBase: any text that mentions "True". *)
Definition base_direction (d : kwdict) : rope :=
  lit (match dget String.eqb "bidirectional" d with
       | Some v => if contains "True" (render v) then "'bidirect'" else "'forward'"
       | None => "'forward'"
       end).
Lemma base_runs c d r i u :
  ends (exec c g_RNNBaseMatcher (st [] d r i u)) =
  by_generic c (dset String.eqb "direction" (base_direction d) (ddel String.eqb "bidirectional" (timed d))) r i u.
Proof.
  unfold g_RNNBaseMatcher. cbn [of_stmts of_exps].
  assert (G : dget String.eqb "bidirectional" (timed d) = dget String.eqb "bidirectional" d).
  { unfold timed. rewrite dget_set_other; [|apply String.eqb_spec|discriminate]. apply ddel_get_other; [apply String.eqb_spec|discriminate]. }
  assert (T : forall x, ends (exec c
      (Seq (SLet "direction" (ELit "'forward'"))
        (Seq (SIf (EIn "bidirectional" "kwargs")
          (Seq (SIf (ETest (Has "True") (EGet "kwargs" "bidirectional")) (Seq (SLet "direction" (ELit "'bidirect'")) Done) Done)
          (Seq (SDo (EPop "kwargs" "bidirectional")) Done)) Done)
        (Seq (SSet "kwargs" "direction" (EVar "direction"))
        (Seq (SReturn (EGenerate g_GenericMatcher "kwargs")) Done)))) (st [("batch_first", x)] (timed d) r i u)) =
    by_generic c (dset String.eqb "direction" (base_direction d) (ddel String.eqb "bidirectional" (timed d))) r i u).
  { intros x. rewrite ex_seq, st_let, ev_lit, then_ret, kw_vars, kw_upd_vars, then_ret. cbn [dset]. change (String.eqb "direction" "batch_first") with false. cbv iota.
    rewrite ex_seq, st_if, ev_in, kw_get, !then_ret. cbn [truth]. unfold dmem. rewrite G. unfold base_direction.
    destruct (dget String.eqb "bidirectional" d) as [v|] eqn:E.
    - rewrite ex_seq, st_if, ev_test, ev_get, kw_get, !then_ret, G, !then_ret. cbn [truth run_test].
      destruct (contains "True" (render v)); cbn [truth].
      + rewrite ex_seq, st_let, ev_lit, then_ret, kw_vars, kw_upd_vars, then_ret, ex_done, then_ret.
        rewrite ex_seq, st_do, ev_pop, kw_get, then_ret, G, kw_upd, !then_ret, ex_done, then_ret.
        rewrite ex_seq, st_set, ev_var, kw_vars. cbn [dset dget].
        change (String.eqb "direction" "batch_first") with false. cbv iota. cbn [dset dget]. rewrite String.eqb_refl. cbn [dget].
        change (String.eqb "direction" "batch_first") with false. cbv iota. rewrite String.eqb_refl.
        rewrite then_ret, kw_get, then_ret, kw_upd, then_ret. cbn [show]. apply returned.
      + rewrite ex_done, then_ret, ex_seq, st_do, ev_pop, kw_get, then_ret, G, kw_upd, !then_ret, ex_done, then_ret.
        rewrite ex_seq, st_set, ev_var, kw_vars. cbn [dget].
        change (String.eqb "direction" "batch_first") with false. cbv iota. rewrite String.eqb_refl.
        rewrite then_ret, kw_get, then_ret, kw_upd, then_ret. cbn [show]. apply returned.
    - rewrite ex_done, then_ret. rewrite ex_seq, st_set, ev_var, kw_vars. cbn [dget].
      change (String.eqb "direction" "batch_first") with false. cbv iota. rewrite String.eqb_refl.
      rewrite then_ret, kw_get, then_ret, kw_upd, then_ret. cbn [show]. rewrite (no_del _ _ G). apply returned. }
  rewrite ex_seq, st_if, ev_in, kw_get, !then_ret. cbn [truth]. unfold dmem.
  destruct (dget String.eqb "batch_first" d) as [x|] eqn:E.
  - rewrite ex_seq, st_let, ev_pop, kw_get, then_ret, E, kw_upd, then_ret, kw_vars, kw_upd_vars, then_ret, ex_done, then_ret.
    rewrite ex_seq, st_set, ev_format, ev_lit, then_ret, evs_cons, ev_var, kw_vars. cbn [dset dget]. rewrite String.eqb_refl, then_ret, evs_nil, !then_ret. cbn [show].
    change (format (Text (lit "not {}")) [x]) with (Ret (MkPiece [] "not " :: (x ++ [MkPiece [] ""]))%list).
    rewrite !then_ret, kw_get, then_ret, kw_upd, then_ret. cbn [show].
    specialize (T (Text x)). unfold timed at 1, major at 1 in T. rewrite E in T. exact T.
  - rewrite ex_seq, st_let, ev_bool, then_ret, kw_vars, kw_upd_vars, then_ret, ex_done, then_ret.
    rewrite ex_seq, st_set, ev_format, ev_lit, then_ret, evs_cons, ev_var, kw_vars. cbn [dset dget]. rewrite String.eqb_refl, then_ret, evs_nil, !then_ret. cbn [show].
    change (format (Text (lit "not {}")) [lit "False"]) with (Ret (MkPiece [] "not " :: (lit "False" ++ [MkPiece [] ""]))%list).
    rewrite !then_ret, kw_get, then_ret, kw_upd, then_ret. cbn [show].
    specialize (T (Bool false)). unfold timed at 1, major at 1 in T. rewrite E in T. rewrite (no_del _ _ E) in T. exact T.
Qed.

(** stft *)
Lemma stft_runs c d r i u :
  ends (exec c g_StftMatcher (st [] d r i u)) =
  match by_generic c (ddel String.eqb "return_complex" d) r i u, dget String.eqb "return_complex" d with
  | Fail e, _ => Fail e
  | Ret (Some (Text q), h), Some v => Ret (Some (Text (if String.eqb (render v) "(False)" then (q ++ lit ".as_real()")%list else q)), h)
  | Ret (Some _, _), Some v => if String.eqb (render v) "(False)" then Fail "TypeError" else by_generic c (ddel String.eqb "return_complex" d) r i u
  | o, _ => o
  end.
Proof.
  unfold g_StftMatcher. cbn [of_stmts of_exps].
  rewrite ex_seq, st_let, ev_popor, ev_none, then_ret, kw_get, then_ret.
  unfold by_generic.
  destruct (dget String.eqb "return_complex" d) as [v|] eqn:E.
  - rewrite kw_upd, then_ret, kw_vars, kw_upd_vars, then_ret. rewrite ex_seq, st_let, ev_generate, kw_get, then_ret. cbn [dset].
    set (S0 := MkState _ _ _ _ _). change S0 with (st [] (ddel String.eqb "return_complex" d) r i u). clear S0.
    destruct (exec c g_GenericMatcher (st [] (ddel String.eqb "return_complex" d) r i u)) as [[w s]|e]; [|reflexivity]. rewrite !then_ret.
    set (w' := match w with Some x => x | None => NoneV end).
    cbn [vars st upd_vars dset]. change (String.eqb "code" "return_complex") with false. cbv iota.
    rewrite ex_seq, st_if, ev_and, ev_var. cbn [vars upd_vars dget]. change (String.eqb "return_complex" "return_complex") with true. cbv iota. rewrite then_ret. cbn [truth].
    destruct (String.eqb_spec (render v) "") as [Z|Z].
    + cbn [negb]. cbv iota. rewrite then_ret. cbn [truth]. rewrite Z. cbn [String.eqb negb].
      rewrite ex_seq, st_return, ev_var. destruct w'; reflexivity.
    + cbn [negb]. cbv iota. rewrite ev_test, ev_var. cbn [vars upd_vars dget]. change (String.eqb "return_complex" "return_complex") with true. cbv iota. rewrite !then_ret. cbn [truth run_test].
      destruct (String.eqb (render v) "(False)").
      * rewrite ex_seq, st_return, ev_cat, ev_var. destruct w'; reflexivity.
      * rewrite ex_seq, st_return, ev_var. destruct w'; reflexivity.
  - rewrite then_ret, kw_vars, kw_upd_vars, then_ret. rewrite ex_seq, st_let, ev_generate, kw_get, then_ret. cbn [dset]. rewrite (no_del _ _ E).
    set (S0 := MkState _ _ _ _ _). change S0 with (st [] d r i u). clear S0.
    destruct (exec c g_GenericMatcher (st [] d r i u)) as [[w s]|e]; [|reflexivity]. rewrite !then_ret.
    set (w' := match w with Some x => x | None => NoneV end).
    cbn [vars st upd_vars dset]. change (String.eqb "code" "return_complex") with false. cbv iota.
    rewrite ex_seq, st_if, ev_and, ev_var. cbn [vars upd_vars dget]. change (String.eqb "return_complex" "return_complex") with true. cbv iota. rewrite then_ret. cbn [truth]. rewrite then_ret. cbn [truth].
    rewrite ex_seq, st_return, ev_var. destruct w'; reflexivity.
Qed.

(** From dictionaries to calls. *)
Definition finish (o : outcome (option value * bool)) : outcome generated :=
  run* (w, u) := o in
  match w with
  | Some (Text r) =>
      if String.eqb (render r) "misidentify" then Ret Misidentify
      else if String.eqb (render r) "unchange" then Ret Unchange
      else if String.eqb (render r) "" then Ret Refused
      else Ret (Converted r u)
  | Some (Bool true) => Fail "TypeError"
  | _ => Ret Refused
  end.
Lemma generate_ends c b t i : generate c b t i = finish (ends (exec c b (st [] (start t) (initial_api c) i false))).
Proof. unfold generate, finish, st. destruct (exec c b _) as [[w s]|e]; reflexivity. Qed.

Definition started (a : key) (x : string) : string * rope :=
  match a with Some k => (k, [MkPiece [Argument k] x]) | None => ("None", [MkPiece [] x]) end.
Lemma start_cons a x t : start ((a, x) :: t) = started a x :: start t.
Proof. destruct a; reflexivity. Qed.
Lemma left_cons k a x t : leaving_out k ((a, x) :: t) = if key_eqb a (Some k) then leaving_out k t else (a, x) :: leaving_out k t.
Proof. unfold leaving_out. cbn [filter fst]. destruct (key_eqb a (Some k)); reflexivity. Qed.
Lemma start_left_out k t : k <> "None" -> NoDup (dkeys t) ->
  start (leaving_out k t) = ddel String.eqb k (start t) /\ dget String.eqb k (start (leaving_out k t)) = None.
Proof.
  intros K. induction t as [|[a x] t IH]; intros N; [split; reflexivity|]. cbn [dkeys map fst] in N.
  apply NoDup_cons_iff in N. destruct N as [A N]. specialize (IH N). destruct IH as [I J].
  rewrite left_cons, start_cons. destruct (key_eqb_spec a (Some k)) as [->|D].
  - cbn [started ddel]. rewrite String.eqb_refl. split; [|exact J].
    rewrite I. apply no_del. apply (dget_none_iff _ String.eqb_spec). intros H. apply A. clear -H K.
    unfold start, dkeys in H. rewrite map_map in H. apply in_map_iff in H. destruct H as ([b y] & E & H). cbn [fst snd] in E.
    destruct b as [b|]; cbn [fst] in E; [subst b|congruence]. apply in_map_iff. exists (Some k, y). split; [reflexivity|exact H].
  - rewrite start_cons. destruct a as [a|]; cbn [started ddel dget].
    + destruct (String.eqb_spec k a) as [->|]; [contradiction|]. split; [rewrite I; reflexivity|exact J].
    + destruct (String.eqb_spec k "None"); [contradiction|]. split; [rewrite I; reflexivity|exact J].
Qed.
Lemma start_get k v t : NoDup (dkeys t) -> k <> "None" -> passes t k v -> dget String.eqb k (start t) = Some [MkPiece [Argument k] v].
Proof.
  intros N K. induction t as [|[a x] t IH]; intros P; [destruct P|]. apply NoDup_cons_iff in N. destruct N as [A N]. rewrite start_cons.
  destruct P as [P|P].
  - injection P as -> ->. cbn [started dget]. rewrite String.eqb_refl. reflexivity.
  - specialize (IH N P). destruct a as [a|]; cbn [started dget].
    + destruct (String.eqb_spec k a) as [->|]; [|exact IH]. exfalso. apply A. cbn [fst]. apply in_map_iff. exists (Some a, v). split; [reflexivity|exact P].
    + destruct (String.eqb_spec k "None"); [contradiction|exact IH].
Qed.
Lemma binds_keys b : forall t : table, NoDup (dkeys t) -> NoDup (dkeys (binds b t)).
Proof.
  induction b as [|[k v] b IH]; intros t N; [exact N|]. apply IH. apply (dset_nodup _ key_eqb_spec). exact N.
Qed.
Lemma reads_nodup n args kwargs t : reads_as n args kwargs t -> NoDup (dkeys t).
Proof.
  intros (r & _ & P). destruct (parse_args_and_kwargs (r_entry r) false false args kwargs) as [p kept] eqn:E. cbn [fst] in P. subst p.
  apply parse_Bound in E as (-> & _ & _). apply binds_keys. constructor.
Qed.
Lemma answer_reads n recv args kwargs t i b strictly :
  (exists r, find (fun r => String.eqb (r_name r) n) api_mapping = Some r /\ generator r = Some (strictly, b)) ->
  reads_as n args kwargs t ->
  exists c, (forall args' kwargs' t', reads_as n args' kwargs' t' -> answer n recv args' kwargs' i = Some (finish (ends (exec c b (st [] (start t') (initial_api c) i false))))).
Proof.
  intros (r & F & G) _. exists (context_of r strictly recv). intros args' kwargs' t' (r' & F' & P). rewrite F in F'. injection F' as <-.
  unfold answer. rewrite F, G. unfold paddle_nodes. rewrite P. cbn [fst snd]. rewrite generate_ends. reflexivity.
Qed.
Lemma base_alike c d d' r i u : timed d = timed d' \/ ddel String.eqb "bidirectional" (timed d) = ddel String.eqb "bidirectional" (timed d') ->
  base_direction d = base_direction d' ->
  ends (exec c g_RNNBaseMatcher (st [] d r i u)) = ends (exec c g_RNNBaseMatcher (st [] d' r i u)).
Proof. intros T D. rewrite !base_runs, D. destruct T as [-> | ->]; reflexivity. Qed.
Lemma giving_out k v t : leaving_out k (giving k v t) = leaving_out k t.
Proof.
  induction t as [|[a x] t IH]; [reflexivity|]. cbn [giving map leaving_out filter fst].
  destruct (key_eqb_spec a (Some k)) as [->|D]; cbn [fst].
  - destruct (key_eqb_spec (Some k) (Some k)); [|contradiction]. cbn [negb]. exact IH.
  - destruct (key_eqb_spec a (Some k)); [contradiction|]. cbn [negb]. f_equal. exact IH.
Qed.
Lemma giving_passes k v w t : passes t k v -> passes (giving k w t) k w.
Proof.
  intros P. unfold passes, giving. apply in_map_iff. exists (Some k, v). split; [|exact P]. cbn [fst].
  destruct (key_eqb_spec (Some k) (Some k)); [reflexivity|contradiction].
Qed.
Lemma timed_out d : ddel String.eqb "bidirectional" (timed d) = timed (ddel String.eqb "bidirectional" d).
Proof.
  unfold timed, major. rewrite ddel_set by discriminate. rewrite ddel_del.
  rewrite ddel_get_other; [reflexivity|apply String.eqb_spec|discriminate].
Qed.
Lemma render_one o v : render [MkPiece o v] = v.
Proof. unfold render. cbn. apply app_nil_r_s. Qed.

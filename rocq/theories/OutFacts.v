(** Facts for C140. *)
From Verif Require Import PyStr PyStrFacts PyDict PyDictFacts Ast Args ArgsFacts UtilsFile TablesData Generate GenerateData GenerateSym GenerateRel GenerateRows FlagSpec FlagFacts DatasetSpec DatasetFacts DatasetCalls OutSpec.
Opaque api_mapping generators g_GenericMatcher.

(** Only parameters of a row are bound where it has no unsupported ones. *)
Lemma check_known e l : unsupport_args e = [] -> forall kept c, check_kwargs e false l = (None, kept, c) ->
  forall n, In n kept -> exists s, kw_arg n = Some s /\ In s (args_list e ++ overload_args_list e)%list.
Proof.
  intros U. induction l as [|n l IH]; intros kept c; cbn [check_kwargs]; [intros E; injection E as <- <-; intros ? []|].
  destruct (kw_arg n) as [s|] eqn:K; [|discriminate]. rewrite U. cbn [key_in mem_str existsb].
  destruct (negb _) eqn:M; [discriminate|]. destruct (check_kwargs e false l) as [[v l'] c'] eqn:C. intros E. injection E as -> <- <-.
  intros m [<-|I]; [|exact (IH _ _ eq_refl m I)]. exists s. split; [exact K|]. apply Bool.negb_false_iff in M. apply mem_str_In. exact M.
Qed.
Lemma binds_in b : forall t k v, In (k, v) (binds b t) -> In k (map fst b) \/ In k (dkeys t).
Proof.
  induction b as [|[x w] b IH]; intros t k v H; [right; apply in_map_iff; exists (k, v); split; [reflexivity|exact H]|].
  change (binds ((x, w) :: b) t) with (binds b (dset key_eqb x w t)) in H. destruct (IH _ _ _ H) as [I|I]; [left; right; exact I|].
  apply (dset_keys_iff _ key_eqb_spec) in I as [->|I]; [left; left; reflexivity|right; exact I].
Qed.
Lemma parse_known e args kwargs t : unsupport_args e = [] -> fst (parse_args_and_kwargs e false false args kwargs) = Bound t ->
  forall k v, In (k, v) t -> exists s, k = Some s /\ In s (position_args e ++ args_list e ++ overload_args_list e)%list.
Proof.
  intros U. unfold parse_args_and_kwargs. destruct (existsb _ args); [discriminate|].
  destruct (check_kwargs e false kwargs) as [[w l] c] eqn:C. destruct w as [w|].
  { intros E. cbn in E. destruct (check_early _ _ _ _ _ _ C) as [X|X]; rewrite X in E; discriminate E. }
  destruct (_ <? min_input_args e)%nat; [discriminate|]. destruct (_ <? _)%nat; [discriminate|].
  destruct (bind_args e 0 args []) as [t'| | |] eqn:B; try discriminate. intros E. cbn [fst] in E. injection E as <-.
  apply bind_args_Bound in B as (-> & _ & _). cbn [skipn]. rewrite bind_kwargs_binds.
  intros k v I. apply binds_in in I as [I|I].
  - rewrite map_map in I. apply in_map_iff in I as (n & <- & I). destruct (check_known _ _ U _ _ C n I) as (s & S & M).
    exists s. split; [exact S|]. apply in_or_app. right. exact M.
  - apply in_map_iff in I as ([k' v'] & <- & I). apply binds_in in I as [I|[]]. cbn [fst].
    apply in_map_iff in I as ([k2 v2] & <- & I). cbn [fst]. apply in_combine_l in I. apply in_map_iff in I as (s & <- & I).
    exists s. split; [reflexivity|]. apply in_or_app. left. exact I.
Qed.
Section Known.
Variables (n : string) (r : row) (args : list expr) (kwargs : list kwnode) (t : table).
Hypothesis found : find (fun r => String.eqb (r_name r) n) api_mapping = Some r.
Hypothesis plain : unsupport_args (r_entry r) = [].
Hypothesis reads : reads_as n args kwargs t.
Lemma known_keys k v : In (k, v) t -> exists s, k = Some s /\ In s (position_args (r_entry r) ++ args_list (r_entry r) ++ overload_args_list (r_entry r))%list.
Proof. destruct reads as (r' & F & P). rewrite found in F. injection F as <-. apply (parse_known _ _ _ _ plain P). Qed.
Lemma known_star w : ~ In (None, w) t. Proof. intros I. destruct (known_keys _ _ I) as (s & E & _). discriminate E. Qed.
Lemma unknown k w : mem_str k (position_args (r_entry r) ++ args_list (r_entry r) ++ overload_args_list (r_entry r))%list = false -> ~ In (Some k, w) t.
Proof. intros M I. destruct (known_keys _ _ I) as (s & E & J). injection E as <-. apply mem_str_In in J. rewrite M in J. discriminate J. Qed.
End Known.

(** An answer that starts with a line end is taken as it is. *)
Lemma answer_line n r strictly b args kwargs t i :
  find (fun r => String.eqb (r_name r) n) api_mapping = Some r -> generator r = Some (strictly, b) ->
  reads_as n args kwargs t ->
  exists c, row_of c = r_entry r /\ (forall x, paddle_api (r_entry r) = Some x -> api_known c None x) /\
  forall q s y, exec c b (st [] (start t) None i false) = Ret (Some (Text q), s) -> render q = String nl y ->
    answer n None args kwargs i = Some (Ret (Converted q (utils s))).
Proof.
  intros F G R. exists (context_of r strictly None). split; [reflexivity|]. split.
  { intros x P vs ds i' u. unfold get_paddle_api, context_of. cbn [strict row_of self_api]. rewrite P, Bool.andb_false_r. reflexivity. }
  intros q s y E T.
  destruct R as (r' & F' & R). rewrite F in F'. injection F' as <-. unfold answer. rewrite F, G. unfold paddle_nodes. rewrite R. cbn [fst snd].
  rewrite generate_ends. unfold initial_api. cbn [receiver context_of].
  rewrite E. unfold ends, finish. rewrite then_ret, T. reflexivity.
Qed.

(** Dictionaries after the three ways of building them. *)
Lemma made_update t p w dropped : NoDup (dkeys p) -> made_of (texts w) t dropped [] ->
  (forall k v, In k (dkeys p) -> In k dropped \/ ~ In (Some k, v) t) -> made_of (texts (dupdate String.eqb p w)) t dropped (texts p).
Proof.
  intros P [N M] A. rewrite texts_keys in N.
  assert (U : NoDup (dkeys (dupdate String.eqb p w))) by (apply update_nodup; exact P).
  split; [rewrite texts_keys; exact U|]. intros k v. rewrite in_texts by exact U. rewrite update_get by exact N.
  rewrite texts_keys. split.
  - intros (x & G & <-). destruct (dget String.eqb k w) as [y|] eqn:W.
    + injection G as ->. right. assert (I : In (k, render x) (texts w)) by (apply in_texts; [exact N|exists x; split; [exact W|reflexivity]]).
      apply M in I as [[]|(D & _ & I)]. split; [exact D|]. split; [|exact I]. intros J. destruct (A k (render x) J) as [B|B]; [exact (D B)|exact (B I)].
    + left. apply in_texts; [exact P|]. exists x. split; [exact G|reflexivity].
  - intros [I|(D & J & I)].
    + assert (K : In k (dkeys p)) by (rewrite <- texts_keys; apply in_map_iff; exists (k, v); split; [reflexivity|exact I]).
      destruct (dget String.eqb k w) as [y|] eqn:W.
      * exfalso. assert (X : In (k, render y) (texts w)) by (apply in_texts; [exact N|exists y; split; [exact W|reflexivity]]).
        apply M in X as [[]|(D & _ & X)]. destruct (A k (render y) K) as [B|B]; [exact (D B)|exact (B X)].
      * apply in_texts in I; [|exact P]. exact I.
    + assert (X : In (k, v) (texts w)) by (apply M; right; split; [exact D|split; [intros []|exact I]]).
      apply in_texts in X as (y & G & <-); [|exact N]. exists y. rewrite G. split; reflexivity.
Qed.
Lemma dget_text d k v : NoDup (dkeys d) -> In (k, v) (texts d) -> exists r, dget String.eqb k d = Some r /\ render r = v.
Proof. intros N. apply in_texts. exact N. Qed.
Lemma one_text (t : table) k v w : NoDup (dkeys t) -> In (k, v) t -> In (k, w) t -> v = w.
Proof.
  intros N I J. apply (dget_in_nodup _ key_eqb_spec) in I; [|exact N]. apply (dget_in_nodup _ key_eqb_spec) in J; [|exact N]. congruence.
Qed.
Lemma made_missing t d dropped new k a v : NoDup (dkeys t) -> made_of (texts d) t dropped new -> ~ In k dropped -> ~ In k (map fst new) ->
  given_or t k a v -> made_of (texts (add_missing d [(k, lit a)])) t dropped (new ++ [(k, v)])%list.
Proof.
  intros T M D W G. pose proof M as [N I]. rewrite texts_keys in N. cbn [add_missing fold_left fst snd]. unfold dmem. destruct (dget String.eqb k d) as [r|] eqn:E.
  - assert (X : In (Some k, render r) t).
    { assert (Y : In (k, render r) (texts d)) by (apply in_texts; [exact N|exists r; split; [exact E|reflexivity]]).
      apply I in Y as [Y|(_ & _ & Y)]; [|exact Y]. exfalso. apply W. apply in_map_iff. exists (k, render r). split; [reflexivity|exact Y]. }
    destruct G as [G|[-> G]]; [|exfalso; exact (G _ X)].
    split; [rewrite texts_keys; exact N|]. intros k' v'. rewrite I, map_app, !in_app_iff. cbn [In map fst]. split.
    + intros [H|(A & B & C)]; [left; left; exact H|]. destruct (string_dec k k') as [<-|Z].
      * left. right. left. rewrite (one_text _ _ _ _ T G C). reflexivity.
      * right. split; [exact A|]. split; [|exact C]. intros [H|[H|[]]]; [exact (B H)|exact (Z H)].
    + intros [[H|[H|[]]]|(A & B & C)]; [left; exact H| |].
      * injection H as <- <-. right. split; [exact D|]. split; [exact W|exact G].
      * right. split; [exact A|]. split; [|exact C]. intros H. apply B. left. exact H.
  - destruct G as [G|[-> _]].
    + exfalso. assert (Y : In (k, v) (texts d)) by (apply I; right; split; [exact D|split; [exact W|exact G]]).
      apply in_texts in Y as (r & Y & _); [|exact N]. congruence.
    + pose proof (made_put t d dropped new k (lit a) M W) as P. unfold lit in P at 2. rewrite render_one in P. exact P.
Qed.
Definition gone_one (k : string) : string * target := (k, TNone).
Lemma made_change t e first gone a : NoDup (dkeys (start t)) -> (forall w, ~ In (None, w) t) -> NoDup (dkeys t) ->
  kwargs_change e = ((first, TName "x") :: map gone_one gone)%list -> ~ In first gone -> first <> "x" -> ~ In "x" gone ->
  passes t first a -> (forall v, ~ In (Some "x", v) t) ->
  made_of (texts (change_rope e [] (start t))) t (first :: gone) [("x", a)].
Proof.
  intros N S T C Fg Fx Xg P X.
  assert (O : forall k, outputs e [] k = if String.eqb k first then ["x"] else if mem_str k gone then [] else [k]).
  { intros k. unfold outputs, change_names. rewrite C. cbn [dget]. destruct (String.eqb_spec k first) as [->|K]; [reflexivity|].
    clear. induction gone as [|g gone IH]; [reflexivity|]. cbn [map gone_one dget mem_str existsb]. destruct (String.eqb_spec k g) as [->|G]; [reflexivity|exact IH]. }
  assert (L : forall k, claims e [] k = outputs e [] k). { intros k. unfold claims, outputs. destruct (change_names e k); reflexivity. }
  assert (K : forall k, In k (dkeys (start t)) -> k <> "x").
  { intros k I ->. apply in_map_iff in I as ([k v] & E & I). cbn in E. subst k. apply (X (render v)). apply (member_start _ _ _ S). apply in_map_iff. exists ("x", v). split; [reflexivity|exact I]. }
  assert (Q : forall n x, In x (dkeys (start t)) -> In n (outputs e [] x) -> (n = "x" /\ x = first) \/ (n = x /\ x <> first /\ ~ In x gone)).
  { intros n x I J. rewrite O in J. destruct (String.eqb_spec x first) as [->|E]; [destruct J as [<-|[]]; left; split; reflexivity|].
    destruct (mem_str x gone) eqn:G; [destruct J|]. destruct J as [<-|[]]. right. split; [reflexivity|]. split; [exact E|]. apply mem_str_false. exact G. }
  split; [rewrite texts_keys; apply change_nodup|]. intros k v. rewrite in_texts by apply change_nodup.
  assert (G : forall r, dget String.eqb k (change_rope e [] (start t)) = Some r <-> exists j, dget String.eqb j (start t) = Some r /\ In k (outputs e [] j)).
  { intros r. apply (change_get (fun _ _ => True)); [exact N|]. intros x y I J A B. rewrite L in A, B.
    destruct (Q _ _ I A) as [[E1 E2]|(E1 & _)], (Q _ _ J B) as [[F1 F2]|(F1 & _)]; [congruence| | |congruence].
    - exfalso. apply (K y J). congruence.
    - exfalso. apply (K x I). congruence. }
  cbn [In map fst]. split.
  - intros (r & D & <-). apply G in D as (j & D & J).
    assert (I : In j (dkeys (start t))) by (apply in_map_iff; exists (j, r); split; [reflexivity|apply (dget_some_in _ String.eqb_spec); exact D]).
    assert (M : In (Some j, render r) t) by (apply (member_start _ _ _ S); apply in_texts; [exact N|exists r; split; [exact D|reflexivity]]).
    destruct (Q _ _ I J) as [[-> ->]|(-> & E & H)].
    + left. left. rewrite (one_text _ _ _ _ T P M). reflexivity.
    + right. split; [intros [W|W]; [exact (E (eq_sym W))|exact (H W)]|]. split; [|exact M]. intros [W|[]]. exact (K _ I (eq_sym W)).
  - intros [[E|[]]|(D & _ & I)].
    + injection E as <- <-. unfold passes in P. apply (member_start _ _ _ S) in P. apply in_texts in P as (r & P & <-); [|exact N].
      exists r. split; [|reflexivity]. apply G. exists first. split; [exact P|]. rewrite O, String.eqb_refl. left. reflexivity.
    + pose proof I as I'. apply (member_start _ _ _ S) in I'. apply in_texts in I' as (r & I' & <-); [|exact N].
      exists r. split; [|reflexivity]. apply G. exists k. split; [exact I'|]. rewrite O. destruct (String.eqb_spec k first) as [->|E]; [exfalso; apply D; left; reflexivity|].
      destruct (mem_str k gone) eqn:H; [apply mem_str_In in H; exfalso; apply D; right; exact H|]. left. reflexivity.
Qed.
Ltac txo := unfold lit, call_of; cbn [lines listed handed ordinal]; repeat first [rewrite render_more | rewrite render_cons]; rewrite ?render_one, ?join_commas; cbn [content render];
  unfold nl; repeat (progress (cbn [append]; rewrite ?app_assoc_s, ?app_nil_r_s)); reflexivity.
(** The programs. *)
Lemma double_runs c d i x o : api_known c None x ->
  dget String.eqb "out" (add_missing (change_rope (row_of c) [] d) (default_ropes (row_of c))) = Some o ->
  exists q s, exec c g_DoubleAssignMatcher (st [] d None i false) = Ret (Some (Text q), s) /\
    render q = lines ["out1, out2 = " ++ call_of x (texts (ddel String.eqb "out" (add_missing (change_rope (row_of c) [] d) (default_ropes (row_of c)))));
                      handed "" (render o) 0 ["out1"; "out2"]].
Proof.
  intros A O. unfold api_known in A. eexists; eexists; split; [opened g_DoubleAssignMatcher; unfold st; go|]. txo.
Qed.
Lemma triple_runs c d i x o : api_known c None x ->
  dget String.eqb "out" (add_missing (change_rope (row_of c) [] d) (default_ropes (row_of c))) = Some o ->
  exists q s, exec c g_TripleAssignMatcher (st [] d None i false) = Ret (Some (Text q), s) /\
    render q = lines ["out1, out2, out3 = " ++ call_of x (texts (ddel String.eqb "out" (add_missing (change_rope (row_of c) [] d) (default_ropes (row_of c)))));
                      handed "" (render o) 0 ["out1"; "out2"; "out3"]].
Proof.
  intros A O. unfold api_known in A. eexists; eexists; split; [opened g_TripleAssignMatcher; unfold st; go|]. txo.
Qed.
Lemma linalg_lu_runs c d i a o : dget String.eqb "A" d = Some a -> dget String.eqb "out" d = Some o -> String.eqb (render o) "" = false ->
  exists q s, exec c g_LinalgLuMatcher (st [] d None i false) = Ret (Some (Text q), s) /\
    render q = lines ["tmp_lu, tmp_p = " ++ call_of "paddle.linalg.lu" (texts (dupdate String.eqb (dset String.eqb "x" a []) (ddel String.eqb "A" (ddel String.eqb "out" d))));
                      "P, L, U = paddle.linalg.lu_unpack(tmp_lu, tmp_p)"; handed "" (render o) 0 ["P"; "L"; "U"]].
Proof.
  intros A O E. eexists; eexists; split; [opened g_LinalgLuMatcher; unfold st; go|]. txo.
Qed.
Lemma lu_runs c d i x a o names : api_known c None x -> dget String.eqb "A" d = Some a -> dget String.eqb "out" d = Some o -> String.eqb (render o) "" = false ->
  (names = ["tmp_lu"; "tmp_p"] /\ forall f, dget String.eqb "get_infos" d = Some f -> String.eqb (render f) "(False)" = true) \/
  (names = ["tmp_lu"; "tmp_p"; "tmp_info"] /\ exists f, dget String.eqb "get_infos" d = Some f /\ String.eqb (render f) "(False)" = false) ->
  exists q s, exec c g_LuMatcher (st [] d None i false) = Ret (Some (Text q), s) /\
    render q = lines [listed names ++ " = " ++ call_of x (texts (dupdate String.eqb (dset String.eqb "x" a []) (ddel String.eqb "A" (ddel String.eqb "out" d))));
                      handed "" (render o) 0 names].
Proof.
  intros K A O E H. unfold api_known in K.
  destruct H as [[-> F]|[-> (f & F & B)]]; [destruct (dget String.eqb "get_infos" d) as [f|] eqn:G; [specialize (F f eq_refl)|]|];
    (eexists; eexists; split; [opened g_LuMatcher; unfold st; go|]; txo).
Qed.
Lemma svd_runs c d i x a o p : api_known c None x -> dget String.eqb "compute_uv" d = None -> dget String.eqb "input" d = Some a ->
  dget String.eqb "out" d = Some o -> String.eqb (render o) "None" = false ->
  match dget String.eqb "some" d with
  | Some f => p = dset String.eqb "full_matrices" (lit "not " ++ [MkPiece (origins f) (strip_by (fun c => mem_char c "()") (render f))])%list (ddel String.eqb "some" (dset String.eqb "x" a (ddel String.eqb "input" d)))
  | None => p = dset String.eqb "x" a (ddel String.eqb "input" d)
  end ->
  exists q s, exec c g_SvdMatcher (st [] d None i false) = Ret (Some (Text q), s) /\
    render q = lines ["tmp_u, tmp_s, tmp_v = " ++ call_of x (texts (ddel String.eqb "out" p)); handed "" (render o) 0 ["tmp_u"; "tmp_s"; "tmp_v.conj().t()"]].
Proof.
  intros K U A O E. unfold api_known in K. destruct (dget String.eqb "some" d) as [f|] eqn:F; intros ->;
    (eexists; eexists; split; [opened g_SvdMatcher; unfold st; go|]; txo).
Qed.
Lemma slogdet_runs c d i a o : (dget String.eqb "input" d = Some a \/ (dget String.eqb "input" d = None /\ dget String.eqb "A" d = Some a)) ->
  dget String.eqb "out" d = Some o -> String.eqb (render o) "None" = false ->
  exists q s, exec c g_SLogDetMatcher (st [] d None i false) = Ret (Some (Text q), s) /\
    render q = lines ["res = paddle.linalg.slogdet(" ++ render a ++ ")"; handed "" (render o) 0 ["res[0]"; "res[1]"]].
Proof.
  intros [A|[B A]] O E; (eexists; eexists; split; [opened g_SLogDetMatcher; unfold st; go|]; txo).
Qed.
Lemma inv_runs c d i a o : dget String.eqb "A" d = Some a -> dget String.eqb "out" d = Some o -> String.eqb (render o) "None" = false ->
  exists q s, exec c g_LinalgInvExMatcher (st [] d None i false) = Ret (Some (Text q), s) /\
    render q = lines ["out1 = paddle.linalg.inv(" ++ render a ++ ")"; "out2 = paddle.zeros(" ++ render a ++ ".shape[:-2], dtype=""int32"")";
                      handed "output=" (render o) 0 ["out1"; "out2"]].
Proof.
  intros A O E; (eexists; eexists; split; [opened g_LinalgInvExMatcher; unfold st; go|]; txo).
Qed.
Lemma cholesky_runs c d i a o w : dget String.eqb "input" d = Some a -> dget String.eqb "out" d = Some o -> String.eqb (render o) "None" = false ->
  match dget String.eqb "upper" d with Some f => f | None => lit "False" end = w ->
  exists q s, exec c g_LinalgCholeskyExMatcher (st [] d None i false) = Ret (Some (Text q), s) /\
    render q = lines ["out1 = " ++ call_of "paddle.linalg.cholesky" [("x", render a); ("upper", render w)]; "out2 = paddle.zeros(" ++ render a ++ ".shape[:-2], dtype=""int32"")";
                      handed "output=" (render o) 0 ["out1"; "out2"]].
Proof.
  intros A O E W. destruct (dget String.eqb "upper" d) as [f|] eqn:F; subst w; (eexists; eexists; split; [opened g_LinalgCholeskyExMatcher; unfold st; go|]; unfold call_of; cbn [commas]; txo).
Qed.
Lemma solve_runs c d i x a b o : api_known c None x -> dget String.eqb "A" d = Some a -> dget String.eqb "input" d = Some b -> dget String.eqb "out" d = Some o -> String.eqb (render o) "" = false ->
  dget String.eqb "x" (dupdate String.eqb (dset String.eqb "y" b (dset String.eqb "x" a [])) (ddel String.eqb "input" (ddel String.eqb "A" (ddel String.eqb "out" d)))) = Some a ->
  exists q s, exec c g_TriangularSolveMatcher (st [] d None i false) = Ret (Some (Text q), s) /\
    render q = lines [handed "" (render o) 0 [call_of x (texts (dupdate String.eqb (dset String.eqb "y" b (dset String.eqb "x" a [])) (ddel String.eqb "input" (ddel String.eqb "A" (ddel String.eqb "out" d))))); render a]].
Proof.
  intros K A B O E X. unfold api_known in K. eexists; eexists; split; [opened g_TriangularSolveMatcher; unfold st; go|]; txo.
Qed.
(** ... and without a tuple. *)
Ltac absent H := let X := fresh in destruct (dget String.eqb "out" _) as [o|] eqn:X; [specialize (H o eq_refl)|].
Lemma slogdet_plain c d i a : (dget String.eqb "input" d = Some a \/ (dget String.eqb "input" d = None /\ dget String.eqb "A" d = Some a)) ->
  (forall o, dget String.eqb "out" d = Some o -> String.eqb (render o) "None" = true) ->
  exists q s, exec c g_SLogDetMatcher (st [] d None i false) = Ret (Some (Text q), s) /\
    render q = lines ["res = paddle.linalg.slogdet(" ++ render a ++ ")"; "res[0], res[1].astype(""float32"")"].
Proof.
  intros [A|[B A]] H; absent H; (eexists; eexists; split; [opened g_SLogDetMatcher; unfold st; go|]; txo).
Qed.
Lemma inv_plain c d i a : dget String.eqb "A" d = Some a -> (forall o, dget String.eqb "out" d = Some o -> String.eqb (render o) "None" = true) ->
  exists q s, exec c g_LinalgInvExMatcher (st [] d None i false) = Ret (Some (Text q), s) /\
    render q = lines ["(paddle.linalg.inv(" ++ render a ++ "), paddle.zeros(" ++ render a ++ ".shape[:-2], dtype=""int32""))"].
Proof.
  intros A H; absent H; (eexists; eexists; split; [opened g_LinalgInvExMatcher; unfold st; go|]; txo).
Qed.

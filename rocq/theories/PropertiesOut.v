(** C140: results that are wanted in a tuple of the caller's. *)
From Verif Require Import PyStr PyStrFacts PyDict PyDictFacts Ast Args ArgsFacts UtilsFile TablesData Generate GenerateData GenerateRows PropertiesGenerate FlagSpec FlagFacts DatasetSpec DatasetFacts DatasetCalls OutSpec OutFacts.
Opaque api_mapping generators.

Ltac row_found := eexists; eexists; split; [vm_compute; reflexivity|split; [vm_compute; reflexivity|]].
Ltac made_it := match goal with |- made_of ?l ?t _ _ => eassert (M : made_of l t _ _) by made; exact M end.
Lemma not_none o : o <> "None" -> String.eqb o "None" = false. Proof. intros H. apply String.eqb_neq. exact H. Qed.
Lemma not_empty o : o <> "" -> String.eqb o "" = false. Proof. intros H. apply String.eqb_neq. exact H. Qed.

Lemma pair_rows n api first : In (n, (api, first)) [("torch.linalg.eig", ("paddle.linalg.eig", "input")); ("torch.linalg.lu_factor", ("paddle.linalg.lu", "A"))] ->
  exists s r, find (fun r => String.eqb (r_name r) n) api_mapping = Some r /\ generator r = Some (s, g_DoubleAssignMatcher) /\
    paddle_api (r_entry r) = Some api /\ unsupport_args (r_entry r) = [] /\ kwargs_change (r_entry r) = [(first, TName "x")] /\ paddle_default_kwargs (r_entry r) = [] /\
    mem_str "x" (position_args (r_entry r) ++ args_list (r_entry r) ++ overload_args_list (r_entry r))%list = false /\ first <> "None" /\ first <> "x".
Proof.
  intros [E|[E|[]]]; injection E as <- <- <-; row_found;
    (split; [reflexivity|split; [reflexivity|split; [reflexivity|split; [reflexivity|split; [vm_compute; reflexivity|split; discriminate]]]]]).
Qed.
Lemma triple_rows n api gone k : In (n, (api, (gone, k))) [("torch.linalg.lu_factor_ex", ("paddle.linalg.lu", ("check_errors", "get_infos"))); ("torch.linalg.svd", ("paddle.linalg.svd", ("driver", "full_matrices")))] ->
  exists s r, find (fun r => String.eqb (r_name r) n) api_mapping = Some r /\ generator r = Some (s, g_TripleAssignMatcher) /\
    paddle_api (r_entry r) = Some api /\ unsupport_args (r_entry r) = [] /\ kwargs_change (r_entry r) = [("A", TName "x"); gone_one gone] /\ paddle_default_kwargs (r_entry r) = [(k, "True")] /\
    mem_str "x" (position_args (r_entry r) ++ args_list (r_entry r) ++ overload_args_list (r_entry r))%list = false.
Proof.
  intros [E|[E|[]]]; injection E as <- <- <- <-; row_found;
    (split; [reflexivity|split; [reflexivity|split; [reflexivity|split; [reflexivity|vm_compute; reflexivity]]]]).
Qed.

(** Two results: the call is made once with the arguments given, and its results are assigned
    to the elements of the tuple in order. *)
Theorem C140_two_results :
  forall n api first args kwargs t a o i,
    In (n, (api, first)) [("torch.linalg.eig", ("paddle.linalg.eig", "input")); ("torch.linalg.lu_factor", ("paddle.linalg.lu", "A"))] ->
    reads_as n args kwargs t -> passes t first a -> passes t "out" o ->
    exists q u l,
      answer n None args kwargs i = Some (Ret (Converted q u)) /\
      render q = lines ["out1, out2 = " ++ call_of api l; handed "" o 0 ["out1"; "out2"]] /\
      made_of l t ["out"; first] [("x", a)].
Proof.
  intros n api first args kwargs t a o i I R P O. destruct (pair_rows _ _ _ I) as (s & r & F & G & A & U & C & D & X & N0 & N1).
  pose proof (known_star n r args kwargs t F U R) as S. pose proof (fun w => unknown n r args kwargs t F U R "x" w X) as NX.
  pose proof (keys_once n args kwargs t R S) as K. pose proof (reads_nodup _ _ _ _ R) as T.
  destruct (answer_line n r s _ args kwargs t i F G R) as (c & E & Q & H).
  assert (M : made_of (texts (add_missing (change_rope (row_of c) [] (start t)) (default_ropes (row_of c)))) t [first] [("x", a)]).
  { unfold default_ropes. rewrite E, D. cbn [map add_missing fold_left].
    apply made_change; [exact K|exact S|exact T|exact C|intros []|exact N1|intros []|exact P|exact NX]. }
  assert (Z : exists x, dget String.eqb "out" (add_missing (change_rope (row_of c) [] (start t)) (default_ropes (row_of c))) = Some x /\ render x = o).
  { pose proof M as [M1 M2]. rewrite texts_keys in M1. apply in_texts; [exact M1|]. apply M2. right. split; [|split; [|exact O]].
    - destruct I as [I|[I|[]]]; injection I as <- <- <-; intros [W|[]]; discriminate W.
    - intros [W|[]]; discriminate W. }
  destruct Z as (x & Z & <-). destruct (double_runs c (start t) i api x (Q _ A) Z) as (q & s1 & B & V).
  eexists; eexists; eexists. split; [eapply H; [exact B|rewrite V; reflexivity]|]. split; [exact V|]. apply made_out; [exact M|]. intros [W|[]]; discriminate W.
Qed.
Print Assumptions C140_two_results.
(** Three results; an argument that Paddle needs is added where it is not given. *)
Theorem C140_three_results :
  forall n api gone k args kwargs t a o v i,
    In (n, (api, (gone, k))) [("torch.linalg.lu_factor_ex", ("paddle.linalg.lu", ("check_errors", "get_infos"))); ("torch.linalg.svd", ("paddle.linalg.svd", ("driver", "full_matrices")))] ->
    reads_as n args kwargs t -> passes t "A" a -> passes t "out" o -> given_or t k "True" v ->
    exists q u l,
      answer n None args kwargs i = Some (Ret (Converted q u)) /\
      render q = lines ["out1, out2, out3 = " ++ call_of api l; handed "" o 0 ["out1"; "out2"; "out3"]] /\
      made_of l t ["out"; "A"; gone] [("x", a); (k, v)].
Proof.
  intros n api gone k args kwargs t a o v i I R P O V. destruct (triple_rows _ _ _ _ I) as (s & r & F & G & A & U & C & D & X).
  pose proof (known_star n r args kwargs t F U R) as S. pose proof (fun w => unknown n r args kwargs t F U R "x" w X) as NX.
  pose proof (keys_once n args kwargs t R S) as K. pose proof (reads_nodup _ _ _ _ R) as T.
  destruct (answer_line n r s _ args kwargs t i F G R) as (c & E & Q & H).
  assert (W : ~ In k ["A"; gone] /\ k <> "x" /\ "A" <> gone /\ gone <> "x" /\ "out" <> gone /\ "out" <> k).
  { clear -I. destruct I as [I|[I|[]]]; injection I as <- <- <- <-; (split; [intros [W|[W|[]]]; discriminate W|]; repeat (split; [discriminate|]); discriminate). }
  destruct W as (W1 & W2 & W3 & W4 & W5 & W6).
  assert (M : made_of (texts (add_missing (change_rope (row_of c) [] (start t)) (default_ropes (row_of c)))) t ["A"; gone] [("x", a); (k, v)]).
  { unfold default_ropes. rewrite E, D. cbn [map fst snd].
    apply (made_missing t _ ["A"; gone] [("x", a)] k "True" v T); [|exact W1|intros [J|[]]; exact (W2 (eq_sym J))|exact V].
    apply (made_change t _ "A" [gone]); [exact K|exact S|exact T|exact C|intros [J|[]]; exact (W3 (eq_sym J))|discriminate|intros [J|[]]; exact (W4 J)|exact P|exact NX]. }
  assert (Z : exists x, dget String.eqb "out" (add_missing (change_rope (row_of c) [] (start t)) (default_ropes (row_of c))) = Some x /\ render x = o).
  { pose proof M as [M1 M2]. rewrite texts_keys in M1. apply in_texts; [exact M1|]. apply M2. right. split; [|split; [|exact O]].
    - intros [J|[J|[]]]; [discriminate J|exact (W5 (eq_sym J))].
    - intros [J|[J|[]]]; [discriminate J|exact (W6 (eq_sym J))]. }
  destruct Z as (x & Z & <-). destruct (triple_runs c (start t) i api x (Q _ A) Z) as (q & s1 & B & Y).
  eexists; eexists; eexists. split; [eapply H; [exact B|rewrite Y; reflexivity]|]. split; [exact Y|]. apply made_out; [exact M|].
  intros [J|[J|[]]]; [discriminate J|exact (W6 (eq_sym J))].
Qed.
Print Assumptions C140_three_results.

Lemma plain_row n b api r s : find (fun r => String.eqb (r_name r) n) api_mapping = Some r -> generator r = Some (s, b) -> paddle_api (r_entry r) = Some api ->
  forall args kwargs t i, unsupport_args (r_entry r) = [] -> reads_as n args kwargs t ->
  (forall w, ~ In (None, w) t) /\ NoDup (dkeys (start t)) /\
  exists c, api_known c None api /\
  forall q s y, exec c b (st [] (start t) None i false) = Ret (Some (Text q), s) -> render q = String nl y ->
    answer n None args kwargs i = Some (Ret (Converted q (utils s))).
Proof.
  intros F G A args kwargs t i U R. pose proof (known_star n r args kwargs t F U R) as S. split; [exact S|].
  split; [exact (keys_once n args kwargs t R S)|]. destruct (answer_line n r s _ args kwargs t i F G R) as (c & E & Q & H).
  exists c. split; [exact (Q _ A)|exact H].
Qed.
Lemma made_lu t a : NoDup (dkeys (start t)) -> (forall w, ~ In (None, w) t) -> (forall v, ~ In (Some "x", v) t) ->
  made_of (texts (dupdate String.eqb (dset String.eqb "x" a []) (ddel String.eqb "A" (ddel String.eqb "out" (start t))))) t ["A"; "out"] [("x", render a)].
Proof.
  intros N S X. apply (made_update t [("x", a)]); [constructor; [intros []|constructor]| |].
  - made_it.
  - intros k v [<-|[]]. right. apply X.
Qed.
(** The factors that torch.linalg.lu returns. *)
Theorem C140_factors :
  forall args kwargs t a o i,
    reads_as "torch.linalg.lu" args kwargs t -> passes t "A" a -> passes t "out" o -> o <> "" ->
    exists q u l,
      answer "torch.linalg.lu" None args kwargs i = Some (Ret (Converted q u)) /\
      render q = lines ["tmp_lu, tmp_p = " ++ call_of "paddle.linalg.lu" l; "P, L, U = paddle.linalg.lu_unpack(tmp_lu, tmp_p)"; handed "" o 0 ["P"; "L"; "U"]] /\
      made_of l t ["A"; "out"] [("x", a)].
Proof.
  intros args kwargs t a o i R P O Oe.
  assert (J : exists s r, find (fun r => String.eqb (r_name r) "torch.linalg.lu") api_mapping = Some r /\ generator r = Some (s, g_LinalgLuMatcher) /\
    paddle_api (r_entry r) = Some "paddle.linalg.lu" /\ unsupport_args (r_entry r) = [] /\ mem_str "x" (position_args (r_entry r) ++ args_list (r_entry r) ++ overload_args_list (r_entry r))%list = false)
    by (row_found; split; [reflexivity|split; [reflexivity|vm_compute; reflexivity]]).
  destruct J as (s & r & F & G & A & U & X). pose proof (fun w => unknown _ r args kwargs t F U R "x" w X) as NX.
  destruct (plain_row _ _ _ r s F G A args kwargs t i U R) as (S & N & c & _ & H).
  destruct (linalg_lu_runs c (start t) i _ _ (got _ args kwargs t R "A" a ltac:(discriminate) P) (got _ args kwargs t R "out" o ltac:(discriminate) O)) as (q & s1 & B & V);
    [rewrite render_one; apply not_empty; exact Oe|]. rewrite !render_one in V.
  eexists; eexists; eexists. split; [eapply H; [exact B|rewrite V; reflexivity]|]. split; [exact V|].
  pose proof (made_lu t [MkPiece [Argument "A"] a] N S NX) as M. rewrite render_one in M. exact M.
Qed.
Print Assumptions C140_factors.
(** torch.lu: a third result where get_infos is given and not the literal False. *)
Theorem C140_lu :
  forall args kwargs t a o names i,
    reads_as "torch.lu" args kwargs t -> passes t "A" a -> passes t "out" o -> o <> "" ->
    (names = ["tmp_lu"; "tmp_p"] /\ forall f, passes t "get_infos" f -> f = "(False)") \/
    (names = ["tmp_lu"; "tmp_p"; "tmp_info"] /\ exists f, passes t "get_infos" f /\ f <> "(False)") ->
    exists q u l,
      answer "torch.lu" None args kwargs i = Some (Ret (Converted q u)) /\
      render q = lines [listed names ++ " = " ++ call_of "paddle.linalg.lu" l; handed "" o 0 names] /\
      made_of l t ["A"; "out"] [("x", a)].
Proof.
  intros args kwargs t a o names i R P O Oe C.
  assert (J : exists s r, find (fun r => String.eqb (r_name r) "torch.lu") api_mapping = Some r /\ generator r = Some (s, g_LuMatcher) /\
    paddle_api (r_entry r) = Some "paddle.linalg.lu" /\ unsupport_args (r_entry r) = [] /\ mem_str "x" (position_args (r_entry r) ++ args_list (r_entry r) ++ overload_args_list (r_entry r))%list = false)
    by (row_found; split; [reflexivity|split; [reflexivity|vm_compute; reflexivity]]).
  destruct J as (s & r & F & G & A & U & X). pose proof (fun w => unknown _ r args kwargs t F U R "x" w X) as NX.
  destruct (plain_row _ _ _ r s F G A args kwargs t i U R) as (S & N & c & K & H).
  destruct (lu_runs c (start t) i _ _ _ names K (got _ args kwargs t R "A" a ltac:(discriminate) P) (got _ args kwargs t R "out" o ltac:(discriminate) O)) as (q & s1 & B & V).
  - rewrite render_one. apply not_empty. exact Oe.
  - destruct C as [[E C]|[E (f & C & D)]]; [left|right]; (split; [exact E|]).
    + intros f W. apply String.eqb_eq. apply C. apply (member_start _ _ _ S). apply in_texts; [exact N|]. exists f. split; [exact W|reflexivity].
    + eexists. split; [exact (got _ args kwargs t R "get_infos" f ltac:(discriminate) C)|]. rewrite render_one. apply String.eqb_neq. exact D.
  - rewrite !render_one in V. eexists; eexists; eexists. split; [eapply H; [exact B|rewrite V; destruct C as [[-> _]|[-> _]]; reflexivity]|]. split; [exact V|].
    pose proof (made_lu t [MkPiece [Argument "A"] a] N S NX) as M. rewrite render_one in M. exact M.
Qed.
Print Assumptions C140_lu.
(** The solution and a copy of the matrix. *)
Theorem C140_triangular_solve :
  forall args kwargs t a b o i,
    reads_as "torch.triangular_solve" args kwargs t -> passes t "A" a -> passes t "input" b -> passes t "out" o -> o <> "" ->
    exists q u l,
      answer "torch.triangular_solve" None args kwargs i = Some (Ret (Converted q u)) /\
      render q = lines [handed "" o 0 [call_of "paddle.linalg.triangular_solve" l; a]] /\
      made_of l t ["input"; "A"; "out"] [("x", a); ("y", b)].
Proof.
  intros args kwargs t a b o i R P Pb O Oe.
  assert (J : exists s r, find (fun r => String.eqb (r_name r) "torch.triangular_solve") api_mapping = Some r /\ generator r = Some (s, g_TriangularSolveMatcher) /\
    paddle_api (r_entry r) = Some "paddle.linalg.triangular_solve" /\ unsupport_args (r_entry r) = [] /\
    mem_str "x" (position_args (r_entry r) ++ args_list (r_entry r) ++ overload_args_list (r_entry r))%list = false /\
    mem_str "y" (position_args (r_entry r) ++ args_list (r_entry r) ++ overload_args_list (r_entry r))%list = false)
    by (row_found; split; [reflexivity|split; [reflexivity|split; vm_compute; reflexivity]]).
  destruct J as (s & r & F & G & A & U & X & Y). pose proof (fun w => unknown _ r args kwargs t F U R "x" w X) as NX. pose proof (fun w => unknown _ r args kwargs t F U R "y" w Y) as NY.
  destruct (plain_row _ _ _ r s F G A args kwargs t i U R) as (S & N & c & K & H).
  set (p := [("x", [MkPiece [Argument "A"] a]); ("y", [MkPiece [Argument "input"] b])]).
  set (w := ddel String.eqb "input" (ddel String.eqb "A" (ddel String.eqb "out" (start t)))).
  assert (Np : NoDup (dkeys p)) by (constructor; [intros [W|[]]; discriminate W|constructor; [intros []|constructor]]).
  assert (M : made_of (texts (dupdate String.eqb p w)) t ["input"; "A"; "out"] [("x", a); ("y", b)]).
  { pose proof (made_update t p w ["input"; "A"; "out"] Np) as Z. cbn [texts p map fst snd] in Z. rewrite !render_one in Z. apply Z.
    - unfold w. made_it.
    - intros k v [<-|[<-|[]]]; right; [apply NX|apply NY]. }
  assert (Gx : dget String.eqb "x" (dupdate String.eqb p w) = Some [MkPiece [Argument "A"] a]).
  { rewrite GenerateRel.update_get.
    - destruct (dget String.eqb "x" w) as [z|] eqn:Z; [|reflexivity]. exfalso.
      assert (Nw : NoDup (dkeys w)) by (unfold w; repeat apply out_nodup; exact N).
      apply (NX (render z)). apply (member_start _ _ _ S).
      assert (W : In ("x", render z) (texts w)) by (apply in_texts; [exact Nw|exists z; split; [exact Z|reflexivity]]).
      unfold w in W. rewrite !member_out in W by (repeat apply out_nodup; exact N). apply W.
    - unfold w; repeat apply out_nodup; exact N. }
  destruct (solve_runs c (start t) i _ _ _ _ K (got _ args kwargs t R "A" a ltac:(discriminate) P) (got _ args kwargs t R "input" b ltac:(discriminate) Pb) (got _ args kwargs t R "out" o ltac:(discriminate) O)) as (q & s1 & B & V).
  - rewrite render_one. apply not_empty. exact Oe.
  - exact Gx.
  - rewrite !render_one in V. eexists; eexists; eexists. split; [eapply H; [exact B|rewrite V; reflexivity]|]. split; [exact V|exact M].
Qed.
Print Assumptions C140_triangular_solve.

(** torch.svd: "some" is turned into its opposite, and the third result into V. *)
Theorem C140_svd :
  forall args kwargs t a o new i,
    reads_as "torch.svd" args kwargs t -> (forall w, ~ In (None, w) t) -> (forall w, ~ In (Some "compute_uv", w) t) ->
    passes t "input" a -> passes t "out" o -> o <> "None" ->
    (exists f, passes t "some" f /\ new = [("x", a); ("full_matrices", "not " ++ strip_by (fun c => mem_char c "()") f)]) \/
    ((forall f, ~ passes t "some" f) /\ new = [("x", a)]) ->
    exists q u l dropped,
      answer "torch.svd" None args kwargs i = Some (Ret (Converted q u)) /\
      render q = lines ["tmp_u, tmp_s, tmp_v = " ++ call_of "paddle.linalg.svd" l; handed "" o 0 ["tmp_u"; "tmp_s"; "tmp_v.conj().t()"]] /\
      made_of l t dropped new /\ (forall k, In k dropped -> In k ["input"; "some"; "out"]) /\ In "out" dropped /\ In "input" dropped /\ (In "some" dropped \/ forall f, ~ passes t "some" f).
Proof.
  intros args kwargs t a o new i R S C P O Oe W.
  assert (J : exists s r, find (fun r => String.eqb (r_name r) "torch.svd") api_mapping = Some r /\ generator r = Some (s, g_SvdMatcher) /\ paddle_api (r_entry r) = Some "paddle.linalg.svd")
    by (row_found; reflexivity).
  destruct J as (s & r & F & G & A). pose proof (keys_once _ args kwargs t R S) as N.
  destruct (answer_line _ r s _ args kwargs t i F G R) as (c & E & Q & H).
  pose proof (got _ args kwargs t R "input" a ltac:(discriminate) P) as Gi. pose proof (got _ args kwargs t R "out" o ltac:(discriminate) O) as Go.
  pose proof (not_got _ args kwargs t R S "compute_uv" C) as Gc.
  destruct W as [(f & W & ->)|[W ->]].
  - pose proof (got _ args kwargs t R "some" f ltac:(discriminate) W) as Gs.
    destruct (svd_runs c (start t) i _ _ _ (dset String.eqb "full_matrices" (lit "not " ++ [MkPiece [Argument "some"] (strip_by (fun c => mem_char c "()") f)])%list (ddel String.eqb "some" (dset String.eqb "x" [MkPiece [Argument "input"] a] (ddel String.eqb "input" (start t))))) (Q _ A) Gc Gi Go) as (q & s1 & B & V).
    + rewrite render_one. apply not_none. exact Oe.
    + rewrite Gs, render_one. reflexivity.
    + rewrite !render_one in V. eexists; eexists; eexists; exists ["out"; "some"; "input"]. split; [eapply H; [exact B|rewrite V; reflexivity]|]. split; [exact V|].
      split; [|split; [intros k [<-|[<-|[<-|[]]]]; cbn; tauto|cbn; tauto]].
      match goal with |- made_of ?l ?t _ _ => eassert (M : made_of l t _ _) by made end.
      rewrite render_one, render_more in M. unfold lit in M at 2. rewrite !render_one in M. exact M.
  - pose proof (not_got _ args kwargs t R S "some" W) as Gs.
    destruct (svd_runs c (start t) i _ _ _ (dset String.eqb "x" [MkPiece [Argument "input"] a] (ddel String.eqb "input" (start t))) (Q _ A) Gc Gi Go) as (q & s1 & B & V).
    + rewrite render_one. apply not_none. exact Oe.
    + rewrite Gs. reflexivity.
    + rewrite !render_one in V. eexists; eexists; eexists; exists ["out"; "input"]. split; [eapply H; [exact B|rewrite V; reflexivity]|]. split; [exact V|].
      split; [|split; [intros k [<-|[<-|[]]]; cbn; tauto|split; [cbn; tauto|split; [cbn; tauto|right; exact W]]]].
      match goal with |- made_of ?l ?t _ _ => eassert (M : made_of l t _ _) by made end. rewrite render_one in M. exact M.
Qed.
Print Assumptions C140_svd.
(** Sign and logarithm of a determinant. *)
Theorem C140_slogdet :
  forall n first args kwargs t a o i,
    In (n, first) [("torch.slogdet", "input"); ("torch.linalg.slogdet", "A")] ->
    reads_as n args kwargs t -> passes t first a -> passes t "out" o -> o <> "None" ->
    exists q u,
      answer n None args kwargs i = Some (Ret (Converted q u)) /\
      render q = lines ["res = paddle.linalg.slogdet(" ++ a ++ ")"; handed "" o 0 ["res[0]"; "res[1]"]].
Proof.
  intros n first args kwargs t a o i I R P O Oe.
  assert (J : exists s r, find (fun r => String.eqb (r_name r) n) api_mapping = Some r /\ generator r = Some (s, g_SLogDetMatcher) /\ paddle_api (r_entry r) = Some "paddle.linalg.slogdet" /\
     unsupport_args (r_entry r) = [] /\ (first = "input" \/ (first = "A" /\ mem_str "input" (position_args (r_entry r) ++ args_list (r_entry r) ++ overload_args_list (r_entry r))%list = false)))
    by (destruct I as [I|[I|[]]]; injection I as <- <-; row_found; (split; [reflexivity|split; [reflexivity|]]); [left; reflexivity|right; split; [reflexivity|vm_compute; reflexivity]]).
  destruct J as (s & r & F & G & A & U & C). destruct (plain_row _ _ _ r s F G A args kwargs t i U R) as (S & N & c & K & H).
  destruct (slogdet_runs c (start t) i [MkPiece [Argument first] a] [MkPiece [Argument "out"] o]) as (q & s1 & B & V).
  - destruct C as [->|[-> X]]; [left|right].
    + exact (got _ args kwargs t R "input" a ltac:(discriminate) P).
    + split; [|exact (got _ args kwargs t R "A" a ltac:(discriminate) P)]. apply (not_got _ args kwargs t R S). intros w. exact (unknown _ r args kwargs t F U R "input" w X).
  - exact (got _ args kwargs t R "out" o ltac:(discriminate) O).
  - rewrite render_one. apply not_none. exact Oe.
  - rewrite !render_one in V. eexists; eexists. split; [eapply H; [exact B|rewrite V; reflexivity]|exact V].
Qed.
Print Assumptions C140_slogdet.
(** A result and the codes that say that it could be computed. *)
Theorem C140_inverse :
  forall args kwargs t a o i,
    reads_as "torch.linalg.inv_ex" args kwargs t -> passes t "A" a -> passes t "out" o -> o <> "None" ->
    exists q u,
      answer "torch.linalg.inv_ex" None args kwargs i = Some (Ret (Converted q u)) /\
      render q = lines ["out1 = paddle.linalg.inv(" ++ a ++ ")"; "out2 = paddle.zeros(" ++ a ++ ".shape[:-2], dtype=""int32"")"; handed "output=" o 0 ["out1"; "out2"]].
Proof.
  intros args kwargs t a o i R P O Oe.
  assert (J : exists s r, find (fun r => String.eqb (r_name r) "torch.linalg.inv_ex") api_mapping = Some r /\ generator r = Some (s, g_LinalgInvExMatcher) /\ paddle_api (r_entry r) = Some "paddle.linalg.inv" /\ unsupport_args (r_entry r) = [])
    by (row_found; split; reflexivity).
  destruct J as (s & r & F & G & A & U). destruct (plain_row _ _ _ r s F G A args kwargs t i U R) as (S & N & c & K & H).
  destruct (inv_runs c (start t) i _ _ (got _ args kwargs t R "A" a ltac:(discriminate) P) (got _ args kwargs t R "out" o ltac:(discriminate) O)) as (q & s1 & B & V).
  - rewrite render_one. apply not_none. exact Oe.
  - rewrite !render_one in V. eexists; eexists. split; [eapply H; [exact B|rewrite V; reflexivity]|exact V].
Qed.
Print Assumptions C140_inverse.
Theorem C140_cholesky :
  forall args kwargs t a o upper i,
    reads_as "torch.linalg.cholesky_ex" args kwargs t -> passes t "input" a -> passes t "out" o -> o <> "None" -> given_or t "upper" "False" upper ->
    exists q u,
      answer "torch.linalg.cholesky_ex" None args kwargs i = Some (Ret (Converted q u)) /\
      render q = lines ["out1 = " ++ call_of "paddle.linalg.cholesky" [("x", a); ("upper", upper)]; "out2 = paddle.zeros(" ++ a ++ ".shape[:-2], dtype=""int32"")"; handed "output=" o 0 ["out1"; "out2"]].
Proof.
  intros args kwargs t a o upper i R P O Oe W.
  assert (J : exists s r, find (fun r => String.eqb (r_name r) "torch.linalg.cholesky_ex") api_mapping = Some r /\ generator r = Some (s, g_LinalgCholeskyExMatcher) /\ paddle_api (r_entry r) = Some "paddle.linalg.cholesky" /\ unsupport_args (r_entry r) = [])
    by (row_found; split; reflexivity).
  destruct J as (s & r & F & G & A & U). destruct (plain_row _ _ _ r s F G A args kwargs t i U R) as (S & N & c & K & H).
  destruct (or_default _ args kwargs t R S "upper" "False" upper ltac:(discriminate) W) as (w & Y & WT).
  destruct (cholesky_runs c (start t) i _ _ w (got _ args kwargs t R "input" a ltac:(discriminate) P) (got _ args kwargs t R "out" o ltac:(discriminate) O)) as (q & s1 & B & V).
  - rewrite render_one. apply not_none. exact Oe.
  - exact Y.
  - rewrite !render_one, WT in V. eexists; eexists. split; [eapply H; [exact B|rewrite V; reflexivity]|exact V].
Qed.
Print Assumptions C140_cholesky.

(** Without a tuple, or with None for it, these return the results. *)
Theorem C140_nothing_wanted :
  (forall n first args kwargs t a i,
    In (n, first) [("torch.slogdet", "input"); ("torch.linalg.slogdet", "A")] ->
    reads_as n args kwargs t -> passes t first a -> (forall o, passes t "out" o -> o = "None") ->
    exists q u,
      answer n None args kwargs i = Some (Ret (Converted q u)) /\
      render q = lines ["res = paddle.linalg.slogdet(" ++ a ++ ")"; "res[0], res[1].astype(""float32"")"]) /\
  (forall args kwargs t a i,
    reads_as "torch.linalg.inv_ex" args kwargs t -> passes t "A" a -> (forall o, passes t "out" o -> o = "None") ->
    exists q u,
      answer "torch.linalg.inv_ex" None args kwargs i = Some (Ret (Converted q u)) /\
      render q = lines ["(paddle.linalg.inv(" ++ a ++ "), paddle.zeros(" ++ a ++ ".shape[:-2], dtype=""int32""))"]).
Proof.
  assert (Z : forall t, (forall w, ~ In (None, w) t) -> NoDup (dkeys (start t)) -> (forall o, passes t "out" o -> o = "None") -> forall o, dget String.eqb "out" (start t) = Some o -> String.eqb (render o) "None" = true).
  { intros t S N H o D. apply String.eqb_eq. apply H. apply (member_start _ _ _ S). apply in_texts; [exact N|]. exists o. split; [exact D|reflexivity]. }
  split.
  - intros n first args kwargs t a i I R P O.
    assert (J : exists s r, find (fun r => String.eqb (r_name r) n) api_mapping = Some r /\ generator r = Some (s, g_SLogDetMatcher) /\ paddle_api (r_entry r) = Some "paddle.linalg.slogdet" /\
     unsupport_args (r_entry r) = [] /\ (first = "input" \/ (first = "A" /\ mem_str "input" (position_args (r_entry r) ++ args_list (r_entry r) ++ overload_args_list (r_entry r))%list = false)))
    by (destruct I as [I|[I|[]]]; injection I as <- <-; row_found; (split; [reflexivity|split; [reflexivity|]]); [left; reflexivity|right; split; [reflexivity|vm_compute; reflexivity]]).
    destruct J as (s & r & F & G & A & U & C). destruct (plain_row _ _ _ r s F G A args kwargs t i U R) as (S & N & c & K & H).
    destruct (slogdet_plain c (start t) i [MkPiece [Argument first] a]) as (q & s1 & B & V).
    + destruct C as [->|[-> X]]; [left|right].
      * exact (got _ args kwargs t R "input" a ltac:(discriminate) P).
      * split; [|exact (got _ args kwargs t R "A" a ltac:(discriminate) P)]. apply (not_got _ args kwargs t R S). intros w. exact (unknown _ r args kwargs t F U R "input" w X).
    + exact (Z t S N O).
    + rewrite !render_one in V. eexists; eexists. split; [eapply H; [exact B|rewrite V; reflexivity]|exact V].
  - intros args kwargs t a i R P O.
    assert (J : exists s r, find (fun r => String.eqb (r_name r) "torch.linalg.inv_ex") api_mapping = Some r /\ generator r = Some (s, g_LinalgInvExMatcher) /\ paddle_api (r_entry r) = Some "paddle.linalg.inv" /\ unsupport_args (r_entry r) = [])
      by (row_found; split; reflexivity).
    destruct J as (s & r & F & G & A & U). destruct (plain_row _ _ _ r s F G A args kwargs t i U R) as (S & N & c & K & H).
    destruct (inv_plain c (start t) i _ (got _ args kwargs t R "A" a ltac:(discriminate) P) (Z t S N O)) as (q & s1 & B & V).
    rewrite !render_one in V. eexists; eexists. split; [eapply H; [exact B|rewrite V; reflexivity]|exact V].
Qed.
Print Assumptions C140_nothing_wanted.
(** The others take None for a tuple: every such call subscripts None. *)
Theorem C140_none_refuted :
  forall n first, In (n, first) [("torch.linalg.eig", "input"); ("torch.linalg.lu_factor", "A"); ("torch.linalg.lu_factor_ex", "A"); ("torch.linalg.svd", "A"); ("torch.linalg.lu", "A"); ("torch.lu", "A")] ->
  forall args kwargs t a i, reads_as n args kwargs t -> passes t first a -> passes t "out" "None" ->
  exists q u, answer n None args kwargs i = Some (Ret (Converted q u)) /\ mentions (render q) "None[0]" /\ mentions (render q) "None[1]".
Proof.
  assert (G : forall (t : table) k v, (forall w, ~ In (None, w) t) -> exists w, given_or t k v w).
  { intros t k v _. destruct (dget key_eqb (Some k) t) as [w|] eqn:E.
    - exists w. left. apply (dget_some_in _ key_eqb_spec). exact E.
    - exists v. right. split; [reflexivity|]. intros w I. apply (dget_none_iff _ key_eqb_spec) in E. apply E. apply in_map_iff. exists (Some k, w). split; [reflexivity|exact I]. }
  assert (M : forall a b w, mentions b w -> mentions (a ++ b) w).
  { intros a b w (x & y & ->). exists (a ++ x), y. rewrite !app_assoc_s. reflexivity. }
  assert (L : forall x r w, mentions (lines r) w -> mentions (lines (x :: r)) w).
  { intros x r w H. cbn [lines]. apply (M (String nl x)). exact H. }
  assert (T0 : forall a w, mentions (w ++ a) w). { intros a w. exists "", a. reflexivity. }
  intros n first I args kwargs t a i R P O.
  destruct I as [I|[I|[I|[I|[I|[I|[]]]]]]]; injection I as <- <-.
  - destruct (C140_two_results "torch.linalg.eig" _ _ _ _ _ _ _ i ltac:(left; reflexivity) R P O) as (q & u & l & A & V & _).
    exists q, u. split; [exact A|]. rewrite V. split; apply L; [exists (String nl "paddle.assign(out1, "), ("), paddle.assign(out2, None[1])" ++ String nl "")|exists (String nl "paddle.assign(out1, None[0]), paddle.assign(out2, "), (")" ++ String nl "")]; reflexivity.
  - destruct (C140_two_results "torch.linalg.lu_factor" _ _ _ _ _ _ _ i ltac:(right; left; reflexivity) R P O) as (q & u & l & A & V & _).
    exists q, u. split; [exact A|]. rewrite V. split; apply L; [exists (String nl "paddle.assign(out1, "), ("), paddle.assign(out2, None[1])" ++ String nl "")|exists (String nl "paddle.assign(out1, None[0]), paddle.assign(out2, "), (")" ++ String nl "")]; reflexivity.
  - assert (J : exists v, given_or t "get_infos" "True" v).
    { apply G. intros w. destruct (triple_rows "torch.linalg.lu_factor_ex" _ _ _ ltac:(left; reflexivity)) as (s & r & F & _ & _ & U & _). exact (known_star _ r args kwargs t F U R w). }
    destruct J as (v & J).
    destruct (C140_three_results "torch.linalg.lu_factor_ex" _ _ _ _ _ _ _ _ _ i ltac:(left; reflexivity) R P O J) as (q & u & l & A & V & _).
    exists q, u. split; [exact A|]. rewrite V. split; apply L; [exists (String nl "paddle.assign(out1, "), ("), paddle.assign(out2, None[1]), paddle.assign(out3, None[2])" ++ String nl "")|exists (String nl "paddle.assign(out1, None[0]), paddle.assign(out2, "), ("), paddle.assign(out3, None[2])" ++ String nl "")]; reflexivity.
  - assert (J : exists v, given_or t "full_matrices" "True" v).
    { apply G. intros w. destruct (triple_rows "torch.linalg.svd" _ _ _ ltac:(right; left; reflexivity)) as (s & r & F & _ & _ & U & _). exact (known_star _ r args kwargs t F U R w). }
    destruct J as (v & J).
    destruct (C140_three_results "torch.linalg.svd" _ _ _ _ _ _ _ _ _ i ltac:(right; left; reflexivity) R P O J) as (q & u & l & A & V & _).
    exists q, u. split; [exact A|]. rewrite V. split; apply L; [exists (String nl "paddle.assign(out1, "), ("), paddle.assign(out2, None[1]), paddle.assign(out3, None[2])" ++ String nl "")|exists (String nl "paddle.assign(out1, None[0]), paddle.assign(out2, "), ("), paddle.assign(out3, None[2])" ++ String nl "")]; reflexivity.
  - destruct (C140_factors _ _ _ _ _ i R P O ltac:(discriminate)) as (q & u & l & A & V & _).
    exists q, u. split; [exact A|]. rewrite V. split; apply L; apply L; [exists (String nl "paddle.assign(P, "), ("), paddle.assign(L, None[1]), paddle.assign(U, None[2])" ++ String nl "")|exists (String nl "paddle.assign(P, None[0]), paddle.assign(L, "), ("), paddle.assign(U, None[2])" ++ String nl "")]; reflexivity.
  - assert (D : exists names, (names = ["tmp_lu"; "tmp_p"] /\ forall f, passes t "get_infos" f -> f = "(False)") \/ (names = ["tmp_lu"; "tmp_p"; "tmp_info"] /\ exists f, passes t "get_infos" f /\ f <> "(False)")).
    { destruct (dget key_eqb (Some "get_infos") t) as [w|] eqn:E.
      - destruct (string_dec w "(False)") as [->|D]; [exists ["tmp_lu"; "tmp_p"]; left|exists ["tmp_lu"; "tmp_p"; "tmp_info"]; right]; (split; [reflexivity|]).
        + intros f H. apply (dget_some_in _ key_eqb_spec) in E. exact (one_text _ _ _ _ (reads_nodup _ _ _ _ R) H E).
        + exists w. split; [apply (dget_some_in _ key_eqb_spec); exact E|exact D].
      - exists ["tmp_lu"; "tmp_p"]. left. split; [reflexivity|]. intros f H. exfalso. apply (dget_none_iff _ key_eqb_spec) in E. apply E. apply in_map_iff. exists (Some "get_infos", f). split; [reflexivity|exact H]. }
    destruct D as (names & D). destruct (C140_lu _ _ _ _ _ names i R P O ltac:(discriminate) D) as (q & u & l & A & V & _).
    exists q, u. split; [exact A|]. rewrite V. split; apply L; (destruct D as [[-> _]|[-> _]]).
    + exists (String nl "paddle.assign(tmp_lu, "), ("), paddle.assign(tmp_p, None[1])" ++ String nl ""). reflexivity.
    + exists (String nl "paddle.assign(tmp_lu, "), ("), paddle.assign(tmp_p, None[1]), paddle.assign(tmp_info, None[2])" ++ String nl ""). reflexivity.
    + exists (String nl "paddle.assign(tmp_lu, None[0]), paddle.assign(tmp_p, "), (")" ++ String nl ""). reflexivity.
    + exists (String nl "paddle.assign(tmp_lu, None[0]), paddle.assign(tmp_p, "), ("), paddle.assign(tmp_info, None[2])" ++ String nl ""). reflexivity.
Qed.
Print Assumptions C140_none_refuted.

(** Calls with a tuple and further arguments. *)
Example C140_nonvacuous :
  (exists t, reads_as "torch.linalg.lu_factor" [MkExpr false false "m"] [MkKw (Some "pivot") (MkExpr false false "p"); MkKw (Some "out") (MkExpr false false "res")] t /\
    passes t "A" "m" /\ passes t "out" "res" /\ passes t "pivot" "p") /\
  (exists t, reads_as "torch.linalg.svd" [MkExpr false false "m"; MkExpr false false "(False)"] [MkKw (Some "out") (MkExpr false false "(u, s, v)")] t /\
    passes t "A" "m" /\ passes t "out" "(u, s, v)" /\ given_or t "full_matrices" "True" "(False)") /\
  (exists t, reads_as "torch.svd" [MkExpr false false "m"] [MkKw (Some "some") (MkExpr false false "flag"); MkKw (Some "out") (MkExpr false false "res")] t /\
    (forall w, ~ In (None, w) t) /\ (forall w, ~ In (Some "compute_uv", w) t) /\ passes t "input" "m" /\ passes t "some" "flag" /\ passes t "out" "res") /\
  (exists t, reads_as "torch.triangular_solve" [MkExpr false false "b"; MkExpr false false "m"] [MkKw (Some "out") (MkExpr false false "res")] t /\
    passes t "A" "m" /\ passes t "input" "b" /\ passes t "out" "res") /\
  (exists t, reads_as "torch.linalg.eig" [MkExpr false false "m"] [MkKw (Some "out") (MkExpr false true "None")] t /\ passes t "input" "m" /\ passes t "out" "None").
Proof.
  split; [|split; [|split; [|split]]]; eexists; (split; [eexists; split; [vm_compute; reflexivity|vm_compute; reflexivity]|]).
  - split; [left; reflexivity|split; [right; right; left; reflexivity|right; left; reflexivity]].
  - split; [left; reflexivity|split; [right; right; left; reflexivity|left; right; left; reflexivity]].
  - split; [intros w [W|[W|[W|[]]]]; discriminate W|]. split; [intros w [W|[W|[W|[]]]]; discriminate W|].
    split; [left; reflexivity|split; [right; left; reflexivity|right; right; left; reflexivity]].
  - split; [right; left; reflexivity|split; [left; reflexivity|right; right; left; reflexivity]].
  - split; [left; reflexivity|right; left; reflexivity].
Qed.

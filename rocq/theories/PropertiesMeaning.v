(** C113, C114: what generated code computes, and the values that adapted parameters receive. *)
From Coq Require Import QArith Qcanon Lia.
From Verif Require Import PyStr PyDict PyStrFacts UtilsFile Args ArgsSpec TablesData
  Generate GenerateData GenerateRows GenerateSpec GenerateCheck GenerateCalls GenerateFacts Grammar GrammarRows
  GenerateExact MeaningSpec MeaningFacts MeaningAdapted.
From Verif Require PropertiesGenerate.
Import PropertiesGenerate(named, row_named, row_named_in).
Close Scope Q_scope. Close Scope Qc_scope.
Open Scope string_scope.
Opaque api_mapping generators.

(** ** C113: the code generated for these functions is an expression with the value of the
    documented formula, and changes the tensor that the call changes, to that value, and
    no other. *)
Theorem C113_generated_code_computes_the_formula :
  forall W rho operand expression r g recv args kwargs i q u F,
    lawful W ->
    In r api_mapping -> generator r = Some g -> In (r_name r, F) (formulas W) ->
    regular r recv args kwargs -> well_written operand expression r recv args kwargs ->
    paddle_nodes r g recv args kwargs i = Ret (Converted q u) ->
    exists p,
      reads_code operand expression (render q) p /\
      value W rho p = F (argument_values W rho r args kwargs) (receiver_value W rho recv) /\
      stored W (destination (r_name r) recv (argument r args kwargs "out")) (value W rho p) (stores W rho p).
Proof.
  intros W rho operand expression r g recv args kwargs i q u F L I G T R WR E.
  pose proof (formulas_good W L) as A. rewrite Forall_forall in A. specialize (A _ T). cbn [fst snd] in A.
  exact (good_meaning W rho F operand expression r g recv args kwargs i q u I G (formulas_described W _ _ T) A R WR E).
Qed.
Print Assumptions C113_generated_code_computes_the_formula.

(** xlogy and xlog1py are products with a logarithm. *)
Theorem C113_logarithmic_functions_are_products :
  forall W rho operand expression r g recv args kwargs i q u F,
    In r api_mapping -> generator r = Some g -> In (r_name r, F) (logarithmic W) ->
    regular r recv args kwargs -> well_written operand expression r recv args kwargs ->
    paddle_nodes r g recv args kwargs i = Ret (Converted q u) ->
    exists p,
      reads_code operand expression (render q) p /\
      value W rho p = F (argument_values W rho r args kwargs) (receiver_value W rho recv) /\
      stored W (destination (r_name r) recv (argument r args kwargs "out")) (value W rho p) (stores W rho p).
Proof.
  intros W rho operand expression r g recv args kwargs i q u F I G T R WR E.
  pose proof (logarithmic_good W) as A. rewrite Forall_forall in A. specialize (A _ T). cbn [fst snd] in A.
  exact (good_meaning W rho F operand expression r g recv args kwargs i q u I G (logarithmic_described W _ _ T) A R WR E).
Qed.
Print Assumptions C113_logarithmic_functions_are_products.

(** ** C114: the parameters that PyTorch and paddle describe differently receive the
    value that the call asks for, also when it relies on the default of PyTorch. *)
Theorem C114_adapted_parameters_receive_their_value :
  forall W rho operand expression r g recv args kwargs i q u f k d F,
    lawful W ->
    In r api_mapping -> generator r = Some g -> In (r_name r, (f, k, d, F)) (adapted W) ->
    regular r recv args kwargs -> well_written operand expression r recv args kwargs ->
    paddle_nodes r g recv args kwargs i = Ret (Converted q u) ->
    exists p ks,
      reads_code operand expression (render q) p /\ keywords_to f p = Some ks /\
      receives W rho k d ks = F (argument_values W rho r args kwargs).
Proof. exact adapted_meaning. Qed.
Print Assumptions C114_adapted_parameters_receive_their_value.

(** The axis of softmin: the one given; otherwise the helper function is asked about minus
    the number of dimensions. *)
Theorem C114_axis_of_softmin :
  forall W rho operand expression r g recv args kwargs i q u,
    In r api_mapping -> generator r = Some g -> r_name r = "torch.nn.functional.softmin" ->
    regular r recv args kwargs -> well_written operand expression r recv args kwargs ->
    paddle_nodes r g recv args kwargs i = Ret (Converted q u) ->
    exists p ks,
      reads_code operand expression (render q) p /\ keywords_to "paddle.nn.functional.softmax" p = Some ks /\
      receives W rho "axis" None ks =
        let input := or_else W (argument_values W rho r args kwargs "input") (word W "None") in
        let computed := other W "_get_softmin_dim" [minus W (member W input "ndim")] (fun _ => None) in
        match argument r args kwargs "dim" with
        | Some v => if String.eqb v "None" then Some computed else Some (rho v)
        | None => Some computed
        end.
Proof. exact softmin_meaning. Qed.
Print Assumptions C114_axis_of_softmin.

(** ** Calls with keywords, for the examples *)
Definition texts_of (l : list (string * string)) (v : string) : Prop := In v ("obj" :: map snd l).
Definition writtenb (r : row) (kv : string * string) : bool :=
  wordb (fst kv) && negb (mem_str (fst kv) keywords_of_python) && negb (mem_str (fst kv) constants_of_python) &&
  String.eqb (py_strip (snd kv)) (snd kv) && negb (mishandled r (fst kv)) && String.eqb (text (MkExpr false false (snd kv))) (snd kv).
Definition usableb (n : string) (l : list (string * string)) : bool :=
  match row_named n with
  | Some r =>
      match generator r with
      | Some g =>
          match paddle_nodes r g (an_object r) [] (named l) [] with
          | Ret (Converted q u) => regularb r l && forallb (writtenb r) l
          | _ => false
          end
      | None => false
      end
  | None => false
  end.
Lemma usable n l : usableb n l = true ->
  exists r g q u, In r api_mapping /\ r_name r = n /\ generator r = Some g /\ regular r (an_object r) [] (named l) /\
    well_written (texts_of l) (texts_of l) r (an_object r) [] (named l) /\
    paddle_nodes r g (an_object r) [] (named l) [] = Ret (Converted q u).
Proof.
  unfold usableb. intros H. destruct (row_named n) as [r|] eqn:R; [|discriminate]. destruct (generator r) as [g|] eqn:G; [|discriminate].
  destruct (paddle_nodes r g (an_object r) [] (named l) []) as [[q u| | |]|] eqn:P; try discriminate.
  apply Bool.andb_true_iff in H. destruct H as [H1 H2]. apply regularb_ok in H1. apply row_named_in in R. destruct R as [I N].
  exists r, g, q, u. split; [exact I|]. split; [exact N|]. split; [exact G|]. split; [exact H1|]. split; [|exact P]. split.
  - rewrite forallb_forall in H2. intros k v X. assert (B : In (k, v) l).
    { unfold bindings in X. cbn [map] in X. rewrite combine_nil in X. cbn [app] in X. unfold named in X. rewrite map_map in X.
      apply in_map_iff in X. destruct X as ([k' v'] & X & J). injection X as X1 X2. cbn in X1. subst k'.
      pose proof (H2 _ J) as T. apply Bool.andb_true_iff in T. destruct T as [_ T]. apply String.eqb_eq in T. cbn [fst snd] in T, X2. rewrite T in X2. subst v'. exact J. }
    specialize (H2 _ B). unfold writtenb, mishandled in H2. cbn [fst snd] in H2.
    repeat (apply Bool.andb_true_iff in H2; let X := fresh "X" in destruct H2 as [H2 X]).
    apply String.eqb_eq in X2. apply Bool.negb_true_iff in X4, X3, X1. rewrite <- !listedb_iff.
    destruct (listedb stripped r k); [discriminate|]. rewrite X1. split.
    + split; [split; [exact H2|]|]; apply mem_str_false; assumption.
    + split; [exact X2|]. assert (T : texts_of l v) by (right; apply in_map_iff; exists (k, v); split; [reflexivity|exact B]).
      split; [exact T|]. split; [intros _; exact T|]. split; discriminate.
  - intros v X. unfold an_object in X. destruct (is_methodb (r_name r)); [|discriminate]. injection X as <-. split; [left; reflexivity|reflexivity].
Qed.

(** An algebra: rational numbers and one value for results that are not finite. *)
Definition lift2 (f : Qc -> Qc -> Qc) (x y : option Qc) : option Qc :=
  match x, y with Some a, Some b => Some (f a b) | _, _ => None end.
Definition simple : algebra := {|
  V := option Qc;
  num q := Some (Q2Qc q);
  word w := if String.eqb w "True" then Some (Q2Qc 1) else Some (Q2Qc 0);
  quoted s := None;
  plus := lift2 Qcplus; sub := lift2 Qcminus; times := lift2 Qcmult; divide := lift2 Qcdiv; power := lift2 Qcmult;
  minus x := option_map Qcopp x;
  negation x := lift2 Qcminus (Some (Q2Qc 1)) x;
  to_float x := x; bmm := lift2 Qcmult; matmul := lift2 Qcmult; outer := lift2 Qcmult; sum_along x _ := x;
  erf x := Some (Q2Qc (-1)); erfinv x := x;
  log x := match x with Some a => if Qc_eq_dec a (Q2Qc 0) then None else Some (Qcminus a (Q2Qc 1)) | None => None end;
  log2 x := x; log1p x := x; MeaningSpec.exp x := x; MeaningSpec.sqrt x := lift2 Qcmult x (Some (Q2Qc (1 # 2)));
  det x := x; choose c x y := if c then x else y; softmax x _ := x; pick x _ _ := x; squeeze x _ := x;
  bilinear x y w b := x; unsqueeze x _ := x;
  member x m := if String.eqb m "ndim" then Some (Q2Qc 3) else None;
  item x _ := x; listed _ := None;
  other f ps _ :=
    if String.eqb f "_get_softmin_dim" then
      match ps with
      | [Some d] => if existsb (fun n => if Qc_eq_dec d (Q2Qc n) then true else false) [0%Q; 1%Q; 3%Q] then Some (Q2Qc 0) else Some (Q2Qc 1)
      | _ => None
      end
    else None;
  other_ext := ltac:(reflexivity) |}.
Lemma simple_lawful : lawful simple.
Proof.
  constructor; cbn [V num word quoted plus sub times divide power minus negation to_float erf MeaningSpec.sqrt simple].
  - intros [x|] [y|]; reflexivity.
  - intros [x|] [y|]; cbn; try reflexivity. rewrite Qcplus_comm. reflexivity.
  - intros [x|] [y|]; cbn; try reflexivity. rewrite Qcmult_comm. reflexivity.
  - intros [x|]; cbn; [|reflexivity]. f_equal. apply Qcmult_1_l.
  - intros [x|] [y|]; cbn; try reflexivity. f_equal. ring.
  - intros [x|]; cbn; [|reflexivity]. f_equal. apply Qcopp_involutive.
  - intros [x|] [y|] [z|]; cbn; try reflexivity. f_equal. unfold Qcdiv. ring.
  - intros a b. unfold lift2. f_equal. apply Qc_is_canon. unfold Qcminus, Qcplus, Qcopp, Q2Qc. cbn [this]. rewrite !Qred_correct. reflexivity.
  - reflexivity.
  - first [reflexivity|cbn; f_equal; apply Qc_is_canon; reflexivity].
  - first [reflexivity|cbn; f_equal; apply Qc_is_canon; reflexivity].
  - first [reflexivity|cbn; f_equal; apply Qc_is_canon; reflexivity].
Qed.

(** ** Concrete cases *)
Definition beta_call := [("mat", "m"); ("vec", "f(x)"); ("beta", "2")].
Definition place_call := [("other", "y")].
Example C113_nonvacuous :
  exists r g q u F,
    lawful simple /\ In r api_mapping /\ generator r = Some g /\ In (r_name r, F) (formulas simple) /\
    regular r (Some "obj") [] (named beta_call) /\ well_written (texts_of beta_call) (texts_of beta_call) r (Some "obj") [] (named beta_call) /\
    paddle_nodes r g (Some "obj") [] (named beta_call) [] = Ret (Converted q u).
Proof.
  assert (U : usableb "torch.Tensor.addmv" beta_call = true) by (vm_compute; reflexivity).
  destruct (usable _ _ U) as (r & g & q & u & I & N & G & R & WR & P).
  assert (O : an_object r = Some "obj") by (unfold an_object; rewrite N; reflexivity). rewrite O in *.
  exists r, g, q, u, (snd (nth 7 (formulas simple) ("", fun _ x => x))). rewrite N.
  split; [exact simple_lawful|]. split; [exact I|]. split; [exact G|]. split; [do 7 right; left; reflexivity|]. tauto.
Qed.
Example C113_logarithmic_nonvacuous :
  exists r g q u F,
    In r api_mapping /\ generator r = Some g /\ In (r_name r, F) (logarithmic simple) /\
    destination (r_name r) (Some "obj") (argument r [] (named place_call) "out") = Some "obj" /\
    regular r (Some "obj") [] (named place_call) /\ well_written (texts_of place_call) (texts_of place_call) r (Some "obj") [] (named place_call) /\
    paddle_nodes r g (Some "obj") [] (named place_call) [] = Ret (Converted q u).
Proof.
  assert (U : usableb "torch.Tensor.xlogy_" place_call = true) by (vm_compute; reflexivity).
  destruct (usable _ _ U) as (r & g & q & u & I & N & G & R & WR & P).
  assert (O : an_object r = Some "obj") by (unfold an_object; rewrite N; reflexivity). rewrite O in *.
  exists r, g, q, u, (snd (nth 2 (logarithmic simple) ("", fun _ x => x))). rewrite N.
  split; [exact I|]. split; [exact G|]. split; [do 2 right; left; reflexivity|]. split; [reflexivity|]. tauto.
Qed.

(** PyTorch documents 0 for [xlogy(0, y)], whatever number [y] is: where the product of
    zero and the logarithm of zero is not zero, the generated code has another value. *)
Definition zero_call := [("input", "x"); ("other", "y")].
Theorem C113_xlogy_of_zero_refuted :
  forall W rho,
    times W (num W 0) (log W (num W 0)) <> num W 0 -> rho "x" = num W 0 -> rho "y" = num W 0 ->
    exists r g q u p,
      In r api_mapping /\ r_name r = "torch.special.xlogy" /\ generator r = Some g /\
      paddle_nodes r g None [] (named zero_call) [] = Ret (Converted q u) /\
      reads_code (texts_of zero_call) (texts_of zero_call) (render q) p /\
      value W rho p <> num W 0.
Proof.
  intros W rho Z X Y. assert (U : usableb "torch.special.xlogy" zero_call = true) by (vm_compute; reflexivity).
  destruct (usable _ _ U) as (r & g & q & u & I & N & G & R & WR & P).
  assert (O : an_object r = None) by (unfold an_object; rewrite N; reflexivity). rewrite O in *.
  destruct (C113_logarithmic_functions_are_products W rho (texts_of zero_call) (texts_of zero_call) r g None [] (named zero_call) [] q u
    (snd (nth 0 (logarithmic W) ("", fun _ x => x)))) as (p & RC & VA & _); try assumption.
  { rewrite N. left. reflexivity. }
  exists r, g, q, u, p. split; [exact I|]. split; [exact N|]. split; [exact G|]. split; [exact P|]. split; [exact RC|].
  rewrite VA. cbn [nth snd logarithmic]. unfold argument_values, argument.
  unfold bindings. cbn [map]. rewrite combine_nil. cbn [app named zero_call map fst snd last_binding]. cbn. rewrite X, Y. exact Z.
Qed.
Print Assumptions C113_xlogy_of_zero_refuted.
Example C113_zero_is_possible : times simple (num simple 0) (log simple (num simple 0)) <> num simple 0.
Proof. cbn. discriminate. Qed.

Definition pool_call := [("input", "x"); ("kernel_size", "3")].
Example C114_nonvacuous :
  exists r g q u F,
    lawful simple /\ In r api_mapping /\ generator r = Some g /\
    In (r_name r, ("paddle.nn.functional.avg_pool2d", "exclusive", Some (word simple "True"), F)) (adapted simple) /\
    regular r None [] (named pool_call) /\ well_written (texts_of pool_call) (texts_of pool_call) r None [] (named pool_call) /\
    paddle_nodes r g None [] (named pool_call) [] = Ret (Converted q u).
Proof.
  assert (U : usableb "torch.nn.functional.avg_pool2d" pool_call = true) by (vm_compute; reflexivity).
  destruct (usable _ _ U) as (r & g & q & u & I & N & G & R & WR & P).
  assert (O : an_object r = None) by (unfold an_object; rewrite N; reflexivity). rewrite O in *.
  exists r, g, q, u, (fun a => Some (negation simple (or_else simple (a "count_include_pad") (word simple "True")))). rewrite N.
  split; [exact simple_lawful|]. split; [exact I|]. split; [exact G|]. split; [do 13 right; left; reflexivity|]. tauto.
Qed.

(** The default axis of softmin: PyTorch takes 0 for a tensor with 3 dimensions.  The
    helper function (api_matcher.py:3018-3022) follows PyTorch but receives -3. *)
Definition softmin_call := [("input", "x")].
Definition helper_follows_pytorch (W : algebra) : Prop :=
  forall n : Z, other W "_get_softmin_dim" [num W (inject_Z n)] (fun _ => None) =
    if Z.eqb n 0 || Z.eqb n 1 || Z.eqb n 3 then num W 0 else num W 1.
Theorem C114_default_axis_of_softmin_refuted :
  forall W rho,
    helper_follows_pytorch W -> minus W (num W (inject_Z 3)) = num W (inject_Z (-3)) -> num W 0 <> num W 1 ->
    member W (rho "x") "ndim" = num W (inject_Z 3) ->
    exists r g q u p ks,
      In r api_mapping /\ r_name r = "torch.nn.functional.softmin" /\ generator r = Some g /\
      paddle_nodes r g None [] (named softmin_call) [] = Ret (Converted q u) /\
      reads_code (texts_of softmin_call) (texts_of softmin_call) (render q) p /\
      keywords_to "paddle.nn.functional.softmax" p = Some ks /\
      receives W rho "axis" None ks <> Some (other W "_get_softmin_dim" [member W (rho "x") "ndim"] (fun _ => None)).
Proof.
  intros W rho H M Z D. assert (U : usableb "torch.nn.functional.softmin" softmin_call = true) by (vm_compute; reflexivity).
  destruct (usable _ _ U) as (r & g & q & u & I & N & G & R & WR & P).
  assert (O : an_object r = None) by (unfold an_object; rewrite N; reflexivity). rewrite O in *.
  destruct (C114_axis_of_softmin W rho (texts_of softmin_call) (texts_of softmin_call) r g None [] (named softmin_call) [] q u) as (p & ks & RC & KT & RE); try assumption.
  exists r, g, q, u, p, ks. split; [exact I|]. split; [exact N|]. split; [exact G|]. split; [exact P|]. split; [exact RC|]. split; [exact KT|].
  rewrite RE. unfold argument_values, argument.
  unfold bindings. cbn [map]. rewrite combine_nil. cbn [app named softmin_call map fst snd last_binding]. cbn. rewrite D, M, !H. cbn.
  intros X. injection X as X. apply Z. symmetry. exact X.
Qed.
Print Assumptions C114_default_axis_of_softmin_refuted.
Example C114_default_axis_is_possible :
  minus simple (num simple (inject_Z 3)) = num simple (inject_Z (-3)) /\ num simple 0 <> num simple 1 /\
  helper_follows_pytorch simple /\ forall x, member simple x "ndim" = num simple (inject_Z 3).
Proof.
  split; [cbn; f_equal; apply Qc_is_canon; reflexivity|]. split; [discriminate|]. split; [|reflexivity].
  intros n. assert (J : forall a b : Q, Q2Qc a = Q2Qc b -> (a == b)%Q).
  { intros a b E. rewrite <- (Qred_correct a), <- (Qred_correct b). apply (f_equal this) in E. cbn in E. rewrite E. reflexivity. }
  assert (D : forall k, (if Qc_eq_dec (Q2Qc (inject_Z n)) (Q2Qc (inject_Z k)) then true else false) = Z.eqb n k).
  { intros k. destruct (Qc_eq_dec _ _) as [E|E]; symmetry.
    - apply J in E. unfold Qeq in E. cbn in E. apply Z.eqb_eq. lia.
    - apply Z.eqb_neq. intros ->. apply E. reflexivity. }
  cbn [other simple]. cbn [existsb String.eqb]. change 0%Q with (inject_Z 0). change 1%Q with (inject_Z 1). change 3%Q with (inject_Z 3).
  cbn [String.eqb Ascii.eqb Bool.eqb]. cbn [num simple]. rewrite !D, Bool.orb_false_r, Bool.orb_assoc.
  destruct (Z.eqb n 0 || Z.eqb n 1 || Z.eqb n 3); reflexivity.
Qed.

(** Parameters that do not receive what the call asks for: [some=True] asks for the reduced
    factorization, [some=False] for the complete one; instance normalization of PyTorch has
    no weights unless [affine] is true, that of paddle has; [left=False] asks for the
    solution of XA = B, not for a transposed A; a direction that is not literally true is
    lost. *)
Theorem C114_wrong_parameters_refuted :
  PropertiesGenerate.rewrite "torch.Tensor.qr" (Some "x") [] [("some", "(True)")] = Some (Ret ("x.qr(mode='complete')", false)) /\
  PropertiesGenerate.rewrite "torch.Tensor.qr" (Some "x") [] [("some", "(False)")] = Some (Ret ("x.qr(mode='reduced')", false)) /\
  PropertiesGenerate.rewrite "torch.nn.InstanceNorm2d" None ["3"] [] = Some (Ret ("paddle.nn.InstanceNorm2D(num_features=3)", false)) /\
  PropertiesGenerate.rewrite "torch.linalg.solve_triangular" None ["A"; "B"] [("upper", "(True)"); ("left", "(False)")] =
    Some (Ret ("paddle.linalg.triangular_solve(transpose=not (False), x=A, y=B, upper=(True))", false)) /\
  PropertiesGenerate.rewrite "torch.nn.LSTM" None ["3"; "4"] [("bidirectional", "flag")] =
    Some (Ret ("paddle.nn.LSTM(input_size=3, hidden_size=4, time_major=not False)", false)).
Proof. repeat (split; [vm_compute; reflexivity|]). vm_compute. reflexivity. Qed.
Print Assumptions C114_wrong_parameters_refuted.

(** C49, C86-C94: the matcher classes with their own argument handling. *)
From Coq Require Import Lia.
From Verif Require Import PyStr PyStrFacts PyDict PyDictFacts UtilsFile UtilsFacts Ast Args ArgsSpec ArgsFacts
  TablesData GenerateData Special SpecialSpec SpecialFacts.
Opaque api_mapping.

(** The entry of a row of api_mapping.json. *)
Definition entry_of (name : string) : option entry :=
  match find (fun r => String.eqb (r_name r) name) api_mapping with Some r => Some (r_entry r) | None => None end.
Definition source (s : string) : expr := MkExpr false false s.
Definition starred (s : string) : expr := MkExpr true false ("*" ++ s).
Definition arg (k v : string) : kwnode := MkKw (Some k) (source v).

Lemma ok_iff {A} (a b : A) : Ok a = Ok b <-> a = b.
Proof. split; [intros H; injection H as H; exact H|intros ->; reflexivity]. Qed.

(** ** C49 *)
(** Several sizes (or one literal size) become a Python list.  The list holds the texts
    of the sizes exactly if none of them contains an apostrophe, a backslash or a
    control character. *)
Theorem C49_list_text_exactly :
  forall (constant : expr -> bool) (inner : expr -> string) (args : list expr),
  (2 <= List.length args)%nat \/ (exists a, args = [a] /\ constant a = true) ->
  (make_shape constant inner args = Ok (list_display (map text args)) <-> Forall plain_text (map text args)).
Proof.
  intros constant inner args H.
  assert (E : make_shape constant inner args = Ok (py_replace (str_of_list (parse_args args)) "'" "")).
  { destruct H as [H|(a & -> & C)].
    - destruct args as [|a [|b r]]; cbn [List.length] in H; try lia. reflexivity.
    - cbn [make_shape]. rewrite C. reflexivity. }
  rewrite E. unfold parse_args. rewrite <- list_text_exact. apply ok_iff.
Qed.
Print Assumptions C49_list_text_exactly.

(** A single size that is not a literal, or [*sizes], is used as it stands, exactly if it
    contains no apostrophe. *)
Theorem C49_single_text_exactly :
  forall (constant : expr -> bool) (inner : expr -> string) (a : expr),
  constant a = false ->
  let size := if e_starred a then inner a else text a in
  (make_shape constant inner [a] = Ok size <-> mem_char "'" size = false).
Proof.
  intros constant inner a C size. cbn [make_shape]. rewrite C.
  assert (E : (if e_starred a then Ok (py_replace (inner a) "'" "") else Ok (py_replace (text a) "'" "")) =
              Ok (unquote size)).
  { subst size. destruct (e_starred a); rewrite replace_apostrophe; reflexivity. }
  rewrite E. rewrite <- unquote_id_iff. apply ok_iff.
Qed.
Print Assumptions C49_single_text_exactly.

(** The expected claim is false: a subscript with a string key becomes another expression. *)
Theorem C49_quotes_lost_refuted :
  exists (args : list expr) (one : expr),
  (forall constant inner, make_shape constant inner args = Ok "[""cfg[h]"", w]") /\
  map text args = ["cfg['h']"; "w"] /\
  (forall constant inner, constant one = false -> make_shape constant inner [one] = Ok "cfg[shape]") /\
  text one = "cfg['shape']".
Proof.
  exists [source "cfg['h']"; source "w"], (source "cfg['shape']").
  split; [intros; reflexivity|]. split; [reflexivity|]. split; [|reflexivity].
  intros constant inner C. cbn [make_shape]. rewrite C. reflexivity.
Qed.
Print Assumptions C49_quotes_lost_refuted.
Example C49_nonvacuous :
  make_shape (fun _ => false) e_source [source "2"; source "n + 1"] = Ok "[2, n + 1]" /\
  Forall plain_text (map text [source "2"; source "n + 1"]) /\
  make_shape (fun _ => false) e_source [starred "sizes"] = Ok "*sizes".
Proof.
  split; [reflexivity|]. split; [|reflexivity].
  constructor; [apply plain_chars_spec; reflexivity|]. constructor; [apply plain_chars_spec; reflexivity|constructor].
Qed.

(** ** C94: torch.testing.make_tensor *)
Definition value_or (kwargs : list kwnode) (k d : string) : string :=
  match find (named_in [k]) kwargs with Some n => text (kw_value n) | None => d end.
(** What becomes of a call with a shape given by position. *)
Theorem C94_make_tensor_text :
  forall (constant : expr -> bool) (inner : expr -> string) (e : entry) (args : list expr) (kwargs : list kwnode)
         (shape : string) (device : kwnode),
  unsupport_args e = [] -> NoDup (map kw_arg kwargs) -> ~ In None (map kw_arg kwargs) ->
  find (named_in ["shape"]) kwargs = None -> find (named_in ["device"]) kwargs = Some device ->
  make_shape constant inner args = Ok shape ->
  let value := "paddle.uniform(" ++ shape ++ ", dtype=" ++ value_or kwargs "dtype" "float32" ++
               ", min=" ++ value_or kwargs "low" "0" ++ ", max=" ++ value_or kwargs "high" "1" ++
               ").to(" ++ text (kw_value device) ++ ")" in
  make_tensor_nodes constant inner e args kwargs =
  Produce false
    match find (named_in ["requires_grad"]) kwargs with
    | None => nls ++ value ++ nls
    | Some g => nls ++ "out = " ++ value ++ nls ++ "out.stop_gradient = not " ++ text (kw_value g) ++ nls ++ "out" ++ nls
    end.
Proof.
  intros constant inner e args kwargs shape device U N S F D M value.
  unfold make_tensor_nodes. rewrite (parse_kwargs_exact e false kwargs U N (fun _ => S)).
  assert (G : forall k d, get_or (kw_table kwargs) k d = value_or kwargs k d).
  { intros k d. unfold get_or, value_or. rewrite kw_table_get. destruct (find (named_in [k]) kwargs); reflexivity. }
  rewrite !G, !kw_table_get, F, D, M. cbv zeta. fold value.
  destruct (find (named_in ["requires_grad"]) kwargs); reflexivity.
Qed.
Print Assumptions C94_make_tensor_text.
(** Calls that stop the conversion of the file with an exception: [**mapping]; no device;
    no size at all. *)
Theorem C94_make_tensor_exceptions :
  forall (constant : expr -> bool) (inner : expr -> string) (e : entry) (args : list expr) (kwargs : list kwnode),
  unsupport_args e = [] -> NoDup (map kw_arg kwargs) ->
  ((exists x, make_tensor_nodes constant inner e args kwargs = Raises x) <->
   In None (map kw_arg kwargs) \/
   find (named_in ["shape"]) kwargs = None /\ args = [] \/
   find (named_in ["device"]) kwargs = None).
Proof.
  intros constant inner e args kwargs U N.
  destruct (in_dec (fun a b : key => ltac:(destruct (key_eqb_spec a b); [left|right]; assumption)) None (map kw_arg kwargs)) as [S|S].
  { unfold make_tensor_nodes. rewrite parse_kwargs_star by exact S. split; [auto|eauto]. }
  unfold make_tensor_nodes. rewrite (parse_kwargs_exact e false kwargs U N (fun _ => S)). rewrite !kw_table_get.
  assert (SH : args <> [] -> exists s, make_shape constant inner args = Ok s).
  { destruct args as [|a [|b r]]; intros H; [congruence| |cbn [make_shape]; eauto].
    cbn [make_shape]. destruct (constant a); [eauto|]. destruct (e_starred a); eauto. }
  destruct (find (named_in ["shape"]) kwargs) as [sh|];
    [|destruct args as [|a r]; [|destruct SH as (s & SH); [discriminate|]; rewrite SH]].
  - destruct (find (named_in ["device"]) kwargs) as [d|].
    + destruct (find (named_in ["requires_grad"]) kwargs); (split; [intros (x & X); discriminate X|]);
      (intros [X|[[X _]|X]]; [contradiction|discriminate X|discriminate X]).
    + split; [intros _; auto|intros _; eauto].
  - cbn [make_shape]. split; [intros _; auto|intros _; eauto].
  - destruct (find (named_in ["device"]) kwargs) as [d|].
    + destruct (find (named_in ["requires_grad"]) kwargs); (split; [intros (x & X); discriminate X|]);
      (intros [X|[[_ X]|X]]; [contradiction|discriminate X|discriminate X]).
    + split; [intros _; auto|intros _; eauto].
Qed.
Print Assumptions C94_make_tensor_exceptions.
(** Expected but not true: generated statements assign to names the program does not use.
    Here the name is always [out], even when the program computes a size from its own [out]. *)
Theorem C94_fresh_name_refuted :
  exists (args : list expr) (kwargs : list kwnode),
  In "out.size" (map text args) /\
  forall constant inner e, unsupport_args e = [] ->
  make_tensor_nodes constant inner e args kwargs =
  Produce false (nls ++ "out = paddle.uniform([out.size, 2], dtype=d, min=0, max=1).to(dev)" ++ nls ++
                 "out.stop_gradient = not g" ++ nls ++ "out" ++ nls).
Proof.
  exists [source "out.size"; source "2"], [arg "dtype" "d"; arg "device" "dev"; arg "requires_grad" "g"].
  split; [left; reflexivity|]. intros constant inner e U.
  rewrite (C94_make_tensor_text constant inner e _ _ "[out.size, 2]" (arg "device" "dev") U); try reflexivity.
  - repeat constructor; cbn; intuition discriminate.
  - cbn. intuition discriminate.
Qed.
Print Assumptions C94_fresh_name_refuted.
Example C94_nonvacuous :
  exists e, entry_of "torch.testing.make_tensor" = Some e /\ unsupport_args e = [] /\
  make_tensor_nodes (fun _ => false) e_source e [source "2"; source "3"] [arg "dtype" "d"; arg "device" "dev"; arg "low" "lo"] =
  Produce false (nls ++ "paddle.uniform([2, 3], dtype=d, min=lo, max=1).to(dev)" ++ nls) /\
  make_tensor_nodes (fun _ => false) e_source e [source "2"; source "3"] [arg "dtype" "d"] = Raises "KeyError".
Proof. eexists. split; [vm_compute; reflexivity|]. repeat split; reflexivity. Qed.

(** ** C86: model constructors with weights *)
Lemma with_pretrained_without b : NoDup (map fst b) ->
  dset key_eqb (Some "pretrained") "True" (without_names ["weights"] b) = without_names ["weights"] (with_pretrained b).
Proof.
  intros N. rewrite dset_with by (apply filter_keys_nodup, N).
  assert (E : existsb (fun kv => key_eqb (fst kv) (Some "pretrained")) (without_names ["weights"] b) =
              existsb (fun kv => key_eqb (fst kv) (Some "pretrained")) b).
  { clear N. induction b as [|[k v] b IH]; [reflexivity|]. unfold without_names in *. cbn [filter existsb fst].
    destruct (key_in k ["weights"]) eqn:K; cbn [negb existsb fst]; rewrite IH; [|reflexivity].
    destruct (key_eqb_spec k (Some "pretrained")) as [->|]; [discriminate|reflexivity]. }
  rewrite E. unfold with_pretrained. destruct (existsb _ b).
  - clear N E. unfold without_names. induction b as [|[k v] b IH]; [reflexivity|]. cbn [filter map fst].
    destruct (key_eqb_spec k (Some "pretrained")) as [->|NE]; cbn [fst].
    + cbn [key_in mem_str existsb String.eqb Ascii.eqb Bool.eqb orb negb map fst]. rewrite IH. reflexivity.
    + destruct (key_in k ["weights"]); cbn [negb]; [exact IH|]. cbn [map fst].
      destruct (key_eqb_spec k (Some "pretrained")); [contradiction|]. rewrite IH. reflexivity.
  - unfold without_names. rewrite filter_app. reflexivity.
Qed.
(** The constructor call keeps every argument except [weights] and the names the entry
    drops; [pretrained=True] stands for weights other than [None]. *)
Theorem C86_constructor_exact :
  forall (e : entry) (api fresh : string) (args : list expr) (kwargs : list kwnode),
  let b := bindings (args_list e) args kwargs in
  only_drops e -> (List.length args <= List.length (args_list e))%nat -> ~ In None (map kw_arg kwargs) ->
  NoDup (map fst b) -> ordinary b ->
  weights_nodes e api fresh args kwargs =
  Produce false (call api (map keyword_text
    (without_names (dropped_names e)
      (without_names ["weights"] (if chooses_weights b then with_pretrained b else b))))).
Proof.
  intros e api fresh args kwargs b D L S N O. unfold weights_nodes.
  rewrite (parse_loosely_bound e args kwargs L S N). fold b. f_equal. unfold weights_code, weights_table. cbv zeta.
  rewrite (chosen_exact b N).
  assert (W : (if dmem key_eqb (Some "weights") b then ddel key_eqb (Some "weights") b else b) = without_names ["weights"] b).
  { rewrite pop_filter by exact N. apply filter_ext. intros [[k|] v]; cbn [fst key_eqb key_in mem_str existsb]; [|reflexivity].
    rewrite orb_false_r, String.eqb_sym. reflexivity. }
  rewrite W. rewrite (with_pretrained_without b N).
  assert (X : (if chooses_weights b then without_names ["weights"] (with_pretrained b) else without_names ["weights"] b) =
              without_names ["weights"] (if chooses_weights b then with_pretrained b else b)) by (destruct (chooses_weights b); reflexivity).
  etransitivity; [apply (f_equal (generic_code e api fresh)); exact X|].
  apply only_drops_generic; [exact D| |].
  - destruct (chooses_weights b).
    + rewrite <- (with_pretrained_without b N). apply (dset_nodup _ key_eqb_spec), filter_keys_nodup, N.
    + apply filter_keys_nodup, N.
  - intros k Hk H. destruct (chooses_weights b).
    + rewrite <- (with_pretrained_without b N) in H. apply (dset_keys_iff _ key_eqb_spec) in H as [H|H].
      * injection H as ->. cbn in Hk. intuition discriminate.
      * apply (O k Hk). unfold without_names, dkeys in H. apply in_map_iff in H as (kv & E & H). apply filter_In in H as [H _].
        rewrite <- E. apply in_map, H.
    + apply (O k Hk). unfold without_names in H. apply in_map_iff in H as (kv & E & H). apply filter_In in H as [H _].
      rewrite <- E. apply in_map, H.
Qed.
Print Assumptions C86_constructor_exact.

(** All 25 constructors of the shipped table are of this kind; all drop [progress]. *)
Definition only_dropsb (e : entry) : bool :=
  forallb (fun kt => match snd kt with TNone => true | _ => false end) (kwargs_change e) &&
  match paddle_default_kwargs e with [] => true | _ => false end.
Lemma only_dropsb_ok e : only_dropsb e = true -> only_drops e.
Proof.
  unfold only_dropsb. rewrite andb_true_iff. intros [A B]. split.
  - intros k t H. rewrite forallb_forall in A. specialize (A _ H). cbn [snd] in A. destruct t; try discriminate. reflexivity.
  - destruct (paddle_default_kwargs e); [reflexivity|discriminate].
Qed.
Definition is_weights_row (r : row) : bool := match r_matcher r with Some m => String.eqb m "WeightsMatcher" | None => false end.
Lemma weights_rows_check :
  forallb (fun r => if is_weights_row r then
     only_dropsb (r_entry r) && mem_str "progress" (dropped_names (r_entry r)) &&
     negb (mem_str "pretrained" (dropped_names (r_entry r))) &&
     match args_list (r_entry r) with a :: b :: c :: _ => String.eqb a "weights" && String.eqb b "progress" && String.eqb c "pretrained" | _ => false end &&
     negb (r_disable r) && match paddle_api (r_entry r) with Some _ => true | None => false end
   else true) api_mapping = true.
Proof. vm_compute. reflexivity. Qed.
Theorem C86_shipped_constructors :
  forall r : row, In r api_mapping -> r_matcher r = Some "WeightsMatcher" ->
  only_drops (r_entry r) /\ In "progress" (dropped_names (r_entry r)) /\ ~ In "pretrained" (dropped_names (r_entry r)) /\
  exists rest api, args_list (r_entry r) = "weights" :: "progress" :: "pretrained" :: rest /\ paddle_api (r_entry r) = Some api.
Proof.
  intros r H M. pose proof weights_rows_check as C. rewrite forallb_forall in C. specialize (C r H).
  unfold is_weights_row in C. rewrite M, String.eqb_refl in C. rewrite !andb_true_iff in C.
  destruct C as [[[[[A B] C] D] _] F]. split; [apply only_dropsb_ok, A|]. split; [apply mem_str_In, B|].
  split; [apply mem_str_false, negb_true_iff, C|].
  destruct (args_list (r_entry r)) as [|a [|b [|c l]]]; try discriminate.
  rewrite !andb_true_iff in D. destruct D as [[D1 D2] D3].
  apply String.eqb_eq in D1, D2, D3. subst. destruct (paddle_api (r_entry r)); [|discriminate]. eauto.
Qed.
Print Assumptions C86_shipped_constructors.

Lemma weights_same_kwargs e api fresh kwargs (a b : table) : Forall2 same_but_weights a b -> NoDup (dkeys a) ->
  match match loose_kwargs kwargs a with None => Unsupported | Some t => Bound t end with
  | Bound t => Produce false (weights_code e api fresh t) | Misidentified => NotThisApi | _ => NoAnswer end =
  match match loose_kwargs kwargs b with None => Unsupported | Some t => Bound t end with
  | Bound t => Produce false (weights_code e api fresh t) | Misidentified => NotThisApi | _ => NoAnswer end.
Proof.
  intros S N. pose proof (same_loose_kwargs kwargs a b S) as H.
  destruct (loose_kwargs kwargs a) as [x|] eqn:E, (loose_kwargs kwargs b) as [y|]; try reflexivity; try contradiction.
  f_equal. apply weights_same; [exact H|]. eapply loose_kwargs_nodup; [exact N|exact E].
Qed.
(** Expected but not true: the chosen weights reach the converted program.  Any two
    weights other than [None] give the same code. *)
Theorem C86_choice_of_weights_lost_refuted :
  forall (e : entry) (api fresh : string) (names : list string) (w1 w2 : expr) (rest : list expr) (kwargs : list kwnode),
  args_list e = "weights" :: names ->
  text w1 <> "" -> text w1 <> "None" -> text w2 <> "" -> text w2 <> "None" ->
  weights_nodes e api fresh (w1 :: rest) kwargs = weights_nodes e api fresh (w2 :: rest) kwargs.
Proof.
  intros e api fresh names w1 w2 rest kwargs A N1 N2 N3 N4. unfold weights_nodes, parse_loosely. rewrite A.
  cbn [List.length]. destruct (_ <? _)%nat; [reflexivity|]. cbn [loose_args dset].
  assert (S0 : Forall2 same_but_weights [(Some "weights", text w1)] [(Some "weights", text w2)]).
  { constructor; [|constructor]. split; [reflexivity|]. right. repeat split; assumption. }
  apply weights_same_kwargs; [apply same_loose_args, S0|]. apply loose_args_nodup. repeat constructor. intros [].
Qed.
Print Assumptions C86_choice_of_weights_lost_refuted.
(** Expected but not true: an unsupported argument, or [*args], is refused.  Both are
    accepted; of [*args] nothing remains. *)
Theorem C86_refusals_refuted :
  exists r18 inc : entry,
  entry_of "torchvision.models.resnet18" = Some r18 /\ entry_of "torchvision.models.inception_v3" = Some inc /\
  In "transform_input" (unsupport_args inc) /\
  (forall fresh, weights_nodes inc "m.inception_v3" fresh [] [arg "transform_input" "t"] = Produce false "m.inception_v3(transform_input=t)") /\
  (forall fresh, weights_nodes r18 "m.resnet18" fresh [starred "cfg"] [] = Produce false "m.resnet18(pretrained=True)").
Proof.
  eexists _, _. split; [vm_compute; reflexivity|]. split; [vm_compute; reflexivity|].
  split; [left; reflexivity|]. split; intros fresh; reflexivity.
Qed.
Print Assumptions C86_refusals_refuted.
Example C86_nonvacuous :
  exists e, entry_of "torchvision.models.resnet18" = Some e /\
  let kwargs := [arg "num_classes" "n"; arg "pretrained" "p"] in
  NoDup (map fst (bindings (args_list e) [source "W"; source "True"] kwargs)) /\
  weights_nodes e "m.resnet18" "out" [source "W"; source "True"] kwargs = Produce false "m.resnet18(num_classes=n, pretrained=True)" /\
  weights_nodes e "m.resnet18" "out" [source "None"] kwargs = Produce false "m.resnet18(num_classes=n, pretrained=p)".
Proof.
  eexists. split; [vm_compute; reflexivity|]. split; [repeat constructor; cbn; intuition discriminate|]. split; reflexivity.
Qed.

(** ** C87: constructors of C++ extensions *)
Theorem C87_extension_exact :
  forall (e : entry) (api fresh : string) (args : list expr) (kwargs : list kwnode),
  let b := bindings (args_list e) args kwargs in
  only_drops e -> (List.length args <= List.length (args_list e))%nat ->
  (min_input_args e <= List.length args + List.length kwargs)%nat -> ~ In None (map kw_arg kwargs) ->
  NoDup (map fst b) -> ordinary b ->
  extension_nodes e api fresh args kwargs =
  Produce false (call api (map keyword_text (without_names (dropped_names e) b))).
Proof.
  intros e api fresh args kwargs b D L M S N O. unfold extension_nodes.
  rewrite (proj2 (Nat.ltb_ge _ _) M), (parse_loosely_bound e args kwargs L S N). f_equal.
  apply only_drops_generic; assumption.
Qed.
Print Assumptions C87_extension_exact.
(** [**mapping] is refused; too few or too many arguments are left alone. *)
Theorem C87_extension_refused :
  forall (e : entry) (api fresh : string) (args : list expr) (kwargs : list kwnode),
  (extension_nodes e api fresh args kwargs = NotThisApi <->
   (List.length args + List.length kwargs < min_input_args e)%nat \/ (List.length (args_list e) < List.length args)%nat) /\
  (extension_nodes e api fresh args kwargs = NoAnswer <->
   (min_input_args e <= List.length args + List.length kwargs)%nat /\ (List.length args <= List.length (args_list e))%nat /\
   In None (map kw_arg kwargs)).
Proof.
  intros e api fresh args kwargs. unfold extension_nodes, parse_loosely.
  destruct (Nat.ltb_spec (List.length args + List.length kwargs) (min_input_args e)).
  { split; split; intros H1; try discriminate; auto; destruct H1 as [H1 _]; lia. }
  destruct (Nat.ltb_spec (List.length (args_list e)) (List.length args)).
  { split; split; intros H2; try discriminate; auto; destruct H2 as [_ [H2 _]]; lia. }
  destruct (in_dec (fun a b : key => ltac:(destruct (key_eqb_spec a b); [left|right]; assumption)) None (map kw_arg kwargs)) as [S|S].
  - rewrite loose_kwargs_none by exact S. split; split; intros X; try discriminate; auto; lia.
  - rewrite loose_kwargs_binds by exact S. split; split; intros X; try discriminate; try lia. destruct X as (_ & _ & X). contradiction.
Qed.
Print Assumptions C87_extension_refused.
(** Expected but not true: every accepted call becomes a call that Python can parse.  A
    third positional argument is printed under the name "*args". *)
Theorem C87_third_argument_refuted :
  exists e : entry,
  entry_of "torch.utils.cpp_extension.CppExtension" = Some e /\
  forall fresh, extension_nodes e "CppExtension" fresh [source "n"; source "s"; source "d"] [] =
  Produce false "CppExtension(sources=s, *args=d)".
Proof. eexists. split; [vm_compute; reflexivity|]. intros fresh. reflexivity. Qed.
Print Assumptions C87_third_argument_refuted.
Example C87_nonvacuous :
  exists e, entry_of "torch.utils.cpp_extension.CUDAExtension" = Some e /\ only_drops e /\
  extension_nodes e "CUDAExtension" "out" [source "n"; source "s"] [arg "extra_compile_args" "x"] =
  Produce false "CUDAExtension(sources=s, extra_compile_args=x)" /\
  extension_nodes e "CUDAExtension" "out" [source "n"] [] = NotThisApi.
Proof.
  eexists. split; [vm_compute; reflexivity|]. split; [apply only_dropsb_ok; reflexivity|]. split; reflexivity.
Qed.

(** ** C88: Tensor.max and Tensor.min *)
(** The keyword arguments of a call, [old] renamed to [new] and moved to the end. *)
Definition renaming (old new : string) (kwargs : list kwnode) : list string :=
  (map written (filter (fun n => negb (named_in [old] n)) kwargs) ++
   match find (named_in [old]) kwargs with Some n => [(new ++ "=" ++ text (kw_value n))%string] | None => [] end)%list.
Theorem C88_extremum_exact :
  forall (op cls : string) (e : entry) (args : list expr) (kwargs : list kwnode),
  unsupport_args e = [] -> NoDup (map kw_arg kwargs) -> ~ In None (map kw_arg kwargs) ->
  ~ In (Some "y") (map kw_arg kwargs) -> ~ In (Some "axis") (map kw_arg kwargs) ->
  extremum_nodes op cls e args kwargs =
  if (2 <? List.length args + List.length kwargs)%nat then NotThisApi
  else if existsb (named_in ["other"]) kwargs
  then Produce false (call (cls ++ "." ++ op ++ "imum") (map text args ++ renaming "other" "y" kwargs)%list)
  else if existsb (named_in ["dim"]) kwargs || (1 <? List.length args)%nat
  then let arguments := (map text args ++ renaming "dim" "axis" kwargs)%list in
       Produce false ("(" ++ call (cls ++ "." ++ op) arguments ++ ", " ++ call (cls ++ ".arg" ++ op) arguments ++ ")")
  else Produce true (call (cls ++ "._" ++ op) (map text args ++ map written kwargs)%list).
Proof.
  intros op cls e args kwargs U N S Y A. unfold extremum_nodes.
  rewrite (parse_kwargs_exact e false kwargs U N (fun _ => S)). cbv zeta. unfold parse_args.
  rewrite map_length. assert (LK : List.length (kw_table kwargs) = List.length kwargs) by apply map_length. rewrite LK.
  destruct (2 <? _)%nat; [reflexivity|].
  assert (EX : forall k, existsb (named_in [k]) kwargs = match find (named_in [k]) kwargs with Some _ => true | None => false end).
  { intros k. clear. induction kwargs as [|n l IH]; [reflexivity|]. cbn [existsb find]. destruct (named_in [k] n); [reflexivity|exact IH]. }
  rewrite !kw_table_get, !EX. unfold renaming.
  assert (ST : forall l v new, map kw_star (kw_table l ++ [(Some new, v)])%list = (map written l ++ [(new ++ "=" ++ v)%string])%list)
    by (intros; rewrite map_app, star_written; reflexivity).
  destruct (find (named_in ["other"]) kwargs) as [o|] eqn:FO.
  { rewrite rename_key_exact; [|exact N|discriminate|exact Y]. unfold args_and_kwargs_to_str, join. rewrite ST.
    f_equal. unfold call. rewrite !app_assoc_s. reflexivity. }
  destruct (find (named_in ["dim"]) kwargs) as [d|] eqn:FD; cbn [orb].
  { rewrite rename_key_exact; [|exact N|discriminate|exact A]. unfold args_and_kwargs_to_str, join. rewrite ST.
    f_equal. unfold call. rewrite !app_assoc_s. cbn [append]. reflexivity. }
  assert (F : filter (fun n => negb (named_in ["dim"] n)) kwargs = kwargs).
  { clear -FD. induction kwargs as [|n l IH]; [reflexivity|]. cbn [find] in FD. cbn [filter].
    destruct (named_in ["dim"] n); [discriminate|]. cbn [negb]. rewrite IH by exact FD. reflexivity. }
  rewrite F, app_nil_r. unfold args_and_kwargs_to_str, join. rewrite star_written.
  destruct (1 <? _)%nat; f_equal; unfold call; rewrite !app_assoc_s; reflexivity.
Qed.
Print Assumptions C88_extremum_exact.
(** Expected but not true: a call that cannot be converted is marked.  [**mapping] raises. *)
Theorem C88_star_raises_refuted :
  forall (op cls : string) (e : entry) (args : list expr) (kwargs : list kwnode),
  In None (map kw_arg kwargs) -> extremum_nodes op cls e args kwargs = Raises "TypeError".
Proof. intros op cls e args kwargs H. unfold extremum_nodes. rewrite parse_kwargs_star by exact H. reflexivity. Qed.
Print Assumptions C88_star_raises_refuted.
Example C88_nonvacuous :
  exists e, entry_of "torch.Tensor.max" = Some e /\ unsupport_args e = [] /\
  extremum_nodes "max" "f(x)" e [] [arg "dim" "1"; arg "keepdim" "k"] =
  Produce false "(f(x).max(keepdim=k, axis=1), f(x).argmax(keepdim=k, axis=1))" /\
  extremum_nodes "min" "x" e [source "y"] [] = Produce true "x._min(y)" /\
  extremum_nodes "max" "x" e [] [arg "other" "z"] = Produce false "x.maximum(y=z)".
Proof. eexists. split; [vm_compute; reflexivity|]. repeat split; reflexivity. Qed.

(** ** C89: torch.chain_matmul *)
Theorem C89_product_exact :
  forall (e : entry) (args : list expr) (kwargs : list kwnode),
  unsupport_args e = [] -> NoDup (map kw_arg kwargs) -> ~ In None (map kw_arg kwargs) -> args <> [] ->
  (forall a, args = [a] -> e_starred a = false) ->
  let product := String.concat " @ " (map text args) in
  chain_nodes e args kwargs =
  Produce false match find (named_in ["out"]) kwargs with
                | Some o => if String.eqb (text (kw_value o)) "None" then product
                            else call "paddle.assign" [product; "output=" ++ text (kw_value o)]
                | None => product
                end.
Proof.
  intros e args kwargs U N S NE ST product. unfold chain_nodes.
  assert (E : match args with [a] => e_starred a | _ => false end = false).
  { destruct args as [|a [|b r]]; [reflexivity|apply ST; reflexivity|reflexivity]. }
  rewrite E, (parse_kwargs_exact e false kwargs U N (fun _ => S)). rewrite kw_table_get.
  destruct args as [|a r]; [congruence|]. cbn [parse_args map]. rewrite chain_concat.
  change (text a :: map text r) with (map text (a :: r)). fold product.
  destruct (find (named_in ["out"]) kwargs) as [o|]; [|reflexivity].
  destruct (String.eqb _ "None"); [reflexivity|]. f_equal. unfold call. cbn [String.concat]. rewrite !app_assoc_s. reflexivity.
Qed.
Print Assumptions C89_product_exact.
(** Expected but not true: calls that cannot be written as a product are refused. *)
Theorem C89_refusals_refuted :
  exists e : entry, entry_of "torch.chain_matmul" = Some e /\
  chain_nodes e [source "a"; starred "rest"] [] = Produce false "a @ *rest" /\
  chain_nodes e [] [] = Raises "IndexError".
Proof. eexists. split; [vm_compute; reflexivity|]. split; reflexivity. Qed.
Print Assumptions C89_refusals_refuted.
Example C89_nonvacuous :
  exists e, entry_of "torch.chain_matmul" = Some e /\ unsupport_args e = [] /\
  chain_nodes e [source "a"; source "b"; source "c"] [arg "out" "o"] = Produce false "paddle.assign(a @ b @ c, output=o)".
Proof. eexists. split; [vm_compute; reflexivity|]. split; reflexivity. Qed.

(** ** C90: calls that are printed again with few changes *)
Theorem C90_hub_load_exact :
  forall (e : entry) (api : string) (args : list expr) (kwargs : list kwnode),
  unsupport_args e = [] -> NoDup (map kw_arg kwargs) -> ~ In (Some "repo_dir") (map kw_arg kwargs) ->
  hub_load_nodes e api args kwargs =
  Produce false (call api (map text args ++
    renaming "repo_or_dir" "repo_dir" (filter (fun n => negb (named_in ["trust_repo"; "verbose"; "skip_validation"] n)) kwargs))%list).
Proof.
  intros e api args kwargs U N R. unfold hub_load_nodes.
  rewrite (parse_kwargs_exact e true kwargs U N) by discriminate. rewrite kw_table_get.
  set (D := ["trust_repo"; "verbose"; "skip_validation"]). f_equal.
  unfold call_text, args_and_kwargs_to_str, join, parse_args, call. do 4 f_equal.
  assert (K : forall k l, mem_str k D = false ->
     find (named_in [k]) (filter (fun n => negb (named_in D n)) l) = find (named_in [k]) l).
  { intros k l Hk. induction l as [|n l IH]; [reflexivity|]. cbn [filter find].
    destruct (named_in D n) eqn:ND; cbn [negb].
    - rewrite IH. destruct (named_in [k] n) eqn:NK; [|reflexivity]. exfalso.
      unfold named_in in *. destruct (kw_arg n) as [x|]; [|discriminate]. apply mem_str_In in NK as [<-|[]]. congruence.
    - cbn [find]. rewrite IH. reflexivity. }
  unfold renaming. rewrite (K "repo_or_dir") by reflexivity.
  assert (FF : forall l, filter (fun n => negb (named_in ["repo_or_dir"] n)) (filter (fun n => negb (named_in D n)) l) =
                         filter (fun n => negb (named_in D n)) (filter (fun n => negb (named_in ["repo_or_dir"] n)) l)).
  { intros l. rewrite !filter_filter. apply filter_ext. intros n. apply andb_comm. }
  destruct (find (named_in ["repo_or_dir"]) kwargs) as [r|] eqn:FR.
  - rewrite rename_key_exact; [|exact N|discriminate|exact R].
    rewrite drop_names_filter.
    + rewrite filter_app. cbn [filter fst key_in]. change (mem_str "repo_dir" D) with false. cbn [negb].
      rewrite kw_table_filter, map_app, star_written, FF. reflexivity.
    + unfold dkeys. rewrite map_app. cbn [map fst]. rewrite kw_table_keys. apply NoDup_snoc.
      * clear -N. induction kwargs as [|n l IH]; [constructor|]. cbn [map filter] in *. inversion N as [|? ? N1 N2]; subst.
        destruct (negb _); [|apply IH, N2]. cbn [map]. constructor; [|apply IH, N2]. intros H. apply N1.
        apply in_map_iff in H as (m & E & H). apply filter_In in H as [H _]. rewrite <- E. apply in_map, H.
      * intros H. apply R. apply in_map_iff in H as (m & E & H). apply filter_In in H as [H _]. rewrite <- E. apply in_map, H.
  - rewrite drop_names_filter by (unfold dkeys; rewrite kw_table_keys; exact N).
    assert (G : filter (fun n => negb (named_in ["repo_or_dir"] n)) kwargs = kwargs).
    { clear -FR. induction kwargs as [|n l IH]; [reflexivity|]. cbn [find] in FR. cbn [filter].
      destruct (named_in ["repo_or_dir"] n); [discriminate|]. cbn [negb]. rewrite IH by exact FR. reflexivity. }
    rewrite kw_table_filter, star_written, app_nil_r, FF, G. reflexivity.
Qed.
Print Assumptions C90_hub_load_exact.
Theorem C90_stft_exact :
  forall (e : entry) (api : string) (args : list expr) (kwargs : list kwnode),
  unsupport_args e = [] -> NoDup (map kw_arg kwargs) ->
  let same := call api (map text args ++ map written (filter (fun n => negb (named_in ["return_complex"] n)) kwargs))%list in
  stft_nodes e api args kwargs =
  Produce false match find (named_in ["return_complex"]) kwargs with
                | Some n => if String.eqb (text (kw_value n)) "(False)" then same ++ ".as_real()" else same
                | None => same
                end.
Proof.
  intros e api args kwargs U N same. unfold stft_nodes.
  rewrite (parse_kwargs_exact e true kwargs U N) by discriminate. rewrite kw_table_get.
  assert (C : call_text api (parse_args args) (drop_names ["return_complex"] (kw_table kwargs)) = same).
  { rewrite drop_names_filter by (unfold dkeys; rewrite kw_table_keys; exact N).
    rewrite kw_table_filter. unfold call_text, args_and_kwargs_to_str, join, parse_args. rewrite star_written. reflexivity. }
  rewrite C. destruct (find _ kwargs) as [n|]; [destruct (String.eqb _ _)|]; reflexivity.
Qed.
Print Assumptions C90_stft_exact.
Theorem C90_pretrained_model_exact :
  forall (e : entry) (api : string) (args : list expr) (kwargs : list kwnode),
  unsupport_args e = [] -> NoDup (map kw_arg kwargs) ->
  pretrained_model_nodes e api args kwargs =
  Produce true (call api (map text args ++
    map written (filter (fun n => negb (named_in ["layout"; "generator"; "memory_format"] n)) kwargs))%list).
Proof.
  intros e api args kwargs U N. unfold pretrained_model_nodes, change_api_nodes. rewrite reemit_exact; [reflexivity| |exact N].
  intros n _ (k & _ & H). rewrite U in H. destruct H.
Qed.
Print Assumptions C90_pretrained_model_exact.
Example C90_nonvacuous :
  exists h s, entry_of "torch.hub.load" = Some h /\ entry_of "torch.Tensor.stft" = Some s /\
  unsupport_args h = [] /\ unsupport_args s = [] /\
  hub_load_nodes h "paddle.hub.load" [] [arg "repo_or_dir" "r"; arg "model" "m"; arg "verbose" "v"; MkKw None (source "kw")] =
  Produce false "paddle.hub.load(model=m, **kw, repo_dir=r)" /\
  stft_nodes s "x.stft" [source "n"] [arg "return_complex" "(False)"; arg "window" "w"] = Produce false "x.stft(n, window=w).as_real()".
Proof. eexists _, _. split; [vm_compute; reflexivity|]. split; [vm_compute; reflexivity|]. repeat split; reflexivity. Qed.

(** ** C91: setup scripts *)
(** A [setup] call is converted exactly if it was accepted, its [cmdclass] mentions the
    converted BuildExtension and it has a name. *)
Theorem C91_setup_exact :
  forall (e : entry) (args : list expr) (kwargs kept : list kwnode) (extensions : list string),
  let b := bindings (position_args e) args kept in
  (exists t, parse_args_and_kwargs e false false args kwargs = (Bound t, kept)) -> NoDup (map fst b) ->
  setup_nodes e args kwargs extensions =
  match value_of b "cmdclass" with
  | None => (NotThisApi, extensions)
  | Some c =>
      if contains "paddle.utils.cpp_extension.BuildExtension" c then
        match value_of b "name" with
        | None => (Raises "KeyError", extensions)
        | Some n => (Produce false (call "paddle.utils.cpp_extension.setup" (map keyword_text (without_names ["cmdclass"] b))),
                     (extensions ++ [strip_by (fun c => Ascii.eqb c quote2) n])%list)
        end
      else (NotThisApi, extensions)
  end.
Proof.
  intros e args kwargs kept extensions b (t & P) N. unfold setup_nodes, by_parsing. rewrite P. cbn [fst].
  apply parse_Bound in P as (-> & _ & _). fold b.
  assert (B : binds b [] = b) by (apply (binds_nodup b []); exact N). rewrite B.
  unfold setup_code. rewrite !value_of_dget. destruct (dget key_eqb (Some "cmdclass") b) as [c|]; [|reflexivity].
  destruct (contains _ c); [|reflexivity]. destruct (dget key_eqb (Some "name") b) as [n|]; [|reflexivity].
  f_equal. f_equal. unfold kwargs_to_str, join, call. rewrite (ddel_filter _ key_eqb_spec) by exact N.
  assert (F : filter (fun kv => negb (key_eqb (Some "cmdclass") (fst kv))) b = without_names ["cmdclass"] b).
  { apply filter_ext. intros [[k|] v]; cbn [fst key_eqb key_in mem_str existsb]; [|reflexivity].
    rewrite orb_false_r, String.eqb_sym. reflexivity. }
  rewrite F, (map_ext kw_plain keyword_text kw_plain_text). reflexivity.
Qed.
Print Assumptions C91_setup_exact.
(** Whatever the call, the list of extension names only grows, by at most one name. *)
Theorem C91_extension_names_grow :
  forall (e : entry) (args : list expr) (kwargs : list kwnode) (extensions : list string),
  let '(a, after) := setup_nodes e args kwargs extensions in
  (exists n, after = (extensions ++ [n])%list /\ exists s, a = Produce false s) \/
  (after = extensions /\ forall h s, a <> Produce h s).
Proof.
  intros e args kwargs extensions. unfold setup_nodes, by_parsing.
  destruct (fst (parse_args_and_kwargs e false false args kwargs)) as [t| | |]; try (right; split; [reflexivity|discriminate]).
  unfold setup_code. destruct (dget key_eqb (Some "cmdclass") t) as [c|]; [|right; split; [reflexivity|discriminate]].
  destruct (contains _ c); [|right; split; [reflexivity|discriminate]].
  destruct (dget key_eqb (Some "name") t); [|right; split; [reflexivity|discriminate]].
  left. eexists. split; [reflexivity|]. eexists. reflexivity.
Qed.
Print Assumptions C91_extension_names_grow.
(** Expected but not true: the other commands in [cmdclass] survive, and a nameless call
    does not stop the conversion. *)
Theorem C91_commands_lost_refuted :
  exists e : entry, entry_of "setuptools.setup" = Some e /\
  (forall x, fst (setup_nodes e [] [arg "name" "n"; arg "cmdclass" "{'build_ext': paddle.utils.cpp_extension.BuildExtension, 'clean': Clean}"] x) =
             Produce false "paddle.utils.cpp_extension.setup(name=n)") /\
  (forall x, fst (setup_nodes e [] [arg "cmdclass" "{'build_ext': paddle.utils.cpp_extension.BuildExtension}"] x) = Raises "KeyError").
Proof. eexists. split; [vm_compute; reflexivity|]. split; intros x; reflexivity. Qed.
Print Assumptions C91_commands_lost_refuted.
Example C91_nonvacuous :
  exists e, entry_of "setuptools.setup" = Some e /\
  setup_nodes e [] [arg "name" (triple "ext"); arg "ext_modules" "m"; arg "cmdclass" "{'b': paddle.utils.cpp_extension.BuildExtension}"] ["a"] =
  (Produce false ("paddle.utils.cpp_extension.setup(name=" ++ triple "ext" ++ ", ext_modules=m)"), ["a"; "ext"]) /\
  setup_nodes e [] [arg "name" "n"] ["a"] = (NotThisApi, ["a"]).
Proof. eexists. split; [vm_compute; reflexivity|]. split; reflexivity. Qed.

(** ** C92: Tensor.split *)
(** The call itself is never changed: it is left with the helper enabled, left as
    something else, or refused. *)
Theorem C92_split_call_left :
  forall (e : entry) (args : list expr) (kwargs : list kwnode),
  entry_of "torch.Tensor.split" = Some e ->
  split_nodes e args kwargs = Leave true \/ split_nodes e args kwargs = NotThisApi \/ split_nodes e args kwargs = NoAnswer.
Proof.
  intros e args kwargs E. vm_compute in E. injection E as <-. set (e := MkEntry _ _ _ _ _ _ _).
  unfold split_nodes, by_parsing. destruct (parse_args_and_kwargs e false false args kwargs) as [r kept] eqn:P. cbn [fst].
  destruct r as [t| | |]; auto.
  - destruct t as [|[k v] t]; [exfalso|cbn [split_code]; destruct (contains _ v); auto].
    pose proof P as Q. apply parse_Bound in Q as (Q & _ & _).
    unfold parse_args_and_kwargs in P. destruct (existsb _ args); [discriminate|].
    destruct (check_kwargs e false kwargs) as [[v l] c] eqn:C. destruct v as [v|]; [injection P as -> _; destruct (check_early _ _ _ _ _ _ C) as [X|X]; discriminate X|].
    destruct (_ <? min_input_args e)%nat eqn:L1; [discriminate|]. apply Nat.ltb_ge in L1. change (min_input_args e) with 1%nat in L1.
    destruct (_ <? _)%nat; [discriminate|].
    assert (K : kept = l). { destruct (bind_args e 0 args []); congruence. } subst l.
    assert (LB : (1 <= List.length args + List.length kept)%nat) by lia.
    assert (F : forall b t, (t <> [] \/ b <> []) -> binds b t <> []).
    { clear. induction b as [|[k v] b IH]; intros t H; [destruct H; [assumption|congruence]|].
      change (binds ((k, v) :: b) t) with (binds b (dset key_eqb k v t)). apply IH. left.
      destruct t as [|[k' v'] t]; cbn [dset]; [discriminate|]. destruct (key_eqb k k'); discriminate. }
    apply (F (bindings (position_args e) args kept) []); [right|symmetry; exact Q].
    unfold bindings. destruct args as [|a r]; [destruct kept as [|n kept]; [cbn in LB; lia|discriminate]|].
    intros X. apply (f_equal (@List.length _)) in X. discriminate X.
  - exfalso. apply (parse_never_IndexError e false false args kwargs). rewrite P. reflexivity.
Qed.
Print Assumptions C92_split_call_left.
(** The helper divides an axis of length [n] as torch does exactly if the size divides [n]. *)
Theorem C92_split_helper_exactly :
  forall n size : nat, (0 < n)%nat -> (0 < size)%nat ->
  (helper_split_sizes n size = Ok (torch_split_sizes n size) <-> (n mod size = 0)%nat).
Proof. exact split_exact. Qed.
Print Assumptions C92_split_helper_exactly.
(** Expected but not true: the helper gives torch's pieces or fails. *)
Theorem C92_silent_difference_refuted :
  exists n size l, (0 < n)%nat /\ (0 < size)%nat /\ helper_split_sizes n size = Ok l /\ l <> torch_split_sizes n size.
Proof. exists 8%nat, 3%nat, [4; 4]%nat. repeat split; try lia. discriminate. Qed.
Print Assumptions C92_silent_difference_refuted.
Example C92_nonvacuous :
  helper_split_sizes 6 2 = Ok [2; 2; 2]%nat /\ torch_split_sizes 7 3 = [3; 3; 1]%nat /\ helper_split_sizes 7 3 = Raise "ValueError" /\
  exists e, entry_of "torch.Tensor.split" = Some e /\ split_nodes e [source "n"] [arg "dim" "1"] = Leave true.
Proof. repeat split; try reflexivity. eexists. split; [vm_compute; reflexivity|reflexivity]. Qed.

(** ** C93: rotary embeddings *)
Theorem C93_rotary_exact :
  forall (e : entry) (args : list expr) (kwargs kept : list kwnode),
  let b := bindings (position_args e) args kept in
  (exists t, parse_args_and_kwargs e false false args kwargs = (Bound t, kept)) -> NoDup (map fst b) ->
  rotary_nodes e args kwargs =
  Produce true (nls ++ call "apply_rotary_position_embeddings" (map keyword_text b) ++ nls).
Proof.
  intros e args kwargs kept b (t & P) N. unfold rotary_nodes, by_parsing. rewrite P. cbn [fst].
  apply parse_Bound in P as (-> & _ & _). fold b.
  assert (B : binds b [] = b) by (apply (binds_nodup b []); exact N). rewrite B.
  unfold kwargs_to_str, join, call. rewrite (map_ext kw_plain keyword_text kw_plain_text), !app_assoc_s. reflexivity.
Qed.
Print Assumptions C93_rotary_exact.
(** Expected but not true: the helper accepts the arguments of every converted call. *)
Theorem C93_unknown_argument_refuted :
  exists (e : entry) (args : list expr) (kwargs : list kwnode) (k : string),
  entry_of "flash_attn.layers.rotary.apply_rotary_emb_func" = Some e /\
  In (Some k) (map kw_arg kwargs) /\ ~ In k rotary_parameters /\
  rotary_nodes e args kwargs = Produce true (nls ++ "apply_rotary_position_embeddings(x=q, cos=c, sin=s, interleaved=i)" ++ nls).
Proof.
  eexists _, [source "q"; source "c"; source "s"], [arg "interleaved" "i"], "interleaved".
  split; [vm_compute; reflexivity|]. split; [left; reflexivity|]. split; [cbn; intuition discriminate|reflexivity].
Qed.
Print Assumptions C93_unknown_argument_refuted.
Example C93_nonvacuous :
  exists e, entry_of "flash_attn.layers.rotary.apply_rotary_emb_func" = Some e /\
  rotary_nodes e [source "q"] [arg "sin" "s"; arg "cos" "c"] = Produce true (nls ++ "apply_rotary_position_embeddings(x=q, sin=s, cos=c)" ++ nls).
Proof. eexists. split; [vm_compute; reflexivity|reflexivity]. Qed.

(** ** Which classes are modelled *)
(** Every matcher class named by an enabled row of api_mapping.json is modelled: in
    Args.v, by a body in GenerateData.v, or in Special.v. *)
Definition modelled_here : list string :=
  ["ChangePrefixMatcher"; "ChangeAPIMatcher"; "CheckPointMatcher"; "GenericMatcher";
   "WeightsMatcher"; "CUDAAndCppExtensionMatcher"; "TensorMaxMatcher"; "TensorMinMatcher"; "TensorRenameMatcher";
   "TensorStftMatcher"; "Chain_MatmulMatcher"; "HubLoadMatcher"; "MakeTMatcher"; "TRFMPreTrainedModelMatcher";
   "TensorSplitMatcher"; "SetUpMatcher"; "FAApplyRotaryEmbFuncMatcher"].
Example every_class_modelled :
  forallb (fun r => match r_matcher r with
                    | Some m => r_disable r || mem_str m modelled_here || dmem String.eqb m generators
                    | None => true
                    end) api_mapping = true.
Proof. vm_compute. reflexivity. Qed.

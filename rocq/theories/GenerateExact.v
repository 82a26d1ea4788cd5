(** The tables of exceptions of GenerateSpec.v contain no superfluous entry: a search
    for witness calls. *)
From Verif Require Import PyStr PyDict PyDictFacts PyStrFacts UtilsFile Args ArgsSpec ArgsFacts TablesData
  Generate GenerateData GenerateSym GenerateRows GenerateSpec GenerateCheck GenerateCalls GenerateFacts.
Opaque api_mapping generators.

(** [existsb] that stops at the first hit. *)
Definition some {A} (f : A -> bool) (l : list A) : bool := match find f l with Some _ => true | None => false end.
Lemma some_exists {A} (f : A -> bool) l : some f l = true -> exists x, In x l /\ f x = true.
Proof.
  unfold some. destruct (find f l) as [x|] eqn:F; [|discriminate]. intros _. exists x. exact (find_some _ _ F).
Qed.

(** A call with keyword arguments only. *)
Definition keywords (l : list (string * string)) : list kwnode :=
  map (fun kv => MkKw (Some (fst kv)) (MkExpr false false (snd kv))) l.
Definition an_object (r : row) : option string := if is_methodb (r_name r) then Some "obj" else None.

Definition suppliesb (r : row) (l : list (string * string)) (k : string) : option string :=
  last_binding (Some k) (bindings (position_args (r_entry r)) [] (keywords l)).
Definition regularb (r : row) (l : list (string * string)) : bool :=
  forallb (fun kv => mem_str (fst kv) (parameters (r_entry r))) l &&
  forallb (fun k => match suppliesb r l k with Some _ => true | None => false end) (required r) &&
  match suppliesb r l "indices" with Some _ => negb (mem_str "sections" (overload_args_list (r_entry r))) | None => true end.
Lemma regularb_ok r l : regularb r l = true -> regular r (an_object r) [] (keywords l).
Proof.
  unfold regularb. intros H. apply Bool.andb_true_iff in H. destruct H as [H H3].
  apply Bool.andb_true_iff in H. destruct H as [H1 H2]. rewrite forallb_forall in H1, H2.
  split; [|split; [|split]].
  - unfold called_properly, an_object. rewrite <- methodb_iff. destruct (is_methodb (r_name r)).
    + split; [reflexivity|]. intros _. exists "obj". reflexivity.
    + split; [intros [v E]; discriminate|discriminate].
  - intros n I. apply in_map_iff in I. destruct I as ([k v] & <- & I). exists k. split; [reflexivity|].
    apply mem_str_In. exact (H1 _ I).
  - intros k K. specialize (H2 k K). destruct (suppliesb r l k) as [v|] eqn:E; [|discriminate]. exists v. exact E.
  - intros v w V _ I. change (suppliesb r l "indices" = Some v) in V. rewrite V in H3.
    apply mem_str_In in I. rewrite I in H3. discriminate.
Qed.

(** Texts to try for an argument, and the calls to try. *)
Definition trial_texts : list string :=
  ["sample"; "(True)"; "(False)"; """""""WORLD_SIZE"""""""; """""""val"""""""; """""""cuda:0"""""""; "(0)";
   "None if x else y"; "(not x)"; "True"; "False"; "not a"; "(a or b) and (c or d)"; "f(x)"].
Definition trials (r : row) (k : string) : list (list (string * string)) :=
  let without_k := filter (fun x => negb (String.eqb x k)) in
  let free l := filter (fun x => negb (mem_str x l) && negb (mem_str x (unsupport_args (r_entry r))))
                       (without_k (nodup_str (parameters (r_entry r)))) in
  let named := map (fun x => (x, ("arg_" ++ x)%string)) in
  flat_map (fun base =>
    flat_map (fun v =>
      map (fun extra => (named base ++ (k, v) :: extra)%list)
        ([] :: flat_map (fun x => map (fun w => [(x, w)]) [("arg_" ++ x)%string; "True"; "False"; """""""WORLD_SIZE"""""""]) (free base)
            ++ [named (free base)])%list)
      trial_texts)
    [without_k (nodup_str (required r ++ firstn (min_input_args (r_entry r)) (position_args (r_entry r)))%list);
     without_k (nodup_str (required r))].

Definition shows (bad : string -> string -> rope -> bool) (r : row) (g : bool * block) (k : string) (l : list (string * string)) : bool :=
  if regularb r l then
  match suppliesb r l k, paddle_nodes r g (an_object r) [] (keywords l) [] with
  | Some v, Ret (Converted q _) => negb (String.eqb v "None") && negb (String.eqb v "") && bad k v q
  | _, _ => false
  end else false.
Definition witnessed (bad : string -> string -> rope -> bool) (t : list (string * list string)) : bool :=
  forallb (fun nk =>
    some (fun r => if String.eqb (r_name r) (fst nk) then
      match generator r with
      | Some g => forallb (fun k => some (shows bad r g k) (trials r k)) (snd nk)
      | None => false
      end else false) api_mapping) t.
Lemma witnessed_ok bad t n ks k :
  witnessed bad t = true -> In (n, ks) t -> In k ks ->
  exists r g recv kwargs v q u,
    In r api_mapping /\ r_name r = n /\ generator r = Some g /\ regular r recv [] kwargs /\
    supplies (r_entry r) [] kwargs k v /\ v <> "None" /\ v <> "" /\
    paddle_nodes r g recv [] kwargs [] = Ret (Converted q u) /\ bad k v q = true.
Proof.
  unfold witnessed. intros H I J. rewrite forallb_forall in H. specialize (H _ I). cbn [fst snd] in H.
  apply some_exists in H. destruct H as (r & R & H).
  destruct (String.eqb_spec (r_name r) n) as [E|]; [|discriminate]. destruct (generator r) as [g|] eqn:G; [|discriminate].
  rewrite forallb_forall in H. specialize (H k J). apply some_exists in H. destruct H as (l & _ & H).
  unfold shows in H. destruct (regularb r l) eqn:H1; [|discriminate]. rename H into H2.
  destruct (suppliesb r l k) as [v|] eqn:V; [|discriminate].
  destruct (paddle_nodes r g (an_object r) [] (keywords l) []) as [[q u| | |]|] eqn:P; try discriminate.
  apply Bool.andb_true_iff in H2. destruct H2 as [H2 B]. apply Bool.andb_true_iff in H2. destruct H2 as [N1 N2].
  exists r, g, (an_object r), (keywords l), v, q, u.
  split; [exact R|]. split; [exact E|]. split; [exact G|]. split; [exact (regularb_ok r l H1)|].
  split; [exact V|].
  split; [destruct (String.eqb_spec v "None"); [discriminate|assumption]|].
  split; [destruct (String.eqb_spec v ""); [discriminate|assumption]|].
  split; [exact P|exact B].
Qed.

Definition missing (_ v : string) (q : rope) : bool := negb (contains v (render q)).
Definition more_than_once (k _ : string) (q : rope) : bool := Nat.ltb 1 (copies (Argument k) q).
Lemma lost_witnessed : witnessed missing lost = true.
Proof. vm_compute. reflexivity. Qed.
Lemma repeated_witnessed : witnessed more_than_once repeated = true.
Proof. vm_compute. reflexivity. Qed.
Lemma missing_ok k v q : missing k v q = true -> ~ inside v (render q).
Proof.
  unfold missing, inside. intros H I. apply contains_spec in I. rewrite I in H. discriminate.
Qed.

(** The receiver: one regular call per listed method. *)
Definition receiver_trials (r : row) : list (list (string * string)) :=
  [map (fun x => (x, ("arg_" ++ x)%string)) (nodup_str (required r))].
Lemma receivers_witnessed :
  forallb (fun n => some (fun r => if String.eqb (r_name r) n then
    match generator r with
    | Some g => some (fun l => regularb r l &&
        match paddle_nodes r g (an_object r) [] (keywords l) [] with
        | Ret (Converted q _) => Nat.ltb 1 (copies Receiver q)
        | _ => false
        end) (receiver_trials r)
    | None => false
    end else false) api_mapping) receiver_repeated = true.
Proof. vm_compute. reflexivity. Qed.
Lemma receiver_ok n : In n receiver_repeated ->
  exists r g recv kwargs q u,
    In r api_mapping /\ r_name r = n /\ generator r = Some g /\ regular r recv [] kwargs /\
    paddle_nodes r g recv [] kwargs [] = Ret (Converted q u) /\ (1 < copies Receiver q)%nat.
Proof.
  intros I. pose proof receivers_witnessed as H. rewrite forallb_forall in H. specialize (H n I). cbv beta in H.
  apply some_exists in H. destruct H as (r & R & H).
  destruct (String.eqb_spec (r_name r) n) as [E|]; [|discriminate]. destruct (generator r) as [g|] eqn:G; [|discriminate].
  apply some_exists in H. destruct H as (l & _ & H). apply Bool.andb_true_iff in H. destruct H as [H1 H2].
  destruct (paddle_nodes r g (an_object r) [] (keywords l) []) as [[q u| | |]|] eqn:P; try discriminate.
  apply Nat.ltb_lt in H2.
  exists r, g, (an_object r), (keywords l), q, u.
  split; [exact R|]. split; [exact E|]. split; [exact G|]. split; [exact (regularb_ok r l H1)|].
  split; [exact P|exact H2].
Qed.

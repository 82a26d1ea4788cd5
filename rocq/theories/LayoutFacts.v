(** Proofs: two runs on disks whose differences the converter does not notice. *)
From Coq Require Import List.
From Verif Require Import PyStr PyDict PyDictFacts Ast AstFacts UtilsFile TextFile TextSpec TextFacts ImportPass BasicPass Converter Shipped Program Main LayoutSpec.
From Verif Require Import FileTree FileTreeSpec FileTreeFacts.
Open Scope list_scope.

Section Twins.
Variable close : path -> string -> string -> Prop.
Definition alike (p : path) (e e' : entry) : Prop :=
  p = [] \/ e = e' \/ exists s s', e = File s /\ e' = File s' /\ close p s s'.
Definition twin (f f' : fs) : Prop := Forall2 (fun x x' => fst x = fst x' /\ alike (fst x) (snd x) (snd x')) f f'.

Lemma twin_keys f f' : twin f f' -> dkeys f = dkeys f'.
Proof. induction 1 as [|x x' f f' [E _] _ IH]; [reflexivity|]. cbn. rewrite E. f_equal. exact IH. Qed.
Lemma at_twin f f' p : twin f f' -> at_path f p = at_path f' p \/
  exists s s', at_path f p = Some (File s) /\ at_path f' p = Some (File s') /\ close p s s'.
Proof.
  intros T. destruct p as [|n p]; [left; reflexivity|]. cbn [at_path]. set (q := n :: p).
  induction T as [|[k e] [k' e'] f f' [E A] _ IH]; [left; reflexivity|]. cbn [fst snd] in *. subst k'. cbn [dget].
  destruct (path_eqb_spec q k) as [<-|_]; [|exact IH]. destruct A as [A|[->|(s & s' & -> & -> & K)]]; [discriminate A|left; reflexivity|right; eauto].
Qed.
Lemma twin_isfile f f' p : twin f f' -> isfile f p = isfile f' p.
Proof. intros T. unfold isfile. destruct (at_twin f f' p T) as [->|(s & s' & -> & -> & _)]; reflexivity. Qed.
Lemma twin_isdir f f' p : twin f f' -> isdir f p = isdir f' p.
Proof. intros T. unfold isdir. destruct (at_twin f f' p T) as [->|(s & s' & -> & -> & _)]; reflexivity. Qed.
Lemma twin_exists f f' p : twin f f' -> exists_at f p = exists_at f' p.
Proof. intros T. unfold exists_at. destruct (at_twin f f' p T) as [->|(s & s' & -> & -> & _)]; reflexivity. Qed.
Lemma twin_exists_text f f' s : twin f f' -> exists_text f s = exists_text f' s.
Proof.
  intros T. unfold exists_text. rewrite (twin_keys f f' T). do 2 f_equal. induction (dkeys f') as [|p l IH]; [reflexivity|].
  cbn [existsb]. rewrite (twin_exists f f' p T), IH. reflexivity.
Qed.
Lemma twin_names f f' p : twin f f' -> names f p = names f' p.
Proof. intros T. unfold names. rewrite (twin_keys f f' T). reflexivity. Qed.
Lemma twin_set p e f f' : twin f f' -> twin (dset path_eqb p e f) (dset path_eqb p e f').
Proof.
  induction 1 as [|[k x] [k' x'] f f' [E A] T IH]; cbn [dset].
  - constructor; [|constructor]. split; [reflexivity|right; left; reflexivity].
  - cbn in E. subst k'. destruct (path_eqb p k).
    + constructor; [|exact T]. split; [reflexivity|right; left; reflexivity].
    + constructor; [split; [reflexivity|exact A]|exact IH].
Qed.
Lemma twin_del p f f' : twin f f' -> twin (ddel path_eqb p f) (ddel path_eqb p f').
Proof.
  induction 1 as [|[k x] [k' x'] f f' [E A] T IH]; cbn [ddel]; [constructor|].
  cbn in E. subst k'. destruct (path_eqb p k); [exact T|]. constructor; [split; [reflexivity|exact A]|exact IH].
Qed.
Lemma twin_perform o f f' : twin f f' -> twin (perform o f) (perform o f').
Proof. destruct o; cbn; [apply twin_set|apply twin_del|apply twin_set]. Qed.

(** Two programs with the same result, from twin disks to twin disks. *)
Definition steps {A} (m m' : act A) : Prop := forall w w', twin (disk w) (disk w') ->
  twin (disk (fst (m w))) (disk (fst (m' w'))) /\ snd (m w) = snd (m' w').
Lemma steps_ret {A} (a : A) : steps (ret a) (ret a). Proof. intros w w' T. split; [exact T|reflexivity]. Qed.
Lemma steps_fail {A} e : steps (@fail A e) (fail e). Proof. intros w w' T. split; [exact T|reflexivity]. Qed.
Lemma steps_bind {A B} (x x' : act A) (k k' : A -> act B) : steps x x' -> (forall a, steps (k a) (k' a)) -> steps (bind x k) (bind x' k').
Proof.
  intros X K w w' T. specialize (X w w' T). unfold bind. destruct (x w) as [w1 r], (x' w') as [w1' r']. cbn in X. destruct X as [T1 <-].
  destruct r; [apply K, T1|]. split; [exact T1|reflexivity].
Qed.
Lemma steps_then {A B} (x x' : act A) (k k' : A -> act B) : steps x x' -> (forall w w1 a, x w = (w1, Ok a) -> steps (k a) (k' a)) -> steps (bind x k) (bind x' k').
Proof.
  intros X K w w' T. specialize (X w w' T). unfold bind. destruct (x w) as [w1 r] eqn:E, (x' w') as [w1' r']. cbn in X. destruct X as [T1 <-].
  destruct r; [apply (K _ _ _ E), T1|]. split; [exact T1|reflexivity].
Qed.
Lemma steps_see {A} (k k' : fs -> act A) : (forall f f', twin f f' -> steps (k f) (k' f')) -> steps (see k) (see k').
Proof. intros K w w' T. unfold see. apply K; exact T. Qed.
Lemma steps_doing o : steps (doing o) (doing o).
Proof. intros w w' T. split; [apply twin_perform, T|reflexivity]. Qed.
Lemma steps_mkdir p : steps (mkdir p) (mkdir p).
Proof.
  apply steps_see. intros f f' T. rewrite (twin_isdir f f' _ T).
  destruct (at_twin f f' p T) as [->|(s & s' & -> & -> & _)]; [|apply steps_fail].
  destruct (at_path f' p); [apply steps_fail|]. destruct (isdir _ _); [apply steps_doing|apply steps_fail].
Qed.
Lemma steps_makedirs p : steps (makedirs p) (makedirs p).
Proof.
  induction p as [|n p IH]; [apply steps_fail|]. cbn [makedirs]. apply steps_bind; [|intros _; apply steps_mkdir].
  apply steps_see. intros f f' T. rewrite (twin_exists f f' _ T). destruct (exists_at _ _); [apply steps_ret|exact IH].
Qed.
Lemma steps_makedirs_ok p : steps (makedirs_ok p) (makedirs_ok p).
Proof. apply steps_see. intros f f' T. rewrite (twin_isdir f f' _ T). destruct (isdir _ _); [apply steps_ret|apply steps_makedirs]. Qed.
Lemma steps_remove p : steps (remove p) (remove p).
Proof.
  apply steps_see. intros f f' T. destruct (at_twin f f' p T) as [->|(s & s' & -> & -> & _)]; [|apply steps_doing].
  destruct (at_path f' p) as [[]|]; try apply steps_fail; apply steps_doing.
Qed.
Lemma steps_write p s : steps (write_file p s) (write_file p s).
Proof.
  apply steps_see. intros f f' T. rewrite (twin_isdir f f' _ T).
  destruct (at_twin f f' p T) as [->|(t & t' & -> & -> & _)].
  - destruct (at_path f' p) as [[]|]; try apply steps_fail; (destruct (isdir _ _); [apply steps_doing|apply steps_fail]).
  - destruct (isdir _ _); [apply steps_doing|apply steps_fail].
Qed.
Lemma steps_prepare p : steps (prepare p) (prepare p).
Proof.
  apply steps_bind.
  - apply steps_see. intros f f' T. rewrite (twin_exists f f' _ T). destruct (exists_at _ _); [apply steps_ret|apply steps_makedirs].
  - intros _. apply steps_see. intros f f' T. rewrite (twin_isdir f f' _ T). destruct (isdir _ _); [apply steps_ret|].
    apply steps_bind; [apply steps_remove|intros _; apply steps_makedirs].
Qed.
Lemma steps_for_each {C} (step step' : string -> C -> act C) l : (forall n c, steps (step n c) (step' n c)) ->
  forall c, steps (for_each step l c) (for_each step' l c).
Proof. intros S. induction l as [|n l IH]; intros c; cbn [for_each]; [apply steps_ret|]. apply steps_bind; [apply S|intros c'; apply IH]. Qed.

Section Run.
Context {C : Type}.
Variable convert : (string -> bool) -> string -> string -> C -> res (string * C).
Variable codes_of : C -> dict Z string.
Variable order : fs -> path -> list string -> list string.
Variable search : string -> string -> bool.
Variable isort : string -> option string.
Variables base dst : path.
Hypothesis order_names : by_names order.
(** Differences are not in the output, and below [base] the converter does not notice them. *)
Hypothesis apart : forall p s s', close p s s' -> ~ inside p dst.
Hypothesis unnoticed : forall p s s' ex c, close p s s' -> inside p base -> convert ex (render p) s c = convert ex (render p) s' c.
Hypothesis convert_ext : forall ex ex' file s c, (forall t, ex t = ex' t) -> convert ex file s c = convert ex' file s c.

Lemma steps_file old new c : inside old base -> steps (transfer_file convert old new c) (transfer_file convert old new c).
Proof.
  intros I. apply steps_see. intros f f' T.
  assert (K : forall s, match convert (exists_text f) (render old) s c with
     | Ok (text, c0) => if path_eqb old new && negb (endswith (render old) ".py") && negb (endswith (render old) "requirements.txt")
          then fail "SameFileError" else bind (write_file new text) (fun _ => ret c0)
     | Raise e => fail e end =
     match convert (exists_text f') (render old) s c with
     | Ok (text, c0) => if path_eqb old new && negb (endswith (render old) ".py") && negb (endswith (render old) "requirements.txt")
          then fail "SameFileError" else bind (write_file new text) (fun _ => ret c0)
     | Raise e => fail e end).
  { intros s. rewrite (convert_ext _ (exists_text f')); [reflexivity|]. intros t. apply twin_exists_text, T. }
  assert (G : forall s, steps (match convert (exists_text f') (render old) s c with
     | Ok (text, c0) => if path_eqb old new && negb (endswith (render old) ".py") && negb (endswith (render old) "requirements.txt")
          then fail "SameFileError" else bind (write_file new text) (fun _ => ret c0)
     | Raise e => fail e end) (match convert (exists_text f') (render old) s c with
     | Ok (text, c0) => if path_eqb old new && negb (endswith (render old) ".py") && negb (endswith (render old) "requirements.txt")
          then fail "SameFileError" else bind (write_file new text) (fun _ => ret c0)
     | Raise e => fail e end)).
  { intros s. destruct (convert _ _ s c) as [[text c0]|]; [|apply steps_fail]. destruct (_ && _); [apply steps_fail|].
    apply steps_bind; [apply steps_write|intros _; apply steps_ret]. }
  destruct (at_twin f f' old T) as [->|(s & s' & -> & -> & N)].
  - destruct (at_path f' old) as [[s| | |]|]; try apply steps_fail. rewrite K. apply G.
  - rewrite K, (unnoticed _ _ _ _ _ N I). apply G.
Qed.
Lemma steps_dir fuel : forall pats src out c, inside src base ->
  steps (transfer_dir convert order search fuel pats src out c) (transfer_dir convert order search fuel pats src out c).
Proof.
  induction fuel as [|fuel IH]; intros pats src out c I; [apply steps_fail|]. cbn [transfer_dir]. apply steps_see. intros f f' T.
  assert (G : steps (if excluded search pats src then ret c else bind (prepare (dirname (if isdir f out then join_path out (basename src) else out)))
      (fun _ => transfer_file convert src (if isdir f out then join_path out (basename src) else out) c))
    (if excluded search pats src then ret c else bind (prepare (dirname (if isdir f' out then join_path out (basename src) else out)))
      (fun _ => transfer_file convert src (if isdir f' out then join_path out (basename src) else out) c))).
  { rewrite (twin_isdir f f' _ T). destruct (excluded _ _ _); [apply steps_ret|]. apply steps_bind; [apply steps_prepare|]. intros _. apply steps_file, I. }
  rewrite (twin_names f f' _ T), (order_names f f' _ _ (twin_keys _ _ T)).
  destruct (at_twin f f' src T) as [->|(s & s' & -> & -> & _)]; [|exact G].
  destruct (at_path f' src) as [[s| | |]|]; [exact G| |apply steps_ret|apply steps_fail|apply steps_fail].
  apply steps_for_each. intros n d. cbv zeta. destruct (excluded search pats (join_path src n)); [apply steps_ret|]. apply steps_bind.
  - apply steps_see. intros g g' T'. rewrite (twin_isdir g g' _ T'), (twin_exists g g' _ T'). destruct (_ && _); [apply steps_makedirs|apply steps_ret].
  - intros _. apply IH. apply inside_cons, I.
Qed.
Lemma steps_flush file dirm c : inside file dst -> steps (flush codes_of isort file dirm c) (flush codes_of isort file dirm c).
Proof.
  intros I. unfold flush. destruct (codes_of c) as [|x l]; [apply steps_ret|]. apply steps_bind.
  - destruct dirm; [apply steps_makedirs_ok|apply steps_ret].
  - intros _. apply steps_see. intros f f' T. destruct (at_twin f f' file T) as [->|(s & s' & _ & _ & N)]; [|destruct (apart _ _ _ N I)].
    destruct (write_code _ _ _); [apply steps_ret|apply steps_write|apply steps_fail].
Qed.
Lemma steps_run fuel cwd earlier src out exclude c : inside src base -> dst = destination cwd out ->
  (forall h, earlier = Some h -> inside (fst h) dst) ->
  steps (run convert codes_of order search isort fuel cwd earlier src out exclude c) (run convert codes_of order search isort fuel cwd earlier src out exclude c).
Proof.
  intros I D E. unfold run. change (match out with Some p => p | None => join_path cwd "paddle_project" end) with (destination cwd out). rewrite <- D.
  apply steps_bind.
  - destruct out; [apply steps_ret|]. apply steps_see. intros f f' T. rewrite (twin_exists f f' _ T). destruct (exists_at _ _); [apply steps_ret|apply steps_makedirs].
  - intros _. destruct (path_eqb dst src); [apply steps_fail|]. apply steps_see. intros f f' T. cbv zeta.
    rewrite (twin_isfile f f' _ T), !(twin_isdir f f' _ T). apply steps_bind; [apply steps_dir, I|]. intros c'.
    assert (G : forall own, inside (fst own) dst -> steps (let (file, dirm) := match earlier with Some h => h | None => own end in bind (flush codes_of isort file dirm c') (fun _ => ret c'))
        (let (file, dirm) := match earlier with Some h => h | None => own end in bind (flush codes_of isort file dirm c') (fun _ => ret c'))).
    { intros own J. assert (Q : inside (fst (match earlier with Some h => h | None => own end)) dst) by (destruct earlier; [apply E; reflexivity|exact J]).
      destruct (match earlier with Some h => h | None => own end) as [file dirm]. apply steps_bind; [apply steps_flush, Q|intros _; apply steps_ret]. }
    destruct (isfile f' src); [apply G|].
    + destruct (isdir f' dst); [apply inside_cons|]; apply inside_refl.
    + destruct (isdir f' src); [|apply steps_fail]. apply G. apply inside_cons, inside_refl.
Qed.
End Run.
End Twins.

(** ** The shipped converter *)
Lemma keys_forall2 (Q : path -> entry -> entry -> Prop) : forall f f' : fs, dkeys f = dkeys f' ->
  (forall k e e', In (k, e) f -> In (k, e') f' -> Q k e e') -> Forall2 (fun x x' => fst x = fst x' /\ Q (fst x) (snd x) (snd x')) f f'.
Proof.
  induction f as [|[k e] f IH]; intros [|[k' e'] f'] K H; try discriminate; [constructor|]. injection K as <- K. constructor.
  - split; [reflexivity|]. apply H; left; reflexivity.
  - apply IH; [exact K|]. intros. apply H; right; assumption.
Qed.
(** A pass depends on the answers of its finishing step only. *)
Section Ext.
Context {S : Type}.
Variable pre : node -> list frame -> S -> res (bool * S).
Variables post post' : node -> list frame -> S -> res (visited * S).
Hypothesis same : forall n st s, post n st s = post' n st s.
Definition agrees (n : node) : Prop := forall p st, visit pre post n p st = visit pre post' n p st.
Lemma list_ext nm l : Forall agrees l -> forall i st, visit_list pre post nm l i st = visit_list pre post' nm l i st.
Proof.
  induction 1 as [|x l H _ IH]; intros i st; [reflexivity|]. rewrite !visit_list_cons, H. apply AstFacts.bind_ext; [reflexivity|].
  intros [r st']. rewrite IH. reflexivity.
Qed.
Lemma fields_ext k l : Forall (field_all agrees) l -> forall done st, visit_fields pre post k done l st = visit_fields pre post' k done l st.
Proof.
  induction 1 as [|x l H _ IH]; intros done st; [reflexivity|]. rewrite !visit_fields_cons. destruct x as [nm c|nm m|nm d]; cbn in H.
  - rewrite H. apply AstFacts.bind_ext; [reflexivity|]. intros [r st']. apply IH.
  - rewrite (list_ext nm m H). apply AstFacts.bind_ext; [reflexivity|]. intros [r st']. apply IH.
  - apply IH.
Qed.
Lemma step_ext n : (forall st, generic_visit pre post n st = generic_visit pre post' n st) -> agrees n.
Proof.
  intros H p st. rewrite !visit_eq. cbv zeta. apply AstFacts.bind_ext; [reflexivity|]. intros [go v].
  apply AstFacts.bind_ext; [destruct go; [apply H|reflexivity]|]. intros [n' st']. rewrite same. reflexivity.
Qed.
Lemma visit_post_ext n : agrees n.
Proof.
  induction n using node_ind2; apply step_ext; intros st; cbn [generic_visit]; try reflexivity.
  - rewrite IHn. reflexivity.
  - rewrite IHn. apply AstFacts.bind_ext; [reflexivity|]. intros [r st1]. cbv zeta.
    rewrite (list_ext "args"%string a) by assumption. apply AstFacts.bind_ext; [reflexivity|]. intros [r2 st2].
    rewrite (list_ext "keywords"%string k) by assumption. reflexivity.
  - apply fields_ext. assumption.
Qed.
End Ext.
Lemma import_post_ext m file ex ex' n st s : (forall t, ex t = ex' t) -> import_post (MkEnv m file ex) n st s = import_post (MkEnv m file ex') n st s.
Proof.
  intros X. assert (Lo : forall x, is_local (MkEnv m file ex) x = is_local (MkEnv m file ex') x) by (intros x; unfold is_local; cbn; rewrite !X; reflexivity).
  destruct n; try reflexivity; cbn [import_post].
  - unfold visit_import. apply AstFacts.bind_ext; [|reflexivity]. generalize s. induction names as [|a l IH]; intros s0; [reflexivity|].
    cbn [import_names]. rewrite Lo. destruct (is_local _ _); [reflexivity|]. cbn [ImportPass.min_mode].
    destruct (torch_package_of _); [apply AstFacts.bind_ext; [reflexivity|]; intros s2; rewrite IH; reflexivity|].
    destruct (renamed_package_of _) as [[]|]; rewrite IH; reflexivity.
  - unfold visit_import_from. replace (from_module (MkEnv m file ex) module level) with (from_module (MkEnv m file ex') module level); [reflexivity|].
    unfold from_module. destruct level; [|reflexivity]. destruct module; [|reflexivity]. rewrite Lo. reflexivity.
Qed.
Section Shipped.
Variable L : libraries.
Let u := converter_setup L.
Lemma text_same ex file b b' c : same_source (parse_file L) file b b' -> convert_text u ex file b c = convert_text u ex file b' c.
Proof.
  intros (code & code' & R & R' & H). unfold convert_text. apply read_text_spec in R, R'. rewrite R, R'. cbn [Ast.bind].
  destruct H as [[-> E]|(-> & -> & ->)]; [|reflexivity]. unfold convert_python.
  change (py_parse u) with (parse_file L). rewrite E. reflexivity.
Qed.
Definition noticed_nowhere (base dst p : path) (s s' : string) : Prop :=
  ~ inside p dst /\ (inside p base -> same_source (parse_file L) (render p) s s').
Lemma indifferent_twin base dst f f' : sound f -> indifferent (parse_file L) base dst f f' -> twin (noticed_nowhere base dst) f f'.
Proof.
  intros S [K H]. apply keys_forall2; [exact K|]. intros k e e' I I'.
  destruct k as [|n k]; [left; reflexivity|right].
  assert (G : at_path f (n :: k) = Some e) by (cbn [at_path]; apply (dget_in_nodup _ path_eqb_spec); assumption).
  assert (G' : at_path f' (n :: k) = Some e').
  { cbn [at_path]. apply (dget_in_nodup _ path_eqb_spec); [|assumption]. unfold sound in S. rewrite <- K. exact S. }
  destruct (H (n :: k)) as [E|(b & b' & E & E' & A & B)]; rewrite G in E.
  - rewrite G' in E. left. congruence.
  - rewrite G' in E'. right. exists b, b'. split; [congruence|]. split; [congruence|]. split; assumption.
Qed.
Lemma text_ext ex ex' file s c : (forall t, ex t = ex' t) -> convert_text u ex file s c = convert_text u ex' file s c.
Proof.
  intros X. unfold convert_text. destruct (endswith file ".py"); [|reflexivity]. destruct (read_text s); [|reflexivity]. cbn [Ast.bind].
  unfold convert_python. apply AstFacts.bind_ext; [reflexivity|]. intros root. apply AstFacts.bind_ext; [|reflexivity].
  unfold transfer_node. apply AstFacts.bind_ext; [|reflexivity]. unfold import_transform, import_visit.
  rewrite (visit_post_ext import_pre (import_post (MkEnv (mode_min u) file ex)) (import_post (MkEnv (mode_min u) file ex'))); [reflexivity|].
  intros n st i. apply import_post_ext. exact X.
Qed.
Lemma steps_program base dst cwd earlier src out exclude c : by_names (listing L) -> inside src base -> dst = destination cwd out ->
  (forall h, earlier = Some h -> inside (fst h) dst) ->
  steps (noticed_nowhere base dst)
    (run (convert_text u) (registry L) (listing L) (found L) (isort L) (limit L) cwd earlier src out exclude c)
    (run (convert_text u) (registry L) (listing L) (found L) (isort L) (limit L) cwd earlier src out exclude c).
Proof.
  intros B I D E. apply (steps_run _ _ _ _ _ _ base dst); try assumption.
  - intros p s s' [A _]. exact A.
  - intros p s s' ex d [_ A] J. apply text_same, A, J.
  - intros. apply text_ext. assumption.
Qed.
Lemma steps_each dst cwd (opts : options) base l : by_names (listing L) -> dst = destination cwd (out_dir opts) -> forall p,
  (forall h, own_file p = Some h -> inside (fst h) dst) ->
  steps (noticed_nowhere base dst) (each_project L cwd opts base l p) (each_project L cwd opts base l p).
Proof.
  intros B D. induction l as [|n l IH]; intros p O; cbn [each_project]; [apply steps_ret|].
  assert (G : steps (noticed_nowhere base dst) (convert_in L cwd p (join_path base n) (out_dir opts) (exclude opts)) (convert_in L cwd p (join_path base n) (out_dir opts) (exclude opts))).
  { unfold convert_in. apply steps_see. intros f f' Tf. cbv zeta. apply steps_bind.
    - apply steps_program; try assumption. apply inside_cons, inside_refl.
    - intros c. replace (registry_file f cwd (join_path base n) (out_dir opts)) with (registry_file f' cwd (join_path base n) (out_dir opts)); [apply steps_ret|].
      unfold registry_file. rewrite (twin_isfile _ f f' _ Tf), !(twin_isdir _ f f' _ Tf), (twin_exists _ f f' _ Tf). reflexivity. }
  assert (O' : forall w w1 c q, convert_in L cwd p (join_path base n) (out_dir opts) (exclude opts) w = (w1, Ok (c, q)) -> forall h, own_file q = Some h -> inside (fst h) dst).
  { intros w w1 c q E h Eh. unfold convert_in, FileTree.see, FileTree.bind in E.
    match type of E with context [run ?a ?b ?d ?e ?g ?i ?j ?k ?m ?n ?o ?c ?w] => destruct (run a b d e g i j k m n o c w) as [w2 [c2|]] end; [|discriminate].
    injection E as _ _ <-. cbn [own_file] in Eh. destruct (own_file p) as [h0|] eqn:Eo; [apply O; congruence|].
    unfold registry_file in Eh. change (match out_dir opts with Some p => p | None => join_path cwd "paddle_project" end) with (destination cwd (out_dir opts)) in Eh.
    rewrite <- D in Eh. destruct (isfile _ _); [injection Eh as <-|destruct (isdir (disk w) (join_path base n)); [injection Eh as <-|discriminate]].
    - cbn [fst]. destruct (_ || _); [apply inside_cons|]; apply inside_refl.
    - cbn [fst]. apply inside_cons, inside_refl. }
  apply steps_then; [exact G|]. intros w w1 [c q] E. cbn [fst snd]. apply steps_bind; [apply IH; eapply O'; exact E|]. intros rest. apply steps_ret.
Qed.
End Shipped.

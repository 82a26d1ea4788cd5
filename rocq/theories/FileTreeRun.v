(** Proofs about FileTree.v: whole runs. *)
From Coq Require Import Permutation Lia.
From Verif Require Import PyStr PyDict PyStrFacts PyDictFacts Ast UtilsFile FileTree FileTreeSpec FileTreeFacts FileTreeMirror.
Open Scope list_scope.

Lemma concat_snoc (l : list string) (x : string) : String.concat "" (l ++ [x]) = (String.concat "" l ++ x)%string.
Proof.
  induction l as [|a l IH]; [reflexivity|]. destruct l as [|b l]; [reflexivity|].
  change ((a ++ "" ++ String.concat "" ((b :: l) ++ [x]))%string = ((a ++ "" ++ String.concat "" (b :: l)) ++ x)%string).
  rewrite IH. cbn [String.append]. rewrite !app_assoc_s. reflexivity.
Qed.
Lemma render_cons n p : render (n :: p) = (render p ++ "/" ++ n)%string.
Proof. unfold render. cbn [rev]. rewrite map_app. apply concat_snoc. Qed.
Lemma render_nonempty n p : String.eqb (render (n :: p)) "" = false.
Proof. rewrite render_cons. destruct (render p); reflexivity. Qed.

Section Runs.
Context {C : Type}.
Variable convert : (string -> bool) -> string -> string -> C -> res (string * C).
Variable codes_of : C -> dict Z string.
Variable order : fs -> path -> list string -> list string.
Variable search : string -> string -> bool.
Variable isort : string -> option string.

Lemma run_parts fuel cwd src out exclude c w w' c' :
  run convert codes_of order search isort fuel cwd None src out exclude c w = (w', Ok c') ->
  exists w1 w2,
    ((w1 = w /\ (out = None -> exists_at (disk w) (destination cwd out) = true)) \/
     (out = None /\ makedirs (destination cwd out) w = (w1, Ok tt))) /\
    destination cwd out <> src /\
    transfer_dir convert order search fuel (exclude_patterns exclude) src (destination cwd out) c w1 = (w2, Ok c') /\
    ((isfile (disk w1) src = true /\
      flush codes_of isort (if isdir (disk w1) (destination cwd out) then join_path (destination cwd out) (basename src) else destination cwd out) false c' w2 = (w', Ok tt)) \/
     (isdir (disk w1) src = true /\
      flush codes_of isort ("paddle_utils.py"%string :: destination cwd out) true c' w2 = (w', Ok tt))).
Proof.
  unfold run. change (match out with Some p => p | None => join_path cwd "paddle_project" end) with (destination cwd out).
  set (dst := destination cwd out). intro H. apply bind_ok in H. destruct H as (w1 & [] & H1 & H2).
  destruct (path_eqb_spec dst src) as [|N]; [discriminate|]. unfold see in H2.
  apply bind_ok in H2. destruct H2 as (w2 & c2 & T & H2). exists w1, w2. split; [|split; [exact N|]].
  - destruct out as [p|]; [left; injection H1 as <-; split; [reflexivity|discriminate]|].
    unfold see in H1. destruct (exists_at (disk w) dst) eqn:E; [left; injection H1 as <-; split; auto|right; auto].
  - destruct (isfile (disk w1) src) eqn:Fi; [|destruct (isdir (disk w1) src) eqn:Di; [|discriminate]].
    + apply bind_ok in H2. destruct H2 as (w3 & [] & Fl & R). injection R as <- <-. split; [exact T|]. left. split; [reflexivity|exact Fl].
    + apply bind_ok in H2. destruct H2 as (w3 & [] & Fl & R). injection R as <- <-. split; [exact T|]. right. split; [reflexivity|exact Fl].
Qed.

Lemma flush_dir dst c w w' : flush codes_of isort ("paddle_utils.py"%string :: dst) true c w = (w', Ok tt) ->
  (codes_of c = [] /\ w' = w) \/
  (codes_of c <> [] /\ disk w @@ ("paddle_utils.py"%string :: dst) <> Some Dir /\ exists text,
    disk w' @@ ("paddle_utils.py"%string :: dst) = Some (File text) /\
    text = format isort (insert_code (MkHelper (Some (render ("paddle_utils.py"%string :: dst))) true (codes_of c))) /\
    forall q, q <> "paddle_utils.py"%string :: dst -> disk w' @@ q = disk w @@ q \/ (disk w @@ q = None /\ disk w' @@ q = Some Dir /\ inside dst q)).
Proof.
  unfold flush. destruct (codes_of c) as [|x l] eqn:E; intro H; [left; injection H as <-; auto|right]. split; [discriminate|].
  rewrite <- E in *. apply bind_ok in H. destruct H as (w1 & [] & M & H). unfold see in H.
  assert (G : grows dst w w1).
  { unfold makedirs_ok, see in M. cbn [dirname tl] in M. destruct (isdir (disk w) dst); [injection M as <-; apply grows_refl|].
    apply makedirs_spec in M. apply M. }
  unfold write_code in H. unfold has_file in H. cbn [file_name] in H. rewrite render_nonempty in H. cbn [code_map dir_mode] in H.
  rewrite E in H. cbn [negb] in H.
  destruct (write_ok _ _ _ _ _ H) as (_ & A & O & _ & Nd). split.
  { intro X. apply Nd. destruct (G ("paddle_utils.py"%string :: dst)) as [Q|(Q & _)]; congruence. }
  eexists. split; [exact A|]. split; [rewrite E; reflexivity|].
  intros q N. rewrite (O q N). apply G.
Qed.

Lemma run_dir fuel cwd src out exclude c f w' c' :
  sound f -> any_order order -> f @@ src = Some Dir ->
  ~ inside (destination cwd out) src -> ~ inside src (destination cwd out) ->
  (forall rel e, reached (is_excluded search exclude) f src rel e -> fits e (f @@ (rel ++ destination cwd out))) ->
  run convert codes_of order search isort fuel cwd None src out exclude c (MkWorld f []) = (w', Ok c') ->
  exists w2, post convert search (exclude_patterns exclude) f src (destination cwd out) (fun _ => True) (MkWorld f []) w2 c c' /\
    flush codes_of isort ("paddle_utils.py"%string :: destination cwd out) true c' w2 = (w', Ok tt).
Proof.
  intros Sd An Ds A B Ft H. apply run_parts in H. set (dst := destination cwd out) in *.
  destruct H as (w1 & w2 & S1 & _ & T & Fl). exists w2.
  assert (G1 : grows dst (MkWorld f []) w1 /\ sound (disk w1)).
  { destruct S1 as [[-> _]|[_ M]]; [split; [apply grows_refl|exact Sd]|]. apply makedirs_spec in M.
    destruct M as (_ & G & _ & _ & K & _). split; [exact G|exact (K Sd)]. }
  destruct G1 as [G1 Sd1].
  assert (Sm : same_input f src w1).
  { intro r. destruct (G1 (r ++ src)) as [E|(_ & _ & I)]; [exact E|]. exfalso. apply A. destruct I as [r' E]. exists (r' ++ r).
    rewrite <- app_assoc. exact E. }
  assert (C1 : forall P, changes search (exclude_patterns exclude) f src dst P (MkWorld f []) w1).
  { intros P q. destruct (G1 q) as [E|E]; auto. }
  assert (Dw : isdir (disk w1) src = true).
  { apply isdir_at. rewrite <- Ds. apply (Sm []). }
  destruct Fl as [[Fi _]|[_ Fl]]; [exfalso; unfold isfile, isdir in *; destruct (disk w1 @@ src) as [[]|]; discriminate|].
  split; [|exact Fl].
  apply (root_post convert order search (exclude_patterns exclude) f src dst An A B) in T; auto.
  - destruct T as [L D Ch Sk]. split; auto. eapply changes_trans; [apply C1|exact Ch].
  - constructor. exact Ds.
  - intros r e G _. destruct r as [|n r].
    + apply reached_at in G. cbn [app] in *. rewrite Ds in G. injection G as <-.
      assert (F0 := Ft [] Dir (reached_top _ _ _ _ Ds)). cbn [app] in F0.
      destruct (G1 dst) as [E|(_ & E & _)]; [rewrite E; exact F0|rewrite E; exact I].
    + rewrite (changes_other search (exclude_patterns exclude) f src dst (fun _ => False) _ _ _ (C1 _)).
      * apply Ft. exact G.
      * discriminate.
      * intros r' [].
Qed.

Lemma run_file fuel cwd src dst exclude s c f w' c' :
  f @@ src = Some (File s) ->
  ~ inside dst src -> ~ inside src dst ->
  f @@ tl dst = Some Dir \/ f @@ tl dst = None ->
  let new := if isdir f dst then join_path dst (basename src) else dst in
  run convert codes_of order search isort fuel cwd None src (Some dst) exclude c (MkWorld f []) = (w', Ok c') ->
  if is_excluded search exclude src then c' = c /\ (codes_of c = [] -> disk w' = f)
  else exists exists_path text final,
    looks_at f (fun p => ~ inside dst p) exists_path /\ convert exists_path (render src) s c = Ok (text, c') /\
    disk w' @@ new = Some (File final) /\
    (codes_of c' = [] -> final = text) /\
    (codes_of c' <> [] -> exists h, write_code isort (MkHelper (Some (render new)) false (codes_of c')) (Some text) = Written final h) /\
    forall q, q <> new -> disk w' @@ q = f @@ q \/ (f @@ q = None /\ disk w' @@ q = Some Dir /\ inside dst q).
Proof.
  intros Fs A B Pd new H. apply run_parts in H. cbn [destination] in H.
  destruct H as (w1 & w2 & [[-> _]|[? _]] & _ & T & Fl); [|discriminate].
  destruct Fl as [[_ Fl]|[Di _]]; [|unfold isdir in Di; cbn [disk] in Di; rewrite Fs in Di; discriminate].
  cbn [disk] in Fl. fold new in Fl.
  destruct fuel as [|fuel]; [discriminate T|]. cbn [transfer_dir] in T. unfold see at 1 in T. cbn [disk] in T. rewrite Fs in T.
  change (excluded search (exclude_patterns exclude) src) with (is_excluded search exclude src) in T.
  destruct (is_excluded search exclude src).
  { injection T as <- <-. split; [reflexivity|]. intro E. unfold flush in Fl. rewrite E in Fl. injection Fl as <-. reflexivity. }
  cbv zeta in T. fold new in T. apply bind_ok in T. destruct T as (w3 & [] & Pr & T).
  assert (Nd : inside new dst).
  { unfold new. destruct (isdir f dst); [exists [basename src]; reflexivity|apply inside_refl]. }
  assert (Pn : f @@ tl new = Some Dir \/ (new = dst /\ f @@ tl new = None)).
  { unfold new. destruct (isdir f dst) eqn:E; [left; apply isdir_at in E; exact E|]. destruct Pd; auto. }
  clearbody new.
  assert (G : grows dst (MkWorld f []) w3).
  { unfold prepare in Pr. apply bind_ok in Pr. destruct Pr as (w4 & y & M1 & M2). unfold see in M1, M2. unfold dirname in *.
    cbn [disk] in M1. destruct Pn as [Pn|[Pn0 Pn]].
    - unfold exists_at in M1. rewrite Pn in M1. injection M1 as <- _. unfold isdir in M2. cbn [disk] in M2. rewrite Pn in M2.
      injection M2 as <-. apply grows_refl.
    - unfold exists_at in M1. rewrite Pn in M1. apply makedirs_spec in M1. destruct M1 as (_ & Gw & D2 & _ & K & _).
      unfold isdir in M2. rewrite D2 in M2. injection M2 as <-. rewrite Pn0 in Gw. intro q.
      destruct (Gw q) as [Q|(Q1 & Q2 & Q3)]; [left; exact Q|right]. repeat split; auto.
      eapply inside_trans; [apply near_tl|exact Q3]. }
  assert (E3 : disk w3 @@ src = Some (File s)).
  { destruct (G src) as [E|(E & _)]; [rewrite E; exact Fs|]. cbn [disk] in E. rewrite Fs in E. discriminate. }
  unfold transfer_file, see at 1 in T. rewrite E3 in T.
  destruct (convert (exists_text (disk w3)) (render src) s c) as [[text c2]|] eqn:Cv; [|discriminate].
  destruct (path_eqb_spec src new) as [Es|_].
  { exfalso. apply B. rewrite Es. exact Nd. }
  cbn [andb] in T. apply bind_ok in T. destruct T as (w4 & y & Wr & T). injection T as <- <-.
  apply write_ok in Wr. destruct Wr as (Nn & W1 & O & _).
  assert (G2 : forall q, q <> new -> disk w4 @@ q = f @@ q \/ (f @@ q = None /\ disk w4 @@ q = Some Dir /\ inside dst q)).
  { intros q N. rewrite (O q N). exact (G q). }
  assert (Lk : looks_at f (fun p => ~ inside dst p) (exists_text (disk w3))).
  { exists (disk w3). split; [|intros x; apply exists_text_spec]. intros p Np. destruct (G p) as [X|(_ & _ & X)]; [exact X|contradiction]. }
  exists (exists_text (disk w3)), text. unfold flush in Fl.
  destruct (codes_of c2) as [|x l] eqn:E.
  - injection Fl as <-. exists text. split; [exact Lk|]. split; [exact Cv|]. split; [exact W1|]. split; [auto|]. split; [congruence|exact G2].
  - apply bind_ok in Fl. destruct Fl as (w5 & [] & M & Fl). injection M as <-. unfold see in Fl. rewrite W1 in Fl.
    rewrite <- E in *.
    destruct (write_code isort (MkHelper (Some (render new)) false (codes_of c2)) (Some text)) as [|final h|] eqn:Wc; [| |discriminate].
    + exfalso. unfold write_code in Wc. unfold has_file in Wc. cbn [file_name code_map dir_mode] in Wc.
      destruct new as [|n0 new0]; [congruence|]. rewrite render_nonempty in Wc. rewrite E in Wc. cbn [negb] in Wc.
      destruct (find_import_insert_idx (splitlines text)); discriminate.
    + exists final. apply write_ok in Fl. destruct Fl as (_ & W2 & O2 & _). split; [exact Lk|]. split; [exact Cv|]. split; [exact W2|].
      split; [congruence|]. split; [intros _; exists h; first [reflexivity|exact Wc]|]. intros q N. rewrite (O2 q N). exact (G2 q N).
Qed.
End Runs.

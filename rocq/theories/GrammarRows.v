(** The code generated for the rows of the table is in the grammar of Grammar.v. *)
From Coq Require Import Lia.
From Verif Require Import PyStr PyDict PyDictFacts PyStrFacts UtilsFile Args ArgsSpec TablesData
  Generate GenerateData GenerateSym GenerateRel GenerateRows GenerateSpec GenerateCheck GenerateCalls GenerateFacts
  GenerateMarks Grammar GrammarCheck GrammarSound GenerateExact Names.
Opaque api_mapping generators.

Definition mishandled (r : row) (k : string) : bool := if listedb stripped r k then true else listedb mistreated r k.
Definition not_given (r : row) (h : assume) (g : option string) : bool :=
  match g with
  | None => false
  | Some k => if off h g then true else if wordb k then mishandled r k else true
  end.
Definition names_ok (r : row) (b : list (option string)) : bool :=
  forallb (fun o => match o with Some w => listedb clobbered r w | None => true end) b.
Definition parses (r : row) (h : assume) (a : atext) : bool :=
  if existsb (fun kb : string * bool => if snd kb then mishandled r (fst kb) else false) (known h) then true
  else match bound_names (not_given r h) (listedb tight r) a with
       | Some b => names_ok r b
       | None => false
       end.
Lemma rows_parse : all_rows (fun r g => forallb (converted (fun h a _ => parses r h a)) (row_paths r g)) = true.
Proof. vm_compute. reflexivity. Qed.

Lemma generated_program operand expression r g recv args kwargs i q u :
  In r api_mapping -> generator r = Some g -> regular r recv args kwargs ->
  well_written operand expression r recv args kwargs ->
  paddle_nodes r g recv args kwargs i = Ret (Converted q u) ->
  exists ns, program operand expression ns (render q) /\
    forall n, In n ns -> (exists k, drawn i (paddle_counters r g recv args kwargs i) k n) \/ listed clobbered r n.
Proof.
  intros I G (C & D & U & A) [W R] E.
  pose proof (row_result r g recv args kwargs i I G C D U A) as X. rewrite E in X.
  destruct X as (kw & fr & h & a & st & SUP & ALL & P & S & M & DR).
  pose proof (all_rows_in _ _ _ rows_parse I G) as F. cbv beta in F. rewrite forallb_forall in F.
  specialize (F _ P). unfold converted in F. cbn [fst snd] in F. unfold parses in F.
  assert (N : forall k, dmem String.eqb k kw = true -> mishandled r k = false /\ wordb k = true).
  { intros k K. unfold dmem in K. destruct (dget String.eqb k kw) as [v|] eqn:V; [|discriminate].
    destruct (W k v (ALL k v V)) as (V1 & _ & _ & _ & N1 & N2). rewrite <- listedb_iff in N1, N2. unfold mishandled.
    destruct (listedb stripped r k); [destruct N1; reflexivity|]. destruct (listedb mistreated r k); [destruct N2; reflexivity|].
    split; [reflexivity|apply V1]. }
  match type of F with (if ?b then _ else _) = _ => destruct b eqn:X end.
  - exfalso. apply existsb_exists in X. destruct X as ([k b] & K & X). cbn [fst snd] in X. destruct b; [|discriminate].
    pose proof (sat_known _ _ _ _ S _ _ K) as Y. destruct (N k Y) as [Z _]. congruence.
  - destruct (bound_names (not_given r h) (listedb tight r) a) as [b|] eqn:B; [|discriminate].
    destruct (bound_names_ok kw recv fr operand expression (fun k n Z => drawn_name _ _ _ _ (DR k n Z)) (not_given r h) (listedb tight r)) with (a := a) (b := b) (q := q)
      as (ns & BN & PR); try assumption.
    + intros [k|] Y; [|discriminate]. unfold not_given in Y. destruct (off h (Some k)) eqn:O; [exact (off_ok h kw recv fr S _ O)|].
      cbn [on]. destruct (dmem String.eqb k kw) eqn:K; [|reflexivity]. destruct (N k K) as [N1 N2]. rewrite N1, N2 in Y. discriminate.
    + intros k v V. destruct (W k v (ALL k v V)) as (_ & T & X1 & X2 & _). split; [exact T|].
      destruct (listedb tight r k) eqn:L; [|exact X1]. apply X2, listedb_iff, L.
    + exists ns. split; [exact PR|]. intros n J. unfold names_ok in F. rewrite forallb_forall in F.
      clear -BN J F DR. induction BN as [|o x b ns H _ IH]; [destruct J|]. destruct J as [<-|J].
      * specialize (F o (or_introl eq_refl)). destruct o as [w|]; [subst x; right; apply listedb_iff, F|left; destruct H as [k H]; exists k; apply DR, H].
      * apply IH; [intros y Y; apply F; right; exact Y|exact J].
Qed.

(** ** The exceptions are real *)
Definition unbalanced (_ v : string) (q : rope) : bool := if closes None 0 v then negb (closes None 0 (render q)) else false.
Lemma stripped_witnessed : witnessed unbalanced stripped = true.
Proof. vm_compute. reflexivity. Qed.

Definition adjoinedb (_ v : string) (q : rope) : bool :=
  if negb (String.eqb v "sample") then false
  else if some (fun p => contains (p ++ v) (render q)) before then true else some (fun p => contains (v ++ p) (render q)) after.
Lemma adjoinedb_sample k v q : adjoinedb k v q = true -> v = "sample".
Proof. unfold adjoinedb. destruct (String.eqb_spec v "sample") as [E|]; [intros _; exact E|discriminate]. Qed.
Lemma adjoinedb_ok k v q : adjoinedb k v q = true -> adjoined v (render q).
Proof.
  unfold adjoinedb. destruct (negb (String.eqb v "sample")); [discriminate|]. destruct (some _ before) eqn:X.
  - intros _. apply some_exists in X. destruct X as (p & I & X). apply contains_spec in X. destruct X as (x & y & ->).
    exists (x ++ p), y. split; [rewrite !app_assoc_s; reflexivity|]. left. exists p, x. tauto.
  - intros Y. apply some_exists in Y. destruct Y as (p & I & Y). apply contains_spec in Y. destruct Y as (x & y & ->).
    exists x, (p ++ y). split; [rewrite !app_assoc_s; reflexivity|]. right. exists p, y. tauto.
Qed.
Lemma tight_witnessed : witnessed adjoinedb tight = true.
Proof. vm_compute. reflexivity. Qed.

Fixpoint cut_at (sep s : string) : option (string * string) :=
  if prefix sep s then Some ("", substring (String.length sep) (String.length s) s)
  else match s with
       | EmptyString => None
       | String c r => match cut_at sep r with Some (a, b) => Some (String c a, b) | None => None end
       end.
Lemma prefix_cut p s : prefix p s = true -> s = p ++ substring (String.length p) (String.length s) s.
Proof.
  revert s. induction p as [|c p IH]; intros s P.
  - cbn. clear P. induction s as [|d s IH]; [reflexivity|]. cbn. rewrite <- IH. reflexivity.
  - destruct s as [|d s]; [discriminate|]. cbn in P. destruct (ascii_dec c d) as [->|]; [|discriminate].
    cbn [append String.length substring]. f_equal.
    assert (Z : forall n s m, (String.length s <= m)%nat -> substring n m s = substring n (S m) s).
    { clear. induction n as [|n IHn]; intros s m L.
      - revert m L. induction s as [|c s IHs]; intros m L; [destruct m; reflexivity|]. cbn in L. destruct m as [|m]; [lia|].
        cbn [substring]. f_equal. apply IHs. lia.
      - destruct s as [|c s]; [destruct m; reflexivity|]. cbn [substring]. apply IHn. cbn in L. lia. }
    rewrite <- Z by lia. apply IH, P.
Qed.
Lemma cut_at_ok sep s : forall a b, cut_at sep s = Some (a, b) -> s = a ++ sep ++ b.
Proof.
  induction s as [|c s IH]; intros a b E; cbn [cut_at] in E.
  - destruct (prefix sep "") eqn:P; [|discriminate]. injection E as <- <-. cbn. apply prefix_cut in P. exact P.
  - destruct (prefix sep (String c s)) eqn:P.
    + injection E as <- <-. apply prefix_cut in P. exact P.
    + destruct (cut_at sep s) as [[a' b']|] eqn:X; [|discriminate]. injection E as <- <-. cbn. rewrite <- (IH _ _ eq_refl). reflexivity.
Qed.
Definition assignsb (n c : string) : bool :=
  some (fun l =>
    if match cut_at " = " (py_strip l) with Some (a, _) => mem_str n (map py_strip (split_on "," a)) | None => false end then true
    else if String.eqb (py_strip l) ("import " ++ n) then true
    else match cut_at " as " (py_strip l) with
         | Some (a, b) => String.eqb b n && prefix "import " a
         | None => false
         end) (splitlines c).
Lemma assignsb_ok n c : assignsb n c = true -> assigns n c.
Proof.
  unfold assignsb. intros H. apply some_exists in H. destruct H as (l & I & H). exists l. split; [exact I|].
  match type of H with (if ?b then _ else _) = _ => destruct b eqn:X end.
  - left. destruct (cut_at " = " (py_strip l)) as [[a b]|] eqn:C; [|discriminate]. apply cut_at_ok in C. apply mem_str_In in X.
    exists a, b. tauto.
  - right. destruct (String.eqb_spec (py_strip l) ("import " ++ n)) as [E|]; [left; exact E|]. right.
    destruct (cut_at " as " (py_strip l)) as [[a b]|] eqn:C; [|discriminate]. apply cut_at_ok in C.
    apply Bool.andb_true_iff in H. destruct H as [H1 H2]. apply String.eqb_eq in H1. subst b. apply prefix_cut in H2.
    exists (substring (String.length "import ") (String.length a) a). rewrite C. rewrite H2 at 1. rewrite app_assoc_s. reflexivity.
Qed.
(** Calls with the required arguments and at most one more. *)
Definition calls (r : row) : list (list (string * string)) :=
  let named := map (fun x => (x, ("arg_" ++ x)%string)) in
  let req := nodup_str (required r) in
  let req2 := nodup_str (required r ++ firstn (min_input_args (r_entry r)) (position_args (r_entry r)))%list in
  let others := filter (fun x => negb (mem_str x req) && negb (mem_str x (unsupport_args (r_entry r)))) (nodup_str (parameters (r_entry r))) in
  (named req :: named req2 :: map (fun x => named (req ++ [x])%list) others
   ++ map (fun x => (named req ++ [(x, "True")])%list) others ++ map (fun x => (named req ++ [(x, "False")])%list) others
   ++ [named (req ++ others)%list])%list.
Lemma clobbered_witnessed :
  forallb (fun nk => some (fun r => if String.eqb (r_name r) (fst nk) then
    match generator r with
    | Some g => forallb (fun n => some (fun l => if regularb r l then
        match paddle_nodes r g (an_object r) [] (keywords l) [] with
        | Ret (Converted q _) => assignsb n (render q)
        | _ => false
        end else false) (calls r)) (snd nk)
    | None => false
    end else false) api_mapping) clobbered = true.
Proof. vm_compute. reflexivity. Qed.
Lemma clobbered_ok m ns n : In (m, ns) clobbered -> In n ns ->
  exists r g recv kwargs q u,
    In r api_mapping /\ r_name r = m /\ generator r = Some g /\ regular r recv [] kwargs /\
    paddle_nodes r g recv [] kwargs [] = Ret (Converted q u) /\ assigns n (render q).
Proof.
  intros I J. pose proof clobbered_witnessed as H. rewrite forallb_forall in H. specialize (H (m, ns) I). cbn [fst snd] in H.
  apply some_exists in H. destruct H as (r & R & H).
  destruct (String.eqb_spec (r_name r) m) as [E|]; [|discriminate]. destruct (generator r) as [g|] eqn:G; [|discriminate].
  rewrite forallb_forall in H. specialize (H n J). apply some_exists in H. destruct H as (l & _ & H).
  destruct (regularb r l) eqn:RG; [|discriminate].
  destruct (paddle_nodes r g (an_object r) [] (keywords l) []) as [[q u| | |]|] eqn:P; try discriminate.
  exists r, g, (an_object r), (keywords l), q, u. split; [exact R|]. split; [exact E|]. split; [exact G|].
  split; [exact (regularb_ok r l RG)|]. split; [exact P|]. apply assignsb_ok, H.
Qed.

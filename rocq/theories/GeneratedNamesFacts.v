(** Proofs about GeneratedNames.v. *)
From Coq Require Import Lia.
From Verif Require Import PyStr PyDict PyDictFacts PyStrFacts UtilsFile RegistryFacts Args ArgsSpec TablesData
  Generate GenerateData GenerateSym GenerateRel GenerateSound GenerateRows GenerateSpec GenerateCheck GenerateCalls GenerateFacts
  Grammar GrammarCheck GrammarSound GrammarRows GenerateExact HelperScope HelperTexts Names GeneratedNames.
From Verif Require ImportFacts3.
Opaque api_mapping generators.

Lemma some_in {A} (f : A -> bool) l x : In x l -> f x = true -> some f l = true.
Proof. unfold some. intros I E. destruct (find f l) eqn:F; [reflexivity|]. pose proof (find_none f l F x I). congruence. Qed.
Definition introb (w c : string) : bool :=
  if some (fun l => match cut_at " = " l with Some (a, _) => mem_str w (map py_strip (split_on "," a)) | None => false end) (splitlines c) then true
  else if some (fun l => if String.eqb (py_strip l) ("import " ++ w) then true
                         else match cut_at " as " (py_strip l) with
                              | Some (a, b) => if String.eqb b w && prefix "import " a then true else String.eqb a ("import " ++ w)
                              | None => false end) (splitlines c) then true
  else contains ("for " ++ w ++ " in ") c.
Lemma introb_ok w c : introb w c = true -> introduces w c.
Proof.
  unfold introb. destruct (some _ _) eqn:A.
  - intros _. left. apply some_exists in A. destruct A as (l & I & A).
    destruct (cut_at " = " l) as [[a b]|] eqn:C; [|discriminate]. apply cut_at_ok in C. apply mem_str_In in A.
    exists l, a, b. tauto.
  - destruct (some (fun l => if String.eqb _ _ then _ else _) _) eqn:B.
    + intros _. right. left. apply some_exists in B. destruct B as (l & I & B). exists l.
      destruct (String.eqb_spec (py_strip l) ("import " ++ w)) as [E|_]; [exists ""; tauto|].
      destruct (cut_at " as " (py_strip l)) as [[a b]|] eqn:C; [|discriminate]. apply cut_at_ok in C.
      destruct (String.eqb b w && prefix "import " a) eqn:D.
      * apply Bool.andb_true_iff in D. destruct D as [B1 B2]. apply String.eqb_eq in B1. subst b. apply prefix_cut in B2.
        exists (substring (String.length "import ") (String.length a) a). split; [exact I|]. right. left. rewrite C. rewrite B2 at 1. rewrite app_assoc_s. reflexivity.
      * apply String.eqb_eq in B. subst a. exists b. split; [exact I|]. right. right. rewrite C, app_assoc_s. reflexivity.
    + intros H. right. right. apply contains_spec in H. exact H.
Qed.

Definition fixed_words : list string := (keywords_of_python ++ constants_of_python ++ builtins)%list.
Definition helper_names : list (string * list string) := Eval vm_compute in map (fun ct => (fst ct, binds_all (snd ct))) helper_texts.
Lemma helper_names_eq : helper_names = map (fun ct => (fst ct, binds_all (snd ct))) helper_texts.
Proof. vm_compute. reflexivity. Qed.
Definition definesb (r : row) (w : string) : bool :=
  match r_matcher r with
  | None => false
  | Some c => some (fun cn => if String.eqb c (fst cn) then mem_str w (snd cn) else false) helper_names
  end.
Lemma definesb_ok r w : definesb r w = true <-> helper_defines r w.
Proof.
  unfold definesb, helper_defines. split.
  - destruct (r_matcher r) as [c|]; [|discriminate]. intros H. apply some_exists in H. destruct H as (cn & I & H).
    rewrite helper_names_eq in I. apply in_map_iff in I. destruct I as ([c' t] & <- & I). cbn [fst snd] in H.
    destruct (String.eqb_spec c c') as [<-|]; [|discriminate]. apply mem_str_In in H. exists c, t. tauto.
  - intros (c & t & -> & I & B). apply (some_in _ _ (c, binds_all t)).
    { rewrite helper_names_eq. apply in_map_iff. exists (c, t). tauto. } cbn [fst snd]. rewrite String.eqb_refl. apply mem_str_In, B.
Qed.

Definition pair_mem (x : string * string) (l : list (string * string)) : bool := some (fun y => String.eqb (fst x) (fst y) && String.eqb (snd x) (snd y)) l.
Lemma pair_mem_ok x l : pair_mem x l = true -> In x l.
Proof.
  intros H. apply some_exists in H. destruct H as ([a b] & I & H). destruct x as [c d]. cbn [fst snd] in H.
  apply Bool.andb_true_iff in H. destruct H as [A B]. apply String.eqb_eq in A. apply String.eqb_eq in B. subst. exact I.
Qed.

(** Literals at the top of a symbolic text are in every instance of it. *)
Definition top_intro (w : string) (a : atext) : bool := some (fun p => match p with ALit s => introb w s | _ => false end) a.
Definition word_ok (r : row) (u : bool) (a : atext) (w : string) : bool :=
  if mem_str w fixed_words then true
  else if match dget String.eqb (first_part (r_name r)) torch_package_mapping with Some x => String.eqb x w | None => false end then true
  else if (if u then definesb r w else false) then true
  else if top_intro w a then true
  else pair_mem (r_name r, w) nowhere.
Definition brought_ok (r : row) (w : string) : bool :=
  if exported w then true else if definesb r w then pair_mem (r_name r, w) not_brought else true.

Fixpoint touched (p : apiece) : bool :=
  match p with AArg _ | ARecv => true | AEdit _ l => existsb touched l | _ => false end.

(** Reading a symbolic text.  A list of keyword arguments can end in several states; [None]: not
    understood. *)
Definition reader_eqb (s t : reader) : bool :=
  match quote s, quote t with None, None => true | Some a, Some b => Ascii.eqb a b | _, _ => false end
  && Ascii.eqb (prev s) (prev t) && String.eqb (word s) (word t) && String.eqb (keyword s) (keyword t).
Lemma reader_eqb_eq s t : reader_eqb s t = true -> s = t.
Proof.
  unfold reader_eqb. destruct s as [q a w k], t as [q' a' w' k']; cbn.
  rewrite !Bool.andb_true_iff. intros [[[Q A] W] K]. apply Ascii.eqb_eq in A. apply String.eqb_eq in W. apply String.eqb_eq in K. subst.
  destruct q, q'; try discriminate; [|reflexivity]. apply Ascii.eqb_eq in Q. subst. reflexivity.
Qed.
Definition add_state (s : reader) (l : list reader) : list reader := if existsb (reader_eqb s) l then l else s :: l.
Lemma add_state_in s t l : In t (s :: l) -> In t (add_state s l).
Proof.
  unfold add_state. destruct (existsb (reader_eqb s) l) eqn:E; [|tauto]. intros [<-|I]; [|exact I].
  apply existsb_exists in E. destruct E as (x & X & E). apply reader_eqb_eq in E. subst. exact X.
Qed.
Definition outcomes := option (list string * list reader).
(** From every state of [l]. *)
Definition from_each (f : reader -> outcomes) : list reader -> outcomes :=
  fold_right (fun s o => match f s, o with
    | Some (a, l), Some (b, m) => Some (a ++ b, fold_right add_state m l)%list
    | _, _ => None end) (Some ([], [])).
Definition steady (s : reader) : bool := reader_eqb (snd (read s ", ")) start.
Definition both (o1 o2 : outcomes) : outcomes :=
  match o1, o2 with Some (a, l), Some (b, m) => Some (a ++ b, fold_right add_state m l)%list | _, _ => None end.
Section Join.
  Variable text : atext -> reader -> outcomes.
  (** An entry of a list of keyword arguments, with the comma that may follow. *)
  Definition sentry (e : string * (option string * atext)) (s : reader) : outcomes :=
    if made (fst e ++ "=") then None else
    let (a, s1) := read s (fst e ++ "=") in
    match text (snd (snd e)) s1 with
    | Some (b, l) => if forallb steady l then Some (a ++ b ++ flat_map (fun s => fst (read s ", ")) l, l)%list else None
    | None => None
    end.
  Definition sjoin (es : adict) (s : reader) : outcomes :=
    fold_right (fun e o => both (both (sentry e s) (sentry e start)) o) (Some ([], [s])) es.
End Join.
Fixpoint sread (p : apiece) (s : reader) : outcomes :=
  let one (x : list string * reader) : outcomes := Some (fst x, [snd x]) in
  match p with
  | ALit t => if made t then None else one (read s t)
  | AArg _ | ARecv => one (foreign s)
  | AFresh k => if wordb k then one (foreign s) else None
  | AEdit _ l => if existsb touched l then one (foreign s) else None
  | AJoin es =>
      sjoin (fix texts (l : atext) (s : reader) : outcomes :=
        match l with
        | [] => Some ([], [s])
        | x :: l' => match sread x s with
                     | Some (a, sts) => match from_each (texts l') sts with Some (b, l2) => Some (a ++ b, l2)%list | None => None end
                     | None => None
                     end
        end) es s
  end.
Fixpoint sreads (l : atext) (s : reader) : outcomes :=
  match l with
  | [] => Some ([], [s])
  | x :: l' => match sread x s with
               | Some (a, sts) => match from_each (sreads l') sts with Some (b, l2) => Some (a ++ b, l2)%list | None => None end
               | None => None
               end
  end.
Lemma sread_join es s : sread (AJoin es) s = sjoin sreads es s.
Proof. reflexivity. Qed.

(** [o] covers what happened. *)
Definition covers (o : outcomes) (x : list string * reader) : Prop :=
  match o with Some (a, l) => incl (fst x) a /\ In (snd x) l | None => True end.
Lemma add_states m l t : In t l \/ In t m -> In t (fold_right add_state m l).
Proof.
  induction l as [|s l IH]; [cbn; tauto|]. intros H. cbn [fold_right]. apply add_state_in. cbn [In] in *.
  destruct H as [[<-|H]|H]; [left; reflexivity| |]; right; apply IH; tauto.
Qed.
Lemma covers_each f l s x : In s l -> covers (f s) x -> covers (from_each f l) x.
Proof.
  induction l as [|t l IH]; intros []; intros C; cbn [from_each fold_right].
  - subst t. fold (from_each f l). destruct (f s) as [[a m]|]; [|exact I]. destruct (from_each f l) as [[b k]|]; [|exact I].
    destruct C as [C1 C2]. split; [apply incl_appl, C1|apply add_states; tauto].
  - fold (from_each f l). specialize (IH H C). destruct (f t) as [[a m]|]; [|exact I]. destruct (from_each f l) as [[b k]|]; [|exact I].
    destruct IH as [C1 C2]. split; [apply incl_appr, C1|apply add_states; tauto].
Qed.
Lemma covers_left o1 o2 x : covers o1 x -> covers (both o1 o2) x.
Proof.
  destruct o1 as [[a l]|], o2 as [[b m]|]; cbn; try tauto. intros [A B]. split; [apply incl_appl, A|apply add_states; tauto].
Qed.
Lemma covers_right o1 o2 x : covers o2 x -> covers (both o1 o2) x.
Proof.
  destruct o1 as [[a l]|], o2 as [[b m]|]; cbn; try tauto. intros [A B]. split; [apply incl_appr, A|apply add_states; tauto].
Qed.
Lemma read_all_app q1 : forall s q2, read_all s (q1 ++ q2)%list =
  let (a, s1) := read_all s q1 in let (b, s2) := read_all s1 q2 in ((a ++ b)%list, s2).
Proof.
  induction q1 as [|p q1 IH]; intros s q2; cbn [read_all app]; [destruct (read_all s q2); reflexivity|].
  destruct (read_piece s p) as [a s1]. rewrite IH. destruct (read_all s1 q1) as [b s2]. destruct (read_all s2 q2) as [c s3].
  rewrite app_assoc. reflexivity.
Qed.
Lemma read_all_one s p : read_all s [p] = read_piece s p.
Proof. cbn [read_all]. destruct (read_piece s p). rewrite app_nil_r. reflexivity. Qed.
Lemma read_piece_foreign s p : sources p <> [] -> read_piece s p = foreign s.
Proof. unfold read_piece. destruct (sources p); [congruence|reflexivity]. Qed.

Section Sound.
  Variables (kw : dict string string) (recv : option string) (fr : string -> string -> Prop).
  Hypothesis drawn_made : forall k n, wordb k = true -> fr k n -> made n = true.
  Lemma touched_ok p : touched p = true -> forall q, mp kw recv fr p q -> origins q <> [].
  Proof.
    induction p as [t|k| |k|f l F|es F] using apiece_induction; intros T q M; try discriminate.
    - destruct M as (v & _ & ->). discriminate.
    - destruct M as (v & _ & ->). discriminate.
    - apply mp_edit in M. destruct M as (r & M & ->). cbn [touched] in T.
      unfold origins at 1. cbn [flat_map sources]. rewrite app_nil_r.
      revert r M. induction F as [|x l X F IH]; intros r M; [discriminate T|]. cbn [existsb] in T.
      destruct M as (r1 & r2 & -> & A & B). rewrite origins_app. destruct (touched x) eqn:TX.
      + specialize (X eq_refl r1 A). intros E. apply app_eq_nil in E. tauto.
      + specialize (IH T r2 B). intros E. apply app_eq_nil in E. tauto.
  Qed.
  Definition sound (p : apiece) : Prop := forall s q, mp kw recv fr p q -> covers (sread p s) (read_all s q).
  Lemma texts_sound l : Forall sound l -> forall s q, mts kw recv fr l q -> covers (sreads l s) (read_all s q).
  Proof.
    induction 1 as [|p l P _ IH]; intros s q M.
    - cbn in M. subst q. cbn. split; [apply incl_refl|left; reflexivity].
    - destruct M as (r1 & r2 & -> & A & B). rewrite read_all_app. cbn [sreads]. specialize (P s r1 A).
      destruct (read_all s r1) as [a s1] eqn:E1. destruct (sread p s) as [[w1 sts]|]; [|exact I]. destruct P as [P1 P2]. cbn [fst snd] in *.
      pose proof (covers_each (sreads l) sts s1 _ P2 (IH s1 r2 B)) as C. destruct (from_each (sreads l) sts) as [[w2 l2]|]; [|exact I].
      destruct (read_all s1 r2) as [b s2]. cbn in *. destruct C as [C1 C2]. split; [|exact C2].
      apply incl_app; [apply incl_appl, P1|apply incl_appr, C1].
  Qed.
  (** One entry and, unless it is the last one, a comma. *)
  Lemma entry_sound e s v : (forall s q, mts kw recv fr (snd (snd e)) q -> covers (sreads (snd (snd e)) s) (read_all s q)) ->
    mts kw recv fr (snd (snd e)) v ->
    covers (sentry sreads e s) (read_all s (MkPiece [] (fst e ++ "=") :: v)) /\
    match sentry sreads e s with
    | Some (a, _) => let (b, s1) := read_all s (MkPiece [] (fst e ++ "=") :: v ++ [MkPiece [] ", "])%list in incl b a /\ s1 = start
    | None => True
    end.
  Proof.
    intros T M. unfold sentry. destruct (made (fst e ++ "=")) eqn:K; [split; exact I|].
    cbn [read_all]. unfold read_piece at 1 2. cbn [sources content]. rewrite K.
    destruct (read s (fst e ++ "=")) as [a s1]. specialize (T s1 v M). rewrite read_all_app.
    destruct (sreads (snd (snd e)) s1) as [[b l]|]; [|split; exact I].
    destruct (read_all s1 v) as [c s2]. destruct T as [T1 T2]. cbn [fst snd] in *.
    destruct (forallb steady l) eqn:S; [|split; exact I]. rewrite forallb_forall in S. specialize (S s2 T2).
    rewrite read_all_one. unfold read_piece. cbn [sources content]. change (made ", ") with false. cbv iota.
    pose proof (reader_eqb_eq _ _ S) as S'. destruct (read s2 ", ") as [d s3] eqn:R. cbn [snd] in S'. subst s3.
    split; [split; [|exact T2]|split; [|reflexivity]]; cbn [fst].
    - apply incl_app; [apply incl_appl, incl_refl|apply incl_appr, incl_appl, T1].
    - apply incl_app; [apply incl_appl, incl_refl|apply incl_appr, incl_app; [apply incl_appl, T1|apply incl_appr]].
      intros x X. apply in_flat_map. exists s2. rewrite R. split; [exact T2|exact X].
  Qed.
  Lemma join_entry es e s0 s : In e es -> s = s0 \/ s = start ->
    match sjoin sreads es s0, sentry sreads e s with
    | Some (a, l), Some (b, m) => incl b a /\ incl m l
    | Some _, None => False
    | None, _ => True
    end.
  Proof.
    intros H S. induction es as [|x es IH]; [destruct H|]. unfold sjoin. cbn [fold_right]. fold (sjoin sreads es s0).
    destruct H as [->|H].
    - destruct (sjoin sreads es s0) as [[a l]|]; [|unfold both; destruct (sentry sreads e s0) as [[? ?]|], (sentry sreads e start) as [[? ?]|]; exact I].
      unfold both. destruct (sentry sreads e s0) as [[b m]|] eqn:E1; [|exact I]. destruct (sentry sreads e start) as [[c n]|] eqn:E2; [|exact I].
      destruct S as [->| ->]; [rewrite E1|rewrite E2]; (split; [|intros t T; apply add_states; left; apply add_states; tauto]).
      + apply incl_appl, incl_appl, incl_refl.
      + apply incl_appl, incl_appr, incl_refl.
    - specialize (IH H). destruct (sjoin sreads es s0) as [[a l]|]; [|unfold both; destruct (sentry sreads x s0) as [[? ?]|], (sentry sreads x start) as [[? ?]|]; exact I].
      unfold both. destruct (sentry sreads x s0) as [[b m]|]; [|exact I]. destruct (sentry sreads x start) as [[c n]|]; [|exact I].
      destruct (sentry sreads e s) as [[d k]|]; [|exact IH]. destruct IH as [I1 I2]. split; [apply incl_appr, I1|].
      intros t T. apply add_states. right. apply I2, T.
  Qed.
  Lemma join_start es s0 : match sjoin sreads es s0 with Some (a, l) => In s0 l | None => True end.
  Proof.
    induction es as [|x es IH]; [left; reflexivity|]. unfold sjoin. cbn [fold_right]. fold (sjoin sreads es s0).
    destruct (sjoin sreads es s0) as [[a l]|]; [|unfold both; destruct (sentry sreads x s0) as [[? ?]|], (sentry sreads x start) as [[? ?]|]; exact I].
    unfold both. destruct (sentry sreads x s0) as [[b m]|]; [|exact I]. destruct (sentry sreads x start) as [[c n]|]; [|exact I].
    apply add_states. tauto.
  Qed.
  Lemma join_sound es s0 : (forall e, In e es -> forall s q, mts kw recv fr (snd (snd e)) q -> covers (sreads (snd (snd e)) s) (read_all s q)) ->
    forall (d : kwdict), (forall k v, In (k, v) d -> exists e, In e es /\ fst e = k /\ mts kw recv fr (snd (snd e)) v) ->
    forall s, s = s0 \/ s = start -> d <> [] -> covers (sjoin sreads es s0) (read_all s (join_kwargs d)).
  Proof.
    intros T. induction d as [|[k v] d IH]; intros D s S NE; [congruence|].
    destruct (D k v (or_introl eq_refl)) as (e & E & <- & M). destruct (entry_sound e s v (T e E) M) as [E1 E2].
    pose proof (join_entry es e s0 s E S) as J. cbn [join_kwargs]. destruct d as [|kv d].
    - rewrite app_nil_r. destruct (sjoin sreads es s0) as [[a l]|]; [|exact I]. destruct (sentry sreads e s) as [[b m]|]; [|destruct J].
      destruct J as [J1 J2]. destruct E1 as [E1 E3]. split; [exact (incl_tran E1 J1)|exact (J2 _ E3)].
    - specialize (IH (fun k' v' H => D k' v' (or_intror H)) start (or_intror eq_refl) ltac:(discriminate)).
      destruct (sjoin sreads es s0) as [[a l]|]; [|exact I]. destruct (sentry sreads e s) as [[b m]|]; [|destruct J].
      replace (MkPiece [] (fst e ++ "=") :: v ++ MkPiece [] ", " :: join_kwargs (kv :: d))%list
        with ((MkPiece [] (fst e ++ "=") :: v ++ [MkPiece [] ", "]) ++ join_kwargs (kv :: d))%list
        by (cbn [app]; rewrite <- app_assoc; reflexivity).
      rewrite read_all_app. destruct (read_all s (MkPiece [] (fst e ++ "=") :: v ++ [MkPiece [] ", "])%list) as [c s1].
      destruct E2 as [E2 ->]. destruct (read_all start (join_kwargs (kv :: d))) as [c2 s2]. destruct IH as [I1 I2]. destruct J as [J1 J2].
      cbn [fst snd] in *. split; [|exact I2]. apply incl_app; [exact (incl_tran E2 J1)|exact I1].
  Qed.
  Lemma piece_sound p : sound p.
  Proof.
    induction p as [t|k| |k|f l F|es F] using apiece_induction; intros s q M; unfold sound.
    - change (q = [MkPiece [] t]) in M. subst q. rewrite read_all_one. unfold read_piece. cbn [sources content sread].
      destruct (made t); [exact I|]. split; [apply incl_refl|left; reflexivity].
    - destruct M as (v & _ & ->). rewrite read_all_one, read_piece_foreign by discriminate. split; [apply incl_refl|left; reflexivity].
    - destruct M as (v & _ & ->). rewrite read_all_one, read_piece_foreign by discriminate. split; [apply incl_refl|left; reflexivity].
    - destruct M as (n & X & ->). cbn [sread]. destruct (wordb k) eqn:W; [|exact I]. rewrite read_all_one. unfold read_piece. cbn [sources content].
      rewrite (drawn_made k n W X). split; [apply incl_refl|left; reflexivity].
    - cbn [sread]. destruct (existsb touched l) eqn:T; [|exact I].
      pose proof (touched_ok (AEdit f l) T q M) as O. apply mp_edit in M. destruct M as (r & _ & ->).
      unfold origins at 1 in O. cbn [flat_map sources] in O. rewrite app_nil_r in O.
      rewrite read_all_one, read_piece_foreign by exact O. split; [apply incl_refl|left; reflexivity].
    - rewrite sread_join. apply mp_join in M. destruct M as (d & (N & D & E) & ->). destruct d as [|kv d0] eqn:DD.
      + cbn [join_kwargs read_all]. pose proof (join_start es s) as J. destruct (sjoin sreads es s) as [[a l]|]; [|exact I].
        split; [intros x []|exact J].
      + rewrite <- DD in *. apply join_sound; [|intros k v K|left; reflexivity|rewrite DD; discriminate].
        * intros e X. rewrite Forall_forall in F. specialize (F e X). intros s' q' M'. apply texts_sound; assumption.
        * pose proof (D k (in_map fst _ _ K)) as KE. apply in_map_iff in KE. destruct KE as ((k' & g & l) & <- & KE). cbn [fst] in *.
          exists (k', (g, l)). split; [exact KE|]. split; [reflexivity|]. specialize (E _ KE). unfold entry_ok in E. cbn [fst snd] in E.
          assert (G : dget String.eqb k' d = Some v) by (apply (dget_in_nodup String.eqb String.eqb_spec); assumption).
          rewrite G in E. tauto.
  Qed.
  Lemma text_sound a q w : mts kw recv fr a q -> In w (own_words q) ->
    match sreads a start with Some (ws, l) => In w (ws ++ flat_map (fun s => named (word s)) l)%list | None => True end.
  Proof.
    intros M W. pose proof (texts_sound a (proj2 (Forall_forall _ _) (fun p _ => piece_sound p)) start q M) as C.
    unfold own_words in W. destruct (read_all start q) as [b s]. destruct (sreads a start) as [[ws l]|]; [|exact I].
    destruct C as [C1 C2]. cbn [fst snd] in *. apply in_or_app. apply in_app_or in W. destruct W as [W|W]; [left; apply C1, W|right].
    apply in_flat_map. exists s. tauto.
  Qed.
  Lemma top_lit a q s : mts kw recv fr a q -> In (ALit s) a -> In (MkPiece [] s) q.
  Proof.
    revert q. induction a as [|p a IH]; intros q M H; [destruct H|]. destruct M as (r1 & r2 & -> & A & B). destruct H as [H|H].
    - subst p. change (r1 = [MkPiece [] s]) in A. subst r1. left. reflexivity.
    - apply in_or_app. right. apply IH; assumption.
  Qed.
End Sound.
Lemma made_numbered k c : wordb k = true -> made (numbered k c) = true.
Proof.
  intros W. unfold made, numbered. change (k ++ "_" ++ nat_to_str c) with (k ++ String "_" (nat_to_str c)).
  rewrite ImportFacts3.rsplit1_last by apply digits_no_us, nat_to_str_digits. rewrite W. exact (nat_to_str_digits c).
Qed.

Definition words_ok (ok : string -> bool) (a : atext) : bool :=
  match sreads a start with Some (ws, l) => forallb ok (ws ++ flat_map (fun s => named (word s)) l)%list | None => false end.
Lemma rows_names : all_rows (fun r g => forallb (converted (fun _ a u => words_ok (word_ok r u a) a)) (row_paths r g)) = true.
Proof. vm_compute. reflexivity. Qed.
Lemma rows_brought : all_rows (fun r g => forallb (converted (fun _ a _ => words_ok (brought_ok r) a)) (row_paths r g)) = true.
Proof. vm_compute. reflexivity. Qed.

Lemma words_ok_in kw recv (fr : string -> string -> Prop) ok a q w : (forall k n, wordb k = true -> fr k n -> made n = true) ->
  words_ok ok a = true -> mts kw recv fr a q -> In w (own_words q) -> ok w = true.
Proof.
  intros DM O M W. pose proof (text_sound kw recv fr DM a q w M W) as T. unfold words_ok in O.
  destruct (sreads a start) as [[ws l]|]; [|discriminate]. rewrite forallb_forall in O. exact (O w T).
Qed.
Theorem names_accounted r g recv args kwargs i q u w :
  In r api_mapping -> generator r = Some g -> regular r recv args kwargs ->
  paddle_nodes r g recv args kwargs i = Ret (Converted q u) -> In w (own_words q) ->
  accounted r q u w \/ In (r_name r, w) nowhere.
Proof.
  intros I G (C & D & U & A) E W.
  pose proof (row_result r g recv args kwargs i I G C D U A) as X. rewrite E in X.
  destruct X as (kw & fr & h & a & st & _ & _ & P & _ & M & DR).
  pose proof (all_rows_in _ _ _ rows_names I G) as F. cbv beta in F. rewrite forallb_forall in F.
  specialize (F _ P). unfold converted in F. cbn [fst snd] in F.
  assert (K : word_ok r u a w = true).
  { apply (words_ok_in kw recv fr (word_ok r u a) a q w); try assumption. intros k n Wk X. destruct (DR k n X) as (c & _ & ->). apply made_numbered, Wk. }
  unfold word_ok in K. unfold accounted.
  destruct (mem_str w fixed_words) eqn:K1.
  { left. left. apply mem_str_In in K1. unfold fixed_words in K1. rewrite !in_app_iff in K1. exact K1. }
  match type of K with (if ?b then _ else _) = _ => destruct b eqn:K2 end.
  { left. right. left. unfold its_package. destruct (dget _ _ _) as [x|]; [|discriminate]. apply String.eqb_eq in K2. subst. reflexivity. }
  match type of K with (if ?b then _ else _) = _ => destruct b eqn:K3 end.
  { left. right. right. right. destruct u; [|discriminate]. split; [reflexivity|]. apply definesb_ok, K3. }
  destruct (top_intro w a) eqn:K4.
  { left. right. right. left. apply some_exists in K4. destruct K4 as (p & Ip & K4). destruct p as [s| | | | |]; try discriminate.
    exists (MkPiece [] s). split; [exact (top_lit kw recv fr a q s M Ip)|]. split; [reflexivity|]. apply introb_ok, K4. }
  right. apply pair_mem_ok, K.
Qed.
Theorem names_not_brought r g recv args kwargs i q u w :
  In r api_mapping -> generator r = Some g -> regular r recv args kwargs ->
  paddle_nodes r g recv args kwargs i = Ret (Converted q u) -> In w (own_words q) ->
  helper_defines r w -> exported w = false -> In (r_name r, w) not_brought.
Proof.
  intros I G (C & D & U & A) E W HD X.
  pose proof (row_result r g recv args kwargs i I G C D U A) as Y. rewrite E in Y.
  destruct Y as (kw & fr & h & a & st & _ & _ & P & _ & M & DR).
  pose proof (all_rows_in _ _ _ rows_brought I G) as F. cbv beta in F. rewrite forallb_forall in F.
  specialize (F _ P). unfold converted in F. cbn [fst snd] in F.
  assert (K : brought_ok r w = true).
  { apply (words_ok_in kw recv fr (brought_ok r) a q w); try assumption. intros k n Wk Z. destruct (DR k n Z) as (c & _ & ->). apply made_numbered, Wk. }
  unfold brought_ok in K. rewrite X in K. apply definesb_ok in HD. rewrite HD in K. apply pair_mem_ok, K.
Qed.

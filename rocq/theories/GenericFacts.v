(** Lemmas for C107 and C108. *)
From Coq Require Import Lia.
From Verif Require Import PyStr PyStrFacts PyDict PyDictFacts UtilsFile Args ArgsSpec ArgsFacts TablesData Generate GenerateData GenerateRows
  GenericSpec GenericBridge PropertiesArgs.

(** ** The receiver *)
Lemma special_sign c : special c = sign c || Ascii.eqb c "\".
Proof. destruct c as [[] [] [] [] [] [] [] []]; reflexivity. Qed.
Lemma through_garbled s : through_re s = garbled s.
Proof.
  unfold through_re.
  assert (H : forall n s, (String.length s <= n)%nat -> re_unescape (re_template (re_escape s)) = garbled s).
  { induction n as [|n IH]; intros [|c r] L; try reflexivity; cbn [String.length] in L; [lia|].
    cbn [re_escape]. rewrite special_sign. cbn [garbled]. destruct (Ascii.eqb_spec c "\") as [->|NB].
    - rewrite Bool.orb_true_r. destruct r as [|d r]; [reflexivity|]. cbn [String.length] in L. cbn [re_escape]. rewrite special_sign.
      destruct (sign d) eqn:S; cbn [orb].
      + assert (ND : Ascii.eqb d "\" = false) by (destruct (Ascii.eqb_spec d "\") as [->|]; [discriminate|reflexivity]).
        cbn. rewrite ND. cbn. rewrite ND. rewrite IH by lia. reflexivity.
      + destruct (Ascii.eqb_spec d "\") as [->|ND].
        * cbn. rewrite IH by lia. reflexivity.
        * cbn. assert (E : Ascii.eqb d "\" = false) by (destruct (Ascii.eqb_spec d "\"); [contradiction|reflexivity]). rewrite E. cbn.
          destruct (Ascii.eqb_spec d nl) as [->|]; [discriminate|]. rewrite IH by lia. reflexivity.
    - assert (E : Ascii.eqb c "\" = false) by (destruct (Ascii.eqb_spec c "\"); [contradiction|reflexivity]). rewrite Bool.orb_false_r.
      destruct (sign c) eqn:S.
      + cbn. rewrite E. cbn. destruct (Ascii.eqb_spec c nl) as [->|NN]; [cbn|]; rewrite IH by lia; reflexivity.
      + cbn. rewrite E. cbn. rewrite E. destruct (Ascii.eqb_spec c nl) as [->|NN]; [discriminate|]. rewrite IH by lia. reflexivity. }
  apply (H (String.length s)). lia.
Qed.
Lemma garbled_plain v : plain_text v -> garbled v = v.
Proof.
  unfold plain_text. induction v as [|c v IH]; [reflexivity|]. cbn [mem_char garbled]. intros [B N].
  destruct (Ascii.eqb_spec c "\") as [->|NB]; [discriminate|]. destruct (Ascii.eqb_spec c nl) as [->|NN]; [discriminate|].
  f_equal. apply IH. split; [destruct (Ascii.eqb "\" c)|destruct (Ascii.eqb nl c)]; auto; discriminate.
Qed.

(** Names in the tables start with a class or do not mention one. *)
Definition rest_of (c a : string) : string := substring (String.length c) (String.length a - String.length c) a.
Definition cut_once (a : string) : bool :=
  match find (fun c => prefix c a) class_names, segments 0 "" a with
  | Some c, [Some b; None; Some d] => String.eqb b "" && String.eqb a (c ++ d) && negb (String.eqb d "")
  | None, [Some b] => String.eqb b a
  | _, _ => false
  end.
Definition name_ok (r : row) : bool := match paddle_api (r_entry r) with Some a => cut_once a | None => true end.
Lemma names_ok : forallb name_ok (api_mapping ++ attribute_mapping) = true.
Proof. vm_compute. reflexivity. Qed.

Lemma app_empty_r (a b : string) : a ++ b = "" -> b = "".
Proof. destruct a; [auto|discriminate]. Qed.
Lemma callee_exact a c v : cut_once a = true -> paddle_api (row_of c) = Some a -> receiver c = Some v ->
  called_on a (Some (garbled v)) (api_text c).
Proof.
  intros K P R. unfold api_text, initial_api. rewrite P, R. unfold cut_once in K.
  destruct (find (fun c => prefix c a) class_names) as [k|] eqn:F.
  - apply find_some in F. destruct F as [I F].
    destruct (segments 0 "" a) as [|[b|] [|[|] [|[d|] [|]]]] eqn:S; try discriminate.
    apply andb_prop in K as [K D]. apply andb_prop in K as [B A]. apply String.eqb_eq in B, A. apply Bool.negb_true_iff in D. subst b.
    assert (NE : a <> "") by (intros ->; destruct k; [destruct I as [E|I]; [discriminate|repeat (destruct I as [E|I]; [discriminate|]); destruct I]|discriminate A]).
    rewrite (proj2 (String.eqb_neq a "") NE).
    assert (Q : render (flat_map (fun x => match x with Some s => lit s | None => receiver_piece (through_re v) end) [Some ""; None; Some d]) = garbled v ++ d).
    { cbn [flat_map app]. unfold lit, receiver_piece. cbn [app render content]. rewrite through_garbled, append_nil_r. reflexivity. }
    rewrite Q. destruct (String.eqb_spec (garbled v ++ d) "") as [E|_].
    + apply app_empty_r in E. subst d. discriminate.
    + apply (on_receiver a k d (garbled v)); [exact I|exact A].
  - destruct (segments 0 "" a) as [|[b|] [|]] eqn:S; try discriminate. apply String.eqb_eq in K. subst b.
    assert (N : called_on a (Some (garbled v)) a).
    { apply on_no_class. intros k rest I E. pose proof (find_none _ _ F k I) as G. cbn beta in G. rewrite E, prefix_app in G. discriminate. }
    destruct (String.eqb_spec a "") as [->|NE]; [exact N|].
    cbn [flat_map app]. rewrite render_lit || idtac. change (lit a ++ [])%list with (lit a). rewrite render_lit.
    rewrite (proj2 (String.eqb_neq a "") NE). exact N.
Qed.
Lemma row_callee r s v a : In r (api_mapping ++ attribute_mapping)%list -> paddle_api (r_entry r) = Some a ->
  called_on a (Some (garbled v)) (api_text (context_of r s (Some v))).
Proof.
  intros I P. pose proof (proj1 (forallb_forall _ _) names_ok r I) as K. unfold name_ok in K. rewrite P in K.
  apply callee_exact; [exact K|exact P|reflexivity].
Qed.

(** ** New names do not clash *)
Definition drops (e : entry) (k : key) : bool := match new_names e generic_unused k with [] => true | _ => false end.
Definition touches (e : entry) (k : key) : list key := (new_names e generic_unused k ++ (if drops e k then [k] else []))%list.
Fixpoint nodupb (l : list key) : bool := match l with [] => true | x :: r => negb (existsb (key_eqb x) r) && nodupb r end.
Lemma nodupb_ok l : nodupb l = true -> NoDup l.
Proof.
  induction l as [|x l IH]; [constructor|]. cbn [nodupb]. intros H. apply andb_prop in H as [N H]. constructor; [|apply IH, H].
  intros I. apply Bool.negb_true_iff in N. rewrite (proj2 (existsb_exists _ _)) in N; [discriminate|]. exists x. split; [exact I|].
  destruct (key_eqb_spec x x); congruence.
Qed.
Definition names_of (e : entry) : list key := map Some (nodup string_dec (args_list e ++ overload_args_list e)%list).
Definition but (k : string) (l : list key) : list key := filter (fun x => negb (key_eqb x (Some k))) l.
Definition clash_free (two : bool) (e : entry) : bool :=
  (if two then nodupb (flat_map (touches e) (but "sections" (names_of e))) && nodupb (flat_map (touches e) (but "indices" (names_of e)))
   else nodupb (flat_map (touches e) (names_of e))) && nodupb (map (fun d => Some (fst d)) (paddle_default_kwargs e)) &&
  forallb (fun k => mem_str k (args_list e)) (position_args e).
Definition is_generic (r : row) : bool := match r_matcher r with Some m => String.eqb m "GenericMatcher" | None => false end.
Definition generic_ok (r : row) : bool :=
  negb (is_generic r) || r_abstract r ||
  (clash_free (mem_str (r_name r) two_for_one) (r_entry r) && match paddle_api (r_entry r) with Some _ => true | None => false end).
Lemma generic_rows : forallb generic_ok api_mapping = true.
Proof. vm_compute. reflexivity. Qed.

Lemma flat_map_nodup {A B} (f : A -> list B) l :
  (forall x, In x l -> NoDup (f x)) -> (forall x y z, In x l -> In y l -> In z (f x) -> In z (f y) -> x = y) -> NoDup l -> NoDup (flat_map f l).
Proof.
  induction l as [|x l IH]; intros F D N; [constructor|]. cbn [flat_map]. inversion N as [|? ? N1 N2]; subst.
  assert (R : NoDup (flat_map f l)) by (apply IH; [intros; apply F; right; assumption|intros a b z Ia Ib; apply D; right; assumption|exact N2]).
  assert (X : NoDup (f x)) by (apply F; left; reflexivity).
  assert (J : forall z, In z (f x) -> ~ In z (flat_map f l)).
  { intros z I K. apply in_flat_map in K as (y & Y & K). assert (x = y) by (apply (D x y z); [left; reflexivity|right; exact Y|exact I|exact K]). subst y. contradiction. }
  clear -R X J. induction (f x) as [|z m IHm]; [exact R|]. cbn [app]. inversion X as [|? ? X1 X2]; subst. constructor.
  - intros I. apply in_app_or in I as [I|I]; [contradiction|]. apply (J z); [left; reflexivity|exact I].
  - apply IHm; [exact X2|]. intros y Y. apply J. right. exact Y.
Qed.
Lemma nodup_app_disjoint {A} (a b : list A) z : NoDup (a ++ b) -> In z a -> In z b -> False.
Proof.
  induction a as [|x a IH]; intros N I K; [destruct I|]. cbn [app] in N. inversion N as [|? ? N1 N2]; subst.
  destruct I as [<-|I]; [apply N1, in_or_app; right; exact K|exact (IH N2 I K)].
Qed.
Lemma nodup_app_split {A} (a b : list A) : NoDup (a ++ b) -> NoDup a /\ NoDup b.
Proof.
  induction a as [|x a IH]; intros N; [split; [constructor|exact N]|]. cbn [app] in N. inversion N as [|? ? N1 N2]; subst.
  destruct (IH N2) as [P Q]. split; [constructor; [intros I; apply N1, in_or_app; left; exact I|exact P]|exact Q].
Qed.
Lemma flat_map_nodup_inv {A B} (f : A -> list B) l : NoDup (flat_map f l) ->
  (forall x, In x l -> NoDup (f x)) /\ (forall x y z, In x l -> In y l -> In z (f x) -> In z (f y) -> x = y).
Proof.
  induction l as [|x l IH]; intros N; [split; [intros ? []|intros ? ? ? []]|]. cbn [flat_map] in N. destruct (nodup_app_split _ _ N) as [N1 N2]. destruct (IH N2) as [F D]. split.
  - intros y [<-|Y]; [exact N1|apply F, Y].
  - intros a b z [<-|Ia] [<-|Ib] Za Zb; [reflexivity| | |exact (D a b z Ia Ib Za Zb)]; exfalso; eapply (nodup_app_disjoint _ _ z N); try eassumption;
      apply in_flat_map; eauto.
Qed.
Lemma touched_nodup e ks names : NoDup (flat_map (touches e) names) -> NoDup ks -> incl ks names ->
  NoDup (flat_map (new_names e generic_unused) ks ++ filter (drops e) ks)%list.
Proof.
  intros N K I. destruct (flat_map_nodup_inv _ _ N) as [F D].
  assert (NN : NoDup (flat_map (new_names e generic_unused) ks)).
  { apply flat_map_nodup; [|intros x y z X Y Zx Zy; apply (D x y z); [apply I, X|apply I, Y| |]; apply in_or_app; left; assumption|exact K].
    intros x X. exact (proj1 (nodup_app_split _ _ (F x (I x X)))). }
  assert (ND : NoDup (filter (drops e) ks)) by (apply NoDup_filter, K).
  assert (J : forall z, In z (flat_map (new_names e generic_unused) ks) -> In z (filter (drops e) ks) -> False).
  { intros z Z1 Z2. apply in_flat_map in Z1 as (x & X & Z1). apply filter_In in Z2 as [Z2 Z3].
    assert (x = z).
    { apply (D x z z); [apply I, X|apply I, Z2|apply in_or_app; left; exact Z1|apply in_or_app; right; rewrite Z3; left; reflexivity]. }
    subst x. unfold drops in Z3. destruct (new_names e generic_unused z); [destruct Z1|discriminate]. }
  clear -NN ND J. induction (flat_map (new_names e generic_unused) ks) as [|x l IH]; [exact ND|]. cbn [app]. inversion NN as [|? ? N1 N2]; subst. constructor.
  - intros I. apply in_app_or in I as [I|I]; [contradiction|]. apply (J x); [left; reflexivity|exact I].
  - apply IH; [exact N2|]. intros z Z. apply J. right. exact Z.
Qed.
Lemma bound_names e args kwargs : forallb (fun k => mem_str k (args_list e)) (position_args e) = true -> fits e args kwargs ->
  incl (map fst (bindings (position_args e) args kwargs)) (names_of e).
Proof.
  intros P F k I. unfold bindings in I. rewrite map_app, map_map in I. cbn [fst] in I. unfold names_of. apply in_app_or in I as [I|I].
  - apply in_map_iff in I as ([x w] & <- & I). apply in_combine_l in I. apply in_map_iff in I as (y & <- & I). cbn [fst]. apply in_map.
    apply nodup_In, in_or_app. left. apply mem_str_In. exact (proj1 (forallb_forall _ _) P y I).
  - apply in_map_iff in I as (n & <- & I). destruct (fits_keywords _ _ _ F n I) as (x & -> & X & _). apply in_map, nodup_In, X.
Qed.

Lemma generic_rows_exact r recv args kwargs i :
  In r api_mapping -> r_matcher r = Some "GenericMatcher" -> r_abstract r = false ->
  fits (r_entry r) args kwargs -> (In (r_name r) two_for_one -> one_of_two (r_entry r) args kwargs) ->
  exists api f q, paddle_api (r_entry r) = Some api /\ called_on api (option_map garbled recv) f /\
    paddle_nodes r (true, g_GenericMatcher) recv args kwargs i = Ret (Converted q false) /\
    render q = generic_text (r_entry r) f (snd (unique_name i "out")) (final_arguments (r_entry r) args kwargs).
Proof.
  intros I M AB F X. pose proof (proj1 (forallb_forall _ _) generic_rows r I) as G. unfold generic_ok, is_generic in G. rewrite M, AB in G. cbn [String.eqb Ascii.eqb Bool.eqb negb orb] in G.
  apply andb_prop in G as [G A].
  destruct (paddle_api (r_entry r)) as [api|] eqn:P; [|discriminate]. clear A. unfold clash_free in G.
  apply andb_prop in G as [G G3]. apply andb_prop in G as [G1 G2]. apply nodupb_ok in G2.
  set (e := r_entry r) in *.
  assert (HH : forall n, In n kwargs -> ~ harmless e n).
  { intros n Hn [(k & K & U) _]. destruct (fits_keywords _ _ _ F n Hn) as (k' & K' & _ & U'). congruence. }
  destruct (proj2 (C20_accepted_exactly e args kwargs HH)) as (t & kept & PA).
  { split; [exact (fits_unstarred _ _ _ F)|]. split; [exact (fits_keywords _ _ _ F)|]. split; [exact (fits_number _ _ _ F)|exact (fits_positions _ _ _ F)]. }
  destruct (C20_binding_faithful _ _ _ _ _ PA) as (W & L & B & _).
  assert (KE : kept = kwargs).
  { clear -W HH. induction W as [|x l sub W IH|x l sub D W IH]; [reflexivity| |].
    - f_equal. apply IH. intros n Hn. apply HH. right. exact Hn.
    - exfalso. apply (HH x); [left; reflexivity|exact D]. }
  subst kept. specialize (B (fits_once _ _ _ F)).
  pose proof (bound_names e args kwargs G3 F) as BN.
  assert (NN : ~ In None (dkeys t)).
  { rewrite B. intros K. apply BN in K. unfold names_of in K. apply in_map_iff in K as (z & Z & _). discriminate. }
  set (c := context_of r true recv). assert (AS : asserts c = false) by (unfold asserts, c; cbn; fold e; rewrite P; reflexivity).
  destruct (generic_generates c t i NN AS) as (q & Q1 & Q2). exists api, (api_text c), q. split; [reflexivity|]. split; [|split].
  - destruct recv as [v|]; cbn [option_map]; [apply row_callee; [apply in_or_app; left; exact I|exact P]|].
    unfold api_text, c. cbn. fold e. rewrite P. apply on_function.
  - unfold paddle_nodes. cbn [fst snd]. fold e. rewrite PA. exact Q1.
  - rewrite Q2. unfold final_arguments. change (row_of c) with e. rewrite B.
    apply C54_generic_exact.
    + assert (TN : NoDup (flat_map (new_names e generic_unused) (map fst (bindings (position_args e) args kwargs)) ++
                         filter (drops e) (map fst (bindings (position_args e) args kwargs)))%list).
      { destruct (mem_str (r_name r) two_for_one) eqn:T.
        - apply mem_str_In in T. specialize (X T). apply andb_prop in G1 as [Ga Gb]. apply nodupb_ok in Ga, Gb.
          destruct X as [X|X]; [eapply (touched_nodup e _ _ Gb)|eapply (touched_nodup e _ _ Ga)]; try exact (fits_once _ _ _ F);
            intros z Z; apply filter_In; (split; [apply BN, Z|]); apply Bool.negb_true_iff;
            match goal with |- key_eqb z ?y = false => destruct (key_eqb_spec z y) as [->|]; [contradiction|reflexivity] end.
        - apply nodupb_ok in G1. exact (touched_nodup e _ _ G1 (fits_once _ _ _ F) BN). }
      set (l := bindings (position_args e) args kwargs) in *. clearbody l.
      replace (flat_map (fun kv => new_names e generic_unused (fst kv)) l) with (flat_map (new_names e generic_unused) (map fst l))
        by (clear; induction l as [|x l IH]; [reflexivity|]; cbn [map flat_map]; rewrite IH; reflexivity).
      replace (map fst (filter (fun kv => match new_names e generic_unused (fst kv) with [] => true | _ => false end) l)) with (filter (drops e) (map fst l));
        [exact TN|]. clear. induction l as [|x l IH]; [reflexivity|]. cbn [map filter]. unfold drops at 1.
      destruct (new_names e generic_unused (fst x)); [cbn [map]; f_equal|]; exact IH.
    + clear -G2. induction (paddle_default_kwargs e) as [|d l IH]; [constructor|]. cbn [map] in *. inversion G2 as [|? ? N1 N2]; subst. constructor; [|apply IH, N2].
      intros K. apply N1. apply in_map_iff in K as (y & Y & K). apply in_map_iff. exists y. rewrite Y. auto.
Qed.

(** What the code generated for a row of the table computes. *)
From Coq Require Import QArith.
From Verif Require Import PyStr PyDict PyDictFacts PyStrFacts UtilsFile RegistryFacts Args ArgsSpec TablesData
  Generate GenerateData GenerateSym GenerateRel GenerateRows GenerateSpec GenerateCheck GenerateCalls GenerateFacts Names
  GenerateMarks Grammar GrammarCheck GrammarSound GenerateExact GrammarRows
  MeaningSpec MeaningCheck MeaningSound MeaningValue.
Close Scope Q_scope.
Open Scope string_scope.
Opaque api_mapping generators.

Definition impossible (r : row) (h : assume) : bool :=
  existsb (fun kb : string * bool => if snd kb then mishandled r (fst kb) else false) (known h).
Definition understood (r : row) (h : assume) (a : atext) : option sexp :=
  match reading (not_given r h) (listedb tight r) a with
  | Some e => if settled e && forallb (fun k => negb (mem_str k (unsupport_args (r_entry r)))) (uses e) then Some e else None
  | None => None
  end.
Definition readable (r : row) (g : bool * block) : bool :=
  forallb (converted (fun h a _ => if impossible r h then true else match understood r h a with Some _ => true | None => false end))
    (row_paths r g).

Definition given {T} (a : string -> option T) (k : string) : bool := match a k with Some _ => true | None => false end.
Section Row.
  Variables (W : algebra) (rho : string -> V W) (operand expression : string -> Prop).
  Variables (r : row) (g : bool * block) (recv : option string) (args : list expr) (kwargs : list kwnode).
  Notation a := (argument_values W rho r args kwargs). Notation x := (receiver_value W rho recv).
  Notation text_of := (argument r args kwargs).
  (** What is known of the call on a path. *)
  Definition matches (h : assume) : Prop :=
    (forall k b, In (k, b) (known h) -> ~ In k (unsupport_args (r_entry r)) -> given a k = b) /\
    (forall k t b, fact_is h k t b = true -> ~ In k (unsupport_args (r_entry r)) ->
       forall v, text_of k = Some v -> run_test t v = b).
  Definition located (l : list (spot * V W)) : list (option string * V W) :=
    map (fun sv => (match fst sv with AtArg k => text_of k | AtRecv => recv | Elsewhere => None end, snd sv)) l.
End Row.

(** Arguments that are the place of a store. *)
Lemma splace_uses_both :
  (forall e, (forall k, splace e = AtArg k -> In k (uses e)) /\
     match e with EMember b _ => forall k, splace b = AtArg k -> In k (uses b) | _ => True end) /\
  (forall l k, match l with APos e _ => splace e | _ => Elsewhere end = AtArg k -> In k (uses_args l)) /\
  (forall es : sents, True).
Proof.
  apply sexp_induction; try (intros; exact I); try (intros; split; [discriminate|exact I]); try discriminate.
  - intros k. split; [|exact I]. intros j E. injection E as ->. left. reflexivity.
  - intros e [IH _] w. split; [discriminate|exact IH].
  - intros f [_ IH] l IH'. split; [|exact I]. intros k E. cbn [splace] in E. cbn [uses]. apply in_app_iff. destruct (spath f) as [n|].
    + destruct (ends_with_underscore n); [|discriminate]. right. apply IH', E.
    + destruct f as [| | | | | | | |b w| | |]; try discriminate. destruct (ends_with_underscore w); [|discriminate]. left. cbn [uses]. apply IH, E.
  - intros e [IH _] l _ k E. cbn [uses_args]. apply in_app_iff. left. apply IH, E.
Qed.
Lemma soutput_uses l o : soutput l = Some o -> forall k, In k (uses o) -> In k (uses_args l).
Proof.
  revert o. induction l as [|e l IH|k e l IH|es]; intros o E j I; try discriminate.
  - cbn. apply in_app_iff. right. exact (IH _ E _ I).
  - cbn in E |- *. apply in_app_iff. destruct (String.eqb k "output"); [injection E as ->; left; exact I|right; exact (IH _ E _ I)].
Qed.
Lemma sstores_uses W a x :
  (forall e s v k, In (s, v) (sstores W a x e) -> s = AtArg k -> In k (uses e)) /\
  (forall l s v k, In (s, v) (sstores_args W a x l) -> s = AtArg k -> In k (uses_args l)) /\
  (forall es : sents, True).
Proof.
  apply sexp_induction; try (intros; exact I); try (intros; contradiction).
  - intros e IH. exact IH.
  - intros e IH. exact IH.
  - intros o e IH f IH' s v k J E. cbn in J |- *. apply in_app_iff in J. apply in_app_iff. destruct J as [J|J]; [left; eapply IH|right; eapply IH']; eassumption.
  - intros e IH w. exact IH.
  - intros e IH f IH' s v k J E. cbn in J |- *. apply in_app_iff in J. apply in_app_iff. destruct J as [J|J]; [left; eapply IH|right; eapply IH']; eassumption.
  - intros l IH. exact IH.
  - intros f IH l IH' s v k J E. change (In k (uses f ++ uses_args l)). rewrite sstores_call in J. apply in_app_iff. apply in_app_iff in J. destruct J as [J|J]; [left; exact (IH _ _ _ J E)|].
    apply in_app_iff in J. destruct J as [J|J]; [right; exact (IH' _ _ _ J E)|].
    pose proof splace_uses_both as (SE & SA & _). destruct (spath f) as [n|].
    + destruct (ends_with_underscore n).
      * destruct J as [J|[]]. injection J as <- _. right. apply SA, E.
      * destruct (String.eqb n "paddle.assign"); [|destruct J]. destruct (soutput l) as [o|] eqn:O; [|destruct J].
        destruct J as [J|[]]. injection J as <- _. right. apply (soutput_uses _ _ O). apply SE, E.
    + destruct f as [| | | | | | | |b w| | |]; try contradiction. destruct (ends_with_underscore w); [|contradiction].
      destruct J as [J|[]]. injection J as <- _. left. cbn [uses]. apply SE, E.
  - intros e IH l IH' s v k J E. cbn in J |- *. apply in_app_iff in J. apply in_app_iff. destruct J as [J|J]; [left; eapply IH|right; eapply IH']; eassumption.
  - intros j e IH l IH' s v k J E. cbn in J |- *. apply in_app_iff in J. apply in_app_iff. destruct J as [J|J]; [left; eapply IH|right; eapply IH']; eassumption.
Qed.

Theorem row_meaning W rho operand expression r g recv args kwargs i q u :
  In r api_mapping -> generator r = Some g -> regular r recv args kwargs ->
  well_written operand expression r recv args kwargs -> readable r g = true ->
  paddle_nodes r g recv args kwargs i = Ret (Converted q u) ->
  exists h a s e p,
    In (h, ADone (AConverted a u) s) (row_paths r g) /\ impossible r h = false /\ understood r h a = Some e /\
    matches W rho r args kwargs h /\
    reads_code operand expression (render q) p /\
    value W rho p = svalue W (argument_values W rho r args kwargs) (receiver_value W rho recv) e /\
    stores W rho p = located W r recv args kwargs (sstores W (argument_values W rho r args kwargs) (receiver_value W rho recv) e) /\
    forall f l, skeywords_to f e = Some l -> exists ks, keywords_to f p = Some ks /\
      forall k d, receives W rho k d ks =
        match skeys W (argument_values W rho r args kwargs) (receiver_value W rho recv) l k with Some v => Some v | None => d end.
Proof.
  intros I G (C & D & U & A) [WW RR] F E.
  pose proof (row_result r g recv args kwargs i I G C D U A) as X. rewrite E in X.
  destruct X as (kw & fr & h & a & st & SUP & ALL & P & S & M & DR).
  unfold readable in F. rewrite forallb_forall in F.
  specialize (F _ P). unfold converted in F. cbn [fst snd] in F.
  assert (N : forall k, dmem String.eqb k kw = true -> mishandled r k = false /\ wordb k = true).
  { intros k K. unfold dmem in K. destruct (dget String.eqb k kw) as [v|] eqn:V; [|discriminate].
    destruct (WW k v (ALL k v V)) as (V1 & _ & _ & _ & N1 & N2). rewrite <- listedb_iff in N1, N2. unfold mishandled.
    destruct (listedb stripped r k); [destruct N1; reflexivity|]. destruct (listedb mistreated r k); [destruct N2; reflexivity|].
    split; [reflexivity|apply V1]. }
  assert (L : forall k, ~ In k (unsupport_args (r_entry r)) -> dget String.eqb k kw = argument r args kwargs k).
  { intros k K. destruct (argument r args kwargs k) as [v|] eqn:B; [exact (SUP k v B K)|].
    destruct (dget String.eqb k kw) as [v|] eqn:V; [|reflexivity]. exfalso. apply ALL in V. unfold argument in B.
    destruct (proj2 (last_binding_in (Some k) (bindings (position_args (r_entry r)) args kwargs))) as [w Y]; [|congruence].
    apply in_map_iff. exists (Some k, v). split; [reflexivity|exact V]. }
  destruct (impossible r h) eqn:X.
  - exfalso. apply existsb_exists in X. destruct X as ([k b] & K & X). cbn [fst snd] in X. destruct b; [|discriminate].
    pose proof (sat_known _ _ _ _ S _ _ K) as Y. destruct (N k Y) as [Z _]. congruence.
  - destruct (understood r h a) as [e|] eqn:UN; [|discriminate]. unfold understood in UN.
    destruct (reading (not_given r h) (listedb tight r) a) as [e'|] eqn:RD; [|discriminate].
    destruct (settled e' && forallb (fun k => negb (mem_str k (unsupport_args (r_entry r)))) (uses e')) eqn:OK; [|discriminate].
    injection UN as ->. apply Bool.andb_true_iff in OK. destruct OK as [OK1 OK2]. rewrite forallb_forall in OK2.
    assert (US : forall k, In k (uses e) -> ~ In k (unsupport_args (r_entry r))).
    { intros k J J'. apply OK2 in J. apply mem_str_In in J'. rewrite J' in J. discriminate. }
    destruct (reading_ok kw recv fr operand expression (not_given r h) (listedb tight r)) with (a := a) (e := e) (q := q)
      as (p & R & IP); try assumption.
    + intros [k|] Y; [|discriminate]. unfold not_given in Y. destruct (off h (Some k)) eqn:O; [exact (off_ok h kw recv fr S _ O)|].
      cbn [on]. destruct (dmem String.eqb k kw) eqn:K; [|reflexivity]. destruct (N k K) as [N1 N2]. rewrite N1, N2 in Y. discriminate.
    + intros k v V. destruct (WW k v (ALL k v V)) as (_ & T & X1 & X2 & _). split; [exact T|].
      destruct (listedb tight r k) eqn:LL; [|exact X1]. apply X2, listedb_iff, LL.
    + assert (AG : agree W kw rho (argument_values W rho r args kwargs) (uses e)).
      { intros k J. unfold argument_values. rewrite (L k (US k J)). reflexivity. }
      assert (RV : forall v, recv = Some v -> receiver_value W rho recv = rho v) by (intros v ->; reflexivity).
      exists h, a, st, e, p. split; [exact P|]. split; [exact X|]. split.
      { unfold understood. rewrite RD, OK1. cbn [andb]. replace (forallb _ (uses e)) with true; [reflexivity|].
        symmetry. apply forallb_forall. exact OK2. }
      split.
      { split.
        - intros k b K UK. unfold given, argument_values. rewrite <- (L k UK). pose proof (sat_known _ _ _ _ S _ _ K) as Y. unfold dmem in Y.
          destruct (dget String.eqb k kw); exact Y.
        - intros k t b K UK v V. apply (fact_ok _ _ _ _ S _ _ _ _ K). rewrite (L k UK). exact V. }
      split; [exact R|]. split; [apply (value_agrees W kw recv rho _ _ RV _ _ IP AG)|].
      split; [|intros f l K; apply (keywords_agree W kw recv rho _ _ RV _ _ _ _ IP AG K)].
      rewrite (stores_agree W kw recv rho _ _ RV _ _ IP AG OK1). unfold concrete, located. apply map_ext_in.
      intros [s v] J. cbn [fst snd]. f_equal. destruct s as [k| |]; cbn; try reflexivity. apply L, US.
      exact (proj1 (sstores_uses W _ _) e _ _ _ J eq_refl).
Qed.

(** The readings of a row, with the assumptions of the path. *)
Definition row_readings (r : row) : option (list (assume * sexp)) :=
  match generator r with
  | Some g =>
      if readable r g then
        Some (flat_map (fun p =>
          match snd p with
          | ADone (AConverted a _) _ =>
              if impossible r (fst p) then [] else match understood r (fst p) a with Some e => [(fst p, e)] | None => [] end
          | _ => []
          end) (row_paths r g))
      else None
  | None => None
  end.
Lemma in_readings r g h e a u s :
  In (h, ADone (AConverted a u) s) (row_paths r g) -> impossible r h = false -> understood r h a = Some e ->
  In (h, e) (flat_map (fun p =>
          match snd p with
          | ADone (AConverted a _) _ =>
              if impossible r (fst p) then [] else match understood r (fst p) a with Some e => [(fst p, e)] | None => [] end
          | _ => []
          end) (row_paths r g)).
Proof.
  intros P IM UN. apply in_flat_map. exists (h, ADone (AConverted a u) s). split; [exact P|]. cbn [fst snd]. rewrite IM, UN. left. reflexivity.
Qed.

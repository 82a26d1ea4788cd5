(** From symbolic results to statements about all calls of a row. *)
From Coq Require Import Lia.
From Verif Require Import PyStr PyDict PyDictFacts PyStrFacts UtilsFile Args ArgsSpec ArgsFacts TablesData
  Generate GenerateData GenerateSym GenerateRel GenerateSound GenerateRows GenerateSpec.

Definition is_methodb (n : string) : bool := existsb (fun c => prefix c n) method_classes.
Definition config_of (r : row) (s : bool) : config :=
  MkConfig (r_entry r) (r_name r) (is_methodb (r_name r))
    (match dget String.eqb (r_name r) convert_tensors with Some l => l | None => [] end) s.
Definition row_paths (r : row) (g : bool * block) : list (assume * ares agenerated) :=
  paths (config_of r (fst g)) (required r) (snd g).

(** Induction on symbolic texts. *)
Lemma apiece_induction (P : apiece -> Prop) :
  (forall s, P (ALit s)) -> (forall k, P (AArg k)) -> P ARecv -> (forall k, P (AFresh k)) ->
  (forall f l, Forall P l -> P (AEdit f l)) ->
  (forall es : adict, Forall (fun en => Forall P (snd (snd en))) es -> P (AJoin es)) ->
  forall p, P p.
Proof.
  intros H1 H2 H3 H4 H5 H6. fix IH 1. intros [s|k| |k|f l|es]; [apply H1|apply H2|apply H3|apply H4| |].
  - apply H5. induction l as [|x l IHl]; constructor; [apply IH|exact IHl].
  - apply H6. induction es as [|[k [g l]] es IHe]; constructor; [|exact IHe].
    cbn. induction l as [|x l IHl]; constructor; [apply IH|exact IHl].
Qed.

(** Does the text of [k] certainly appear, and how often at most does that of [s]? *)
Section Count.
  Variable h : assume.
  Definition off (g : option string) : bool :=
    match g with
    | None => false
    | Some j => match dget String.eqb j (known h) with Some false => true | _ => false end
    end.
  Definition sure_on (k : string) (g : option string) : bool :=
    match g with
    | None => true
    | Some j => String.eqb j k || match dget String.eqb j (known h) with Some true => true | _ => false end
    end.
  Fixpoint surely1 (k : string) (p : apiece) : bool :=
    match p with
    | AArg j => String.eqb j k
    | AJoin es =>
        (fix go es := match es with
                      | [] => false
                      | (_, (g, l)) :: es' =>
                          (sure_on k g && (fix gol l := match l with [] => false | x :: l' => surely1 k x || gol l' end) l)
                          || go es'
                      end) es
    | _ => false
    end.
  Definition surely (k : string) (l : atext) : bool := existsb (surely1 k) l.
  Fixpoint most1 (s : source) (p : apiece) : nat :=
    match p with
    | AArg j => match s with Argument k => if String.eqb j k && negb (off (Some j)) then 1 else 0 | Receiver => 0 end
    | ARecv => match s with Argument _ => 0 | Receiver => 1 end
    | AEdit _ l => (fix gol l := match l with [] => 0 | x :: l' => most1 s x + gol l' end) l
    | AJoin es =>
        (fix go es := match es with
                      | [] => 0
                      | (_, (g, l)) :: es' =>
                          (if off g then 0 else (fix gol l := match l with [] => 0 | x :: l' => most1 s x + gol l' end) l)
                          + go es'
                      end) es
    | _ => 0
    end.
  Fixpoint most (s : source) (l : atext) : nat :=
    match l with [] => 0 | x :: l' => most1 s x + most s l' end.

  Lemma surely_inner k l :
    (fix gol l := match l with [] => false | x :: l' => surely1 k x || gol l' end) l = surely k l.
  Proof. induction l as [|x l IH]; [reflexivity|]. rewrite IH. reflexivity. Qed.
  Lemma surely_join k es : surely1 k (AJoin es) = existsb (fun en => sure_on k (fst (snd en)) && surely k (snd (snd en))) es.
  Proof.
    cbn [surely1]. induction es as [|[x [g l]] es IH]; [reflexivity|]. cbn [existsb fst snd].
    rewrite surely_inner, IH. reflexivity.
  Qed.
  Lemma most_inner s l :
    (fix gol l := match l with [] => 0 | x :: l' => most1 s x + gol l' end) l = most s l.
  Proof. induction l as [|x l IH]; [reflexivity|]. rewrite IH. reflexivity. Qed.
  Lemma most_edit s f l : most1 s (AEdit f l) = most s l.
  Proof. apply most_inner. Qed.
  Lemma most_join s es :
    most1 s (AJoin es) = fold_right (fun en n => (if off (fst (snd en)) then 0 else most s (snd (snd en))) + n) 0 es.
  Proof.
    cbn [most1]. induction es as [|[x [g l]] es IH]; [reflexivity|]. cbn [fold_right fst snd].
    rewrite most_inner, IH. reflexivity.
  Qed.

  Variable kw : dict string string.
  Variable recv : option string.
  Variable fr : string -> string -> Prop.
  Hypothesis S : sat kw recv fr h.

  Lemma off_ok g : off g = true -> on kw g = false.
  Proof.
    unfold off, on. destruct g as [j|]; [|discriminate].
    destruct (dget String.eqb j (known h)) as [[|]|] eqn:G; try discriminate. intros _.
    apply (dget_some_in _ String.eqb_spec) in G. exact (sat_known _ _ _ _ S _ _ G).
  Qed.
  Lemma sure_on_ok k g : dmem String.eqb k kw = true -> sure_on k g = true -> on kw g = true.
  Proof.
    unfold sure_on, on. destruct g as [j|]; [|reflexivity]. intros K H. apply Bool.orb_true_iff in H.
    destruct H as [H|H]; [apply String.eqb_eq in H; congruence|].
    destruct (dget String.eqb j (known h)) as [[|]|] eqn:G; try discriminate.
    apply (dget_some_in _ String.eqb_spec) in G. exact (sat_known _ _ _ _ S _ _ G).
  Qed.

  Lemma copies_app s q q' : copies s (q ++ q')%list = (copies s q + copies s q')%nat.
  Proof. unfold copies. rewrite origins_app. apply count_occ_app. Qed.
  Lemma copies_lit s x : copies s [MkPiece [] x] = 0%nat.
  Proof. reflexivity. Qed.
  Lemma copies_cons s p q : copies s (p :: q) = (copies s [p] + copies s q)%nat.
  Proof. apply (copies_app s [p] q). Qed.
  Lemma copies_join s (d : kwdict) :
    copies s (join_kwargs d) = fold_right (fun kv n => copies s (snd kv) + n)%nat 0%nat d.
  Proof.
    induction d as [|[k v] d IH]; [reflexivity|]. cbn [join_kwargs fold_right snd].
    rewrite copies_cons, copies_lit, copies_app. rewrite <- IH. destruct d as [|kv d]; [reflexivity|].
    rewrite copies_cons, copies_lit. reflexivity.
  Qed.
  Lemma fold_del s k v (d : kwdict) : dget String.eqb k d = Some v -> NoDup (dkeys d) ->
    fold_right (fun kv n => copies s (snd kv) + n)%nat 0%nat d =
    (copies s v + fold_right (fun kv n => copies s (snd kv) + n) 0 (ddel String.eqb k d))%nat.
  Proof.
    induction d as [|[x w] d IH]; [discriminate|]. cbn [dget ddel dkeys map fst]. intros G N. inversion_clear N as [|? ? N1 N2].
    destruct (String.eqb_spec k x) as [->|X].
    - injection G as ->. reflexivity.
    - cbn [fold_right snd]. specialize (IH G N2). unfold kwdict, rope in *. rewrite IH. lia.
  Qed.

  Lemma copies_join_le s es :
    forall d : kwdict, NoDup (dkeys d) -> (forall k, In k (dkeys d) -> In k (map fst es)) ->
    (forall en v, In en es -> dget String.eqb (fst en) d = Some v ->
       on kw (fst (snd en)) = true /\ (copies s v <= most s (snd (snd en)))%nat) ->
    (fold_right (fun kv n => copies s (snd kv) + n) 0 d <=
     fold_right (fun en n => (if off (fst (snd en)) then 0 else most s (snd (snd en))) + n) 0 es)%nat.
  Proof.
    induction es as [|[k [g l]] es IH]; intros d N K E.
    - destruct d as [|[x v] d]; [apply le_n|]. destruct (K x); left; reflexivity.
    - cbn [fold_right fst snd]. destruct (dget String.eqb k d) as [v|] eqn:G.
      + destruct (E (k, (g, l)) v (or_introl eq_refl) G) as [O C]. cbn [fst snd] in *.
        destruct (off g) eqn:F; [apply off_ok in F; congruence|].
        rewrite (fold_del s k v d G N).
        assert ((fold_right (fun kv n => copies s (snd kv) + n) 0 (ddel String.eqb k d) <=
          fold_right (fun en n => (if off (fst (snd en)) then 0 else most s (snd (snd en))) + n) 0 es)%nat); [|lia].
        apply IH.
        * apply (ddel_nodup _ String.eqb_spec). exact N.
        * intros x I. assert (I' := ddel_keys_sub _ String.eqb_spec _ _ _ I).
          destruct (K x I') as [Q|Q]; [|exact Q]. cbn in Q. subst x.
          pose proof (ddel_get_same _ String.eqb_spec k d N) as Z. apply none_iff in Z. contradiction.
        * intros en w I W. destruct (String.eqb_spec (fst en) k) as [Q|X].
          -- rewrite Q in W. rewrite (ddel_get_same _ String.eqb_spec) in W by exact N. discriminate.
          -- rewrite (ddel_get_other _ String.eqb_spec) in W by exact X. apply E; [right; exact I|exact W].
      + etransitivity; [apply (IH d N)|lia].
        * intros x I. destruct (K x I) as [Q|I']; [|exact I']. cbn in Q. subst x.
          apply none_iff in G. contradiction.
        * intros en w I. apply E. right. exact I.
  Qed.

  Lemma most_texts s l : Forall (fun p => forall q, mp kw recv fr p q -> (copies s q <= most1 s p)%nat) l ->
    forall q, mts kw recv fr l q -> (copies s q <= most s l)%nat.
  Proof.
    induction 1 as [|p l H _ IH]; intros q M.
    - cbn in M. subst q. apply le_n.
    - destruct M as (q1 & q2 & -> & A & B). rewrite copies_app. cbn [most].
      specialize (H _ A). specialize (IH _ B). lia.
  Qed.
  Lemma most1_ok s p : forall q, mp kw recv fr p q -> (copies s q <= most1 s p)%nat.
  Proof.
    induction p as [t|k| |k|f l F|es F] using apiece_induction; intros q M.
    - change (q = [MkPiece [] t]) in M. subst q. apply le_n.
    - destruct M as (v & V & ->). unfold copies. cbn [origins flat_map sources app count_occ most1].
      destruct s as [j|].
      + destruct (off (Some k)) eqn:O.
        { apply off_ok in O. cbn in O. unfold dmem in O. rewrite V in O. discriminate. }
        rewrite Bool.andb_true_r. destruct (source_eq_dec (Argument k) (Argument j)) as [E|E];
        destruct (String.eqb_spec k j); try congruence; apply le_n.
      + destruct (source_eq_dec (Argument k) Receiver); [discriminate|apply le_n].
    - destruct M as (v & _ & ->). unfold copies. cbn [origins flat_map sources app count_occ most1].
      destruct s as [j|];
        match goal with |- context [source_eq_dec ?a ?b] => destruct (source_eq_dec a b) end; try congruence; lia.
    - destruct M as (i & _ & ->). apply le_n.
    - apply mp_edit in M. destruct M as (r & M & ->). rewrite most_edit.
      replace (copies s [MkPiece (origins r) (edit_text f (render r))]) with (copies s r).
      + exact (most_texts s l F r M).
      + unfold copies, origins. cbn [flat_map sources]. rewrite app_nil_r. reflexivity.
    - apply mp_join in M. destruct M as (d & (N & K & E) & ->). rewrite copies_join, most_join.
      apply copies_join_le; [exact N|exact K|]. intros en v I G. specialize (E en I). unfold entry_ok in E.
      rewrite G in E. destruct E as [O M]. split; [exact O|].
      rewrite Forall_forall in F. exact (most_texts s _ (F en I) v M).
  Qed.
  Lemma most_ok s l q : mts kw recv fr l q -> (copies s q <= most s l)%nat.
  Proof. apply most_texts. apply Forall_forall. intros p _. apply most1_ok. Qed.

  Lemma inside_l v c d : inside v c -> inside v (c ++ d).
  Proof. intros (x & y & ->). exists x, (y ++ d). rewrite !app_assoc_s. reflexivity. Qed.
  Lemma inside_r v c d : inside v d -> inside v (c ++ d).
  Proof. intros (x & y & ->). exists (c ++ x), y. rewrite !app_assoc_s. reflexivity. Qed.
  Lemma inside_join v k (w : rope) (d : kwdict) : dget String.eqb k d = Some w -> inside v (render w) ->
    inside v (render (join_kwargs d)).
  Proof.
    intros G I. induction d as [|[x u] d IH]; [discriminate|]. cbn [join_kwargs dget] in *.
    cbn [render content]. apply inside_r. rewrite render_app. destruct (String.eqb k x).
    - injection G as ->. apply inside_l, I.
    - apply inside_r. destruct d as [|kv d]; [discriminate|]. cbn [render content]. apply inside_r. apply IH, G.
  Qed.
  Lemma surely_texts k v l : Forall (fun p => surely1 k p = true -> forall q, mp kw recv fr p q -> inside v (render q)) l ->
    surely k l = true -> forall q, mts kw recv fr l q -> inside v (render q).
  Proof.
    unfold surely. induction 1 as [|p l H _ IH]; cbn [existsb]; [discriminate|]. intros E q M.
    destruct M as (q1 & q2 & -> & A & B). rewrite render_app. apply Bool.orb_true_iff in E. destruct E as [E|E].
    - apply inside_l. exact (H E _ A).
    - apply inside_r. exact (IH E _ B).
  Qed.
  Lemma surely1_ok k v : dget String.eqb k kw = Some v ->
    forall p, surely1 k p = true -> forall q, mp kw recv fr p q -> inside v (render q).
  Proof.
    intros G p. induction p as [t|j| |j|f l F|es F] using apiece_induction; try discriminate; intros E q M.
    - cbn in E. apply String.eqb_eq in E. subst j. destruct M as (w & W & ->). rewrite G in W. injection W as <-.
      exists "", "". reflexivity.
    - apply mp_join in M. destruct M as (d & (N & K & D) & ->). rewrite surely_join in E.
      apply existsb_exists in E. destruct E as (en & I & E). apply Bool.andb_true_iff in E. destruct E as [E1 E2].
      specialize (D en I). unfold entry_ok in D.
      assert (O : on kw (fst (snd en)) = true).
      { apply (sure_on_ok k); [|exact E1]. unfold dmem. rewrite G. reflexivity. }
      destruct (dget String.eqb (fst en) d) as [w|] eqn:W; [|congruence]. destruct D as [_ M].
      apply (inside_join v _ w d W). rewrite Forall_forall in F. exact (surely_texts k v _ (F en I) E2 w M).
  Qed.
  Lemma surely_ok k v l q : dget String.eqb k kw = Some v -> surely k l = true -> mts kw recv fr l q -> inside v (render q).
  Proof. intros G E. apply (surely_texts k v l); [|exact E]. apply Forall_forall. intros p _. apply surely1_ok, G. Qed.
End Count.

(** Following a marked text through code generation. *)
From Coq Require Import Lia.
From Verif Require Import PyStr PyDict PyDictFacts PyStrFacts UtilsFile RegistryFacts Args ArgsSpec ArgsFacts TablesData
  Generate GenerateData GenerateSym GenerateRel GenerateSound GenerateRows GenerateSpec GenerateCheck GenerateCalls GenerateFacts.
Opaque api_mapping generators.
Local Open Scope nat_scope.

Lemma marks_app a b : marks (a ++ b)%string = marks a + marks b.
Proof. induction a as [|c a IH]; [reflexivity|]. cbn [append marks]. rewrite IH. lia. Qed.
Lemma marks_lstrip p s : marks (lstrip_by p s) <= marks s.
Proof. induction s as [|c s IH]; [apply le_n|]. cbn [lstrip_by]. destruct (p c); [cbn [marks]; lia|apply le_n]. Qed.
Lemma marks_rstrip p s : marks (rstrip_by p s) <= marks s.
Proof.
  induction s as [|c s IH]; [apply le_n|]. cbn [rstrip_by]. destruct (rstrip_by p s) as [|d t].
  - destruct (p c); cbn [marks] in *; lia.
  - cbn [marks] in *. lia.
Qed.
Lemma marks_substring s : forall n m, marks (substring n m s) <= marks s.
Proof.
  induction s as [|c s IH]; intros [|n] [|m]; cbn [substring marks]; try lia.
  - specialize (IH 0 m). lia.
  - specialize (IH n 0). lia.
  - specialize (IH n (S m)). lia.
Qed.
Lemma marks_rsplit c s : forall a b, rsplit1 c s = Some (a, b) -> marks a + marks b <= marks s.
Proof.
  induction s as [|d s IH]; intros a b H; [discriminate|]. cbn [rsplit1] in H.
  destruct (rsplit1 c s) as [[x y]|].
  - injection H as <- <-. specialize (IH x y eq_refl). cbn [marks]. lia.
  - destruct (Ascii.eqb d c); [|discriminate]. injection H as <- <-. cbn [marks]. lia.
Qed.
Lemma marks_replace old new s : marks new = 0 -> forall k, marks (replace_aux old new k s) <= marks s.
Proof.
  intros N. induction s as [|c s IH]; intros k; [apply le_n|]. cbn [replace_aux]. destruct k as [|k].
  - destruct (prefix old (String c s)).
    + rewrite marks_app, N. cbn [marks]. specialize (IH (pred (String.length old))). lia.
    + cbn [marks]. specialize (IH 0). lia.
  - cbn [marks]. specialize (IH k). lia.
Qed.
Lemma marks_escape s : marks (re_escape s) = marks s.
Proof.
  induction s as [|c s IH]; [reflexivity|]. cbn [re_escape]. destruct (special c); cbn [marks]; rewrite IH; [|reflexivity].
  change (Ascii.eqb "\"%char mark) with false. reflexivity.
Qed.
Lemma marks_template n : forall s, String.length s <= n -> marks (re_template s) <= marks s.
Proof.
  induction n as [|n IH]; intros s L; [destruct s; [apply le_n|cbn in L; lia]|].
  destruct s as [|c s]; [apply le_n|]. cbn in L. cbn [re_template]. destruct (Ascii.eqb_spec c "\") as [->|_].
  - destruct s as [|d s]; [apply le_n|]. cbn in L. assert (H := IH s ltac:(lia)).
    destruct (Ascii.eqb d "\"); cbn [marks]; lia.
  - cbn [marks]. specialize (IH s ltac:(lia)). lia.
Qed.
Lemma marks_unescape n : forall s, String.length s <= n -> marks (re_unescape s) <= marks s.
Proof.
  induction n as [|n IH]; intros s L; [destruct s; [apply le_n|cbn in L; lia]|].
  destruct s as [|c s]; [apply le_n|]. cbn in L. cbn [re_unescape]. destruct (Ascii.eqb_spec c "\") as [->|_].
  - destruct s as [|d s]; [apply le_n|].
    assert (H := IH (String d s) ltac:(lia)). assert (H' := IH s ltac:(cbn in L; lia)).
    destruct (Ascii.eqb d nl); cbn [marks] in *; lia.
  - cbn [marks]. specialize (IH s ltac:(lia)). lia.
Qed.
Lemma marks_digits s : all_chars is_digit s = true -> marks s = 0.
Proof.
  induction s as [|c s IH]; [reflexivity|]. cbn [all_chars marks]. intros H. apply Bool.andb_true_iff in H.
  destruct H as [A B]. rewrite (IH B). destruct (Ascii.eqb_spec c mark) as [->|]; [discriminate|reflexivity].
Qed.
Definition clean (s : string) : bool := Nat.eqb (marks s) 0.
Definition clean_edit (f : edit) : bool :=
  match f with Replace _ b => clean b | FromLast c => clean c | _ => true end.
Lemma marks_edit f s : clean_edit f = true -> marks (edit_text f s) <= marks s.
Proof.
  unfold clean_edit, clean. destruct f; cbn [edit_text]; intros H; try apply Nat.eqb_eq in H.
  - unfold strip_by. etransitivity; [apply marks_rstrip|apply marks_lstrip].
  - apply marks_rstrip.
  - unfold py_strip, strip_by. etransitivity; [apply marks_rstrip|apply marks_lstrip].
  - apply marks_replace, H.
  - destruct (rsplit1 _ s) as [[a b]|] eqn:R; [apply marks_rsplit in R; lia|apply le_n].
  - destruct (rsplit1 _ s) as [[a b]|] eqn:R; [apply marks_rsplit in R; lia|apply marks_substring].
  - destruct (rsplit1 _ s) as [[a b]|] eqn:R; [rewrite marks_app; apply marks_rsplit in R; lia|apply marks_substring].
  - unfold through_re. rewrite <- (marks_escape s).
    etransitivity; [eapply marks_unescape, le_n|apply marks_template with (n := String.length (re_escape s)), le_n].
Qed.
Lemma marks_unique i k : marks k = 0 -> marks (snd (unique_name i k)) = 0.
Proof.
  intros H. unfold unique_name. cbn [snd]. unfold join. cbn [String.concat]. rewrite !marks_app, H.
  rewrite (marks_digits _ (nat_to_str_digits _)). reflexivity.
Qed.

Fixpoint clean1 (p : apiece) : bool :=
  match p with
  | ALit s | AFresh s => clean s
  | AEdit f l => clean_edit f && (fix gol l := match l with [] => true | x :: l' => clean1 x && gol l' end) l
  | AJoin es =>
      (fix go es := match es with
                    | [] => true
                    | (k, (_, l)) :: es' =>
                        clean k && (fix gol l := match l with [] => true | x :: l' => clean1 x && gol l' end) l && go es'
                    end) es
  | _ => true
  end.
Definition clean_text (l : atext) : bool := forallb clean1 l.
Lemma clean_inner l : (fix gol l := match l with [] => true | x :: l' => clean1 x && gol l' end) l = clean_text l.
Proof. induction l as [|x l IH]; [reflexivity|]. rewrite IH. reflexivity. Qed.
Lemma clean_join es : clean1 (AJoin es) = forallb (fun en => clean (fst en) && clean_text (snd (snd en))) es.
Proof.
  cbn [clean1]. induction es as [|[k [g l]] es IH]; [reflexivity|]. cbn [forallb fst snd]. rewrite clean_inner, IH. reflexivity.
Qed.

Section Marks.
  Variables (h : assume) (kw : dict string string) (recv : option string) (fr : string -> string -> Prop) (s : source).
  Hypothesis S : sat kw recv fr h.
  Hypothesis FR : forall k n, fr k n -> exists i, n = snd (unique_name i k).
  Hypothesis K : forall k v, dget String.eqb k kw = Some v -> marks v <= if source_eq_dec s (Argument k) then 1 else 0.
  Hypothesis R : forall v, recv = Some v -> marks v <= if source_eq_dec s Receiver then 1 else 0.

  Lemma render_one p : render [p] = content p.
  Proof. cbn. apply app_nil_r_s. Qed.
  Lemma marks_texts l : Forall (fun p => clean1 p = true -> forall q, mp kw recv fr p q -> marks (render q) <= most1 h s p) l ->
    clean_text l = true -> forall q, mts kw recv fr l q -> marks (render q) <= most h s l.
  Proof.
    unfold clean_text. induction 1 as [|p l H _ IH]; intros C q M.
    - cbn in M. subst q. apply le_n.
    - destruct M as (q1 & q2 & -> & A & B). rewrite render_app, marks_app. cbn [most forallb] in *.
      apply Bool.andb_true_iff in C. destruct C as [C1 C2]. specialize (H C1 _ A). specialize (IH C2 _ B). lia.
  Qed.
  Lemma marks_join (d : kwdict) : (forall k, In k (dkeys d) -> marks k = 0) ->
    marks (render (join_kwargs d)) = fold_right (fun kv n => marks (render (snd kv)) + n) 0 d.
  Proof.
    induction d as [|[k v] d IH]; intros C; [reflexivity|]. cbn [join_kwargs fold_right snd].
    cbn [render content]. rewrite !marks_app, render_app, marks_app, (C k (or_introl eq_refl)).
    rewrite <- IH by (intros x I; apply C; right; exact I). destruct d as [|kv d]; [cbn; lia|].
    cbn [render content]. rewrite marks_app. change (marks "=") with 0. change (marks ", ") with 0. lia.
  Qed.
  Lemma fold_marks_del k v (d : kwdict) : dget String.eqb k d = Some v ->
    fold_right (fun kv n => marks (render (snd kv)) + n) 0 d =
    marks (render v) + fold_right (fun kv n => marks (render (snd kv)) + n) 0 (ddel String.eqb k d).
  Proof.
    induction d as [|[x w] d IH]; [discriminate|]. cbn [dget ddel]. intros G.
    destruct (String.eqb_spec k x) as [->|X].
    - injection G as ->. reflexivity.
    - cbn [fold_right snd]. specialize (IH G). unfold kwdict, rope in *. rewrite IH. lia.
  Qed.
  Lemma marks_join_le es :
    forall d : kwdict, NoDup (dkeys d) -> (forall k, In k (dkeys d) -> In k (map fst es)) ->
    (forall en v, In en es -> dget String.eqb (fst en) d = Some v ->
       on kw (fst (snd en)) = true /\ marks (render v) <= most h s (snd (snd en))) ->
    fold_right (fun kv n => marks (render (snd kv)) + n) 0 d <=
    fold_right (fun en n => (if off h (fst (snd en)) then 0 else most h s (snd (snd en))) + n) 0 es.
  Proof.
    induction es as [|[k [g l]] es IH]; intros d N D E.
    - destruct d as [|[x v] d]; [apply le_n|]. destruct (D x); left; reflexivity.
    - cbn [fold_right fst snd]. destruct (dget String.eqb k d) as [v|] eqn:G.
      + destruct (E (k, (g, l)) v (or_introl eq_refl) G) as [O C]. cbn [fst snd] in *.
        destruct (off h g) eqn:F; [apply (off_ok h kw recv fr S) in F; congruence|].
        rewrite (fold_marks_del k v d G).
        assert (fold_right (fun kv n => marks (render (snd kv)) + n) 0 (ddel String.eqb k d) <=
          fold_right (fun en n => (if off h (fst (snd en)) then 0 else most h s (snd (snd en))) + n) 0 es); [|lia].
        apply IH.
        * apply (ddel_nodup _ String.eqb_spec). exact N.
        * intros x I. assert (I' := ddel_keys_sub _ String.eqb_spec _ _ _ I).
          destruct (D x I') as [Q|Q]; [|exact Q]. cbn in Q. subst x.
          pose proof (ddel_get_same _ String.eqb_spec k d N) as Z. apply none_iff in Z. contradiction.
        * intros en w I W. destruct (String.eqb_spec (fst en) k) as [Q|X].
          -- rewrite Q in W. rewrite (ddel_get_same _ String.eqb_spec) in W by exact N. discriminate.
          -- rewrite (ddel_get_other _ String.eqb_spec) in W by exact X. apply E; [right; exact I|exact W].
      + etransitivity; [apply (IH d N)|lia].
        * intros x I. destruct (D x I) as [Q|I']; [|exact I']. cbn in Q. subst x.
          apply none_iff in G. contradiction.
        * intros en w I. apply E. right. exact I.
  Qed.
  Lemma marks1_ok p : clean1 p = true -> forall q, mp kw recv fr p q -> marks (render q) <= most1 h s p.
  Proof.
    induction p as [t|k| |k|f l F|es F] using apiece_induction; intros C q M.
    - change (q = [MkPiece [] t]) in M. subst q. rewrite render_one. cbn [content most1].
      cbn [clean1] in C. apply Nat.eqb_eq in C. lia.
    - destruct M as (v & V & ->). rewrite render_one. cbn [content most1]. pose proof (K k v V) as B.
      destruct (off h (Some k)) eqn:O.
      { apply (off_ok h kw recv fr S) in O. cbn in O. unfold dmem in O. rewrite V in O. discriminate. }
      cbn [negb]. destruct s as [j|]; [rewrite Bool.andb_true_r|].
      + destruct (source_eq_dec (Argument j) (Argument k)) as [E|E]; destruct (String.eqb_spec k j); try congruence; lia.
      + destruct (source_eq_dec Receiver (Argument k)); [discriminate|lia].
    - destruct M as (v & V & ->). rewrite render_one. cbn [content most1]. pose proof (R v V) as B. destruct s as [j|].
      + destruct (source_eq_dec (Argument j) Receiver); [discriminate|lia].
      + destruct (source_eq_dec Receiver Receiver); lia.
    - destruct M as (n & M & ->). destruct (FR _ _ M) as (i & ->). rewrite render_one. cbn [content]. cbn [clean1] in C. apply Nat.eqb_eq in C.
      rewrite (marks_unique i k C). lia.
    - apply mp_edit in M. destruct M as (r & M & ->). rewrite render_one. cbn [content]. rewrite most_edit.
      cbn [clean1] in C. apply Bool.andb_true_iff in C. destruct C as [C1 C2]. rewrite clean_inner in C2.
      etransitivity; [apply marks_edit, C1|]. exact (marks_texts l F C2 r M).
    - apply mp_join in M. destruct M as (d & (N & D & E) & ->). rewrite clean_join in C. rewrite forallb_forall in C.
      rewrite marks_join, most_join.
      + apply marks_join_le; [exact N|exact D|]. intros en v I G. specialize (E en I). unfold entry_ok in E.
        rewrite G in E. destruct E as [O M]. split; [exact O|].
        specialize (C en I). apply Bool.andb_true_iff in C. destruct C as [_ C].
        rewrite Forall_forall in F. exact (marks_texts _ (F en I) C v M).
      + intros k I. apply D in I. apply in_map_iff in I. destruct I as (en & <- & I). specialize (C en I).
        apply Bool.andb_true_iff in C. destruct C as [C _]. apply Nat.eqb_eq in C. exact C.
  Qed.
  Lemma marks_ok l q : clean_text l = true -> mts kw recv fr l q -> marks (render q) <= most h s l.
  Proof. intros C. apply marks_texts; [|exact C]. apply Forall_forall. intros p _. apply marks1_ok. Qed.
End Marks.

Lemma rows_clean : all_rows (fun r g => forallb (converted (fun _ a _ => clean_text a)) (row_paths r g)) = true.
Proof. vm_compute. reflexivity. Qed.

Lemma marked_once r g recv args kwargs i q u s :
  In r api_mapping -> generator r = Some g -> regular r recv args kwargs ->
  paddle_nodes r g recv args kwargs i = Ret (Converted q u) ->
  marked s (r_entry r) recv args kwargs ->
  match s with
  | Argument k => In k (parameters (r_entry r)) /\ ~ listed repeated r k
  | Receiver => ~ In (r_name r) receiver_repeated
  end -> marks (render q) <= 1.
Proof.
  intros I G (C & D & U & A) E [K R] X.
  pose proof (row_result r g recv args kwargs i I G C D U A) as H. rewrite E in H.
  destruct H as (kw & fr & h & a & st & SUP & ALL & P & S & M & DR).
  pose proof (all_rows_in _ _ _ rows_clean I G) as CL. cbv beta in CL. rewrite forallb_forall in CL.
  specialize (CL _ P). unfold converted in CL. cbn [fst snd] in CL.
  pose proof (all_rows_in _ _ _ rows_once I G) as F. cbv beta in F. rewrite forallb_forall in F.
  specialize (F _ P). unfold converted in F. cbn [fst snd] in F.
  apply Bool.andb_true_iff in F. destruct F as [F1 F2]. rewrite forallb_forall in F1.
  transitivity (most h s a); [apply (marks_ok h kw recv fr s S (fun k n X => Names.drawn_name _ _ _ _ (DR k n X)) (fun k v V => K k v (ALL k v V)) R a q CL M)|].
  destruct s as [k|].
  - destruct X as [X1 X2]. specialize (F1 k X1). apply Bool.orb_true_iff in F1. destruct F1 as [F|F].
    + apply Nat.leb_le in F. exact F.
    + apply listedb_iff in F. contradiction.
  - apply Bool.orb_true_iff in F2. destruct F2 as [F|F].
    + apply Nat.leb_le in F. exact F.
    + apply mem_str_In in F. contradiction.
Qed.

(** The names [get_unique_name] makes between two states of its counters. *)
From Coq Require Import Lia.
From Verif Require Import PyStr PyDict PyDictFacts PyStrFacts UtilsFile RegistryFacts.

(** The names made for [k] are [k]_0, [k]_1, ...; [number i k] of them have been made when
    the counters are [i]. *)
Definition numbered (k : string) (c : nat) : string := k ++ "_" ++ nat_to_str c.
Definition number (i : ids) (k : string) : nat := match dget String.eqb k i with Some n => n | None => 0 end.
(** [n] is a name made for [k] while the counters went from [i] to [j]. *)
Definition drawn (i j : ids) (k n : string) : Prop := exists c, number i k <= c < number j k /\ n = numbered k c.
(** No counter goes back. *)
Definition grown (i j : ids) : Prop := forall k, number i k <= number j k.

Lemma grown_refl i : grown i i.
Proof. intros k. apply le_n. Qed.
Lemma grown_trans i j l : grown i j -> grown j l -> grown i l.
Proof. intros A B k. specialize (A k). specialize (B k). lia. Qed.
Lemma number_made i k : number (fst (unique_name i k)) k = S (number i k).
Proof. unfold number, unique_name. cbn [fst]. rewrite (dget_set_same _ String.eqb_spec). reflexivity. Qed.
Lemma number_other i k x : x <> k -> number (fst (unique_name i k)) x = number i x.
Proof. intros N. unfold number, unique_name. cbn [fst]. rewrite (dget_set_other _ String.eqb_spec) by exact N. reflexivity. Qed.
Lemma name_made i k : snd (unique_name i k) = numbered k (number i k).
Proof. reflexivity. Qed.
Lemma grown_made i k : grown i (fst (unique_name i k)).
Proof.
  intros x. destruct (String.eqb_spec x k) as [->|N]; [rewrite number_made; lia|]. rewrite (number_other _ _ _ N). apply le_n.
Qed.
Lemma drawn_made lo i hi k : grown lo i -> grown (fst (unique_name i k)) hi -> drawn lo hi k (snd (unique_name i k)).
Proof.
  intros A B. exists (number i k). split; [|apply name_made]. specialize (A k). specialize (B k). rewrite number_made in B. lia.
Qed.
Lemma numbered_inj k c k' c' : numbered k c = numbered k' c' -> k = k' /\ c = c'.
Proof.
  unfold numbered. intros E. apply last_sep_inj in E as [-> E]; try apply digits_no_us, nat_to_str_digits.
  split; [reflexivity|]. apply nat_to_str_inj, E.
Qed.
(** Names made one after the other differ. *)
Lemma drawn_disjoint i j i' j' k k' n : grown j i' -> drawn i j k n -> drawn i' j' k' n -> False.
Proof.
  intros G (c & L & ->) (c' & L' & E). apply numbered_inj in E. destruct E as [<- <-]. specialize (G k). lia.
Qed.
Lemma drawn_grown i j i' j' k n : grown i i' -> grown j' j -> drawn i' j' k n -> drawn i j k n.
Proof. intros A B (c & L & ->). exists c. specialize (A k). specialize (B k). split; [lia|reflexivity]. Qed.
Lemma drawn_name i j k n : drawn i j k n -> exists i', n = snd (unique_name i' k).
Proof. intros (c & _ & ->). exists [(k, c)]. rewrite name_made. unfold number. cbn [dget]. rewrite String.eqb_refl. reflexivity. Qed.

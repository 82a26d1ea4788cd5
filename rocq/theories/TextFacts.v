(** Proofs about TextFile.v. *)
From Coq Require Import NArith ZArith List Lia Bool.
From Verif Require Import PyStr PyStrFacts Ast TextFile TextSpec.
Import ListNotations.
Open Scope N_scope.
Ltac Zify.zify_post_hook ::= Z.to_euclidean_division_equations.

Lemma byte_small a : N_of_ascii a < 256. Proof. apply N_ascii_bounded. Qed.
Lemma within_spec lo hi a : within lo hi a = true <-> lo <= N_of_ascii a /\ N_of_ascii a <= hi.
Proof. unfold within. rewrite andb_true_iff, !N.leb_le. tauto. Qed.
Lemma ascii_eq a n : N_of_ascii a = n -> ascii_of_N n = a.
Proof. intros <-. apply ascii_N_embedding. Qed.

(** What the reader accepts, one character after the other. *)
Lemma utf8_step n s : scalar n -> utf8 (encoding n ++ s) = utf8 s.
Proof.
  intros Sc. unfold encoding, scalar in *.
  destruct (N.ltb_spec n 128); [|destruct (N.ltb_spec n 2048); [|destruct (N.ltb_spec n 65536)]];
    cbn [bytes_of append]; cbn [utf8]; unfold within; rewrite ?N_ascii_embedding by lia.
  - rewrite (proj2 (N.leb_le 0 n)), (proj2 (N.leb_le n 127)) by lia. reflexivity.
  - rewrite (proj2 (N.leb_gt (192 + n / 64) 127)) by lia. rewrite andb_false_r.
    rewrite (proj2 (N.leb_le 194 (192 + n / 64))), (proj2 (N.leb_le (192 + n / 64) 223)) by lia.
    rewrite (proj2 (N.leb_le 128 (128 + n mod 64))), (proj2 (N.leb_le (128 + n mod 64) 191)) by lia. reflexivity.
  - rewrite (proj2 (N.leb_gt (224 + n / 4096) 127)), (proj2 (N.leb_gt (224 + n / 4096) 223)) by lia. rewrite !andb_false_r.
    rewrite (proj2 (N.leb_le 224 (224 + n / 4096))), (proj2 (N.leb_le (224 + n / 4096) 239)) by lia. cbn [andb].
    rewrite (proj2 (N.leb_le (if 224 + n / 4096 =? 224 then 160 else 128) (128 + (n / 64) mod 64)))
      by (destruct (N.eqb_spec (224 + n / 4096) 224); lia).
    rewrite (proj2 (N.leb_le (128 + (n / 64) mod 64) (if 224 + n / 4096 =? 237 then 159 else 191)))
      by (destruct (N.eqb_spec (224 + n / 4096) 237); lia).
    rewrite (proj2 (N.leb_le 128 (128 + n mod 64))), (proj2 (N.leb_le (128 + n mod 64) 191)) by lia. reflexivity.
  - rewrite (proj2 (N.leb_gt (240 + n / 262144) 127)), (proj2 (N.leb_gt (240 + n / 262144) 223)), (proj2 (N.leb_gt (240 + n / 262144) 239)) by lia.
    rewrite !andb_false_r.
    rewrite (proj2 (N.leb_le 240 (240 + n / 262144))), (proj2 (N.leb_le (240 + n / 262144) 244)) by lia. cbn [andb].
    rewrite (proj2 (N.leb_le (if 240 + n / 262144 =? 240 then 144 else 128) (128 + (n / 4096) mod 64)))
      by (destruct (N.eqb_spec (240 + n / 262144) 240); lia).
    rewrite (proj2 (N.leb_le (128 + (n / 4096) mod 64) (if 240 + n / 262144 =? 244 then 143 else 191)))
      by (destruct (N.eqb_spec (240 + n / 262144) 244); lia).
    rewrite (proj2 (N.leb_le 128 (128 + (n / 64) mod 64))), (proj2 (N.leb_le (128 + (n / 64) mod 64) 191)) by lia.
    rewrite (proj2 (N.leb_le 128 (128 + n mod 64))), (proj2 (N.leb_le (128 + n mod 64) 191)) by lia. reflexivity.
Qed.
Lemma utf8_encodings l : Forall scalar l -> utf8 (encodings l) = true.
Proof. induction 1 as [|n l H _ IH]; [reflexivity|]. cbn [encodings]. rewrite utf8_step; assumption. Qed.

Lemma encoded_cons n s : scalar n -> encoded s -> encoded (encoding n ++ s).
Proof. intros H (l & F & ->). exists (n :: l). split; [constructor; assumption|reflexivity]. Qed.
Lemma encoding_1 a : N_of_ascii a <= 127 -> String a "" = encoding (N_of_ascii a).
Proof. intros H. unfold encoding. rewrite (proj2 (N.ltb_lt _ 128)) by lia. cbn. rewrite ascii_N_embedding. reflexivity. Qed.
Lemma utf8_accepts n : forall s, (String.length s <= n)%nat -> utf8 s = true -> encoded s.
Proof.
  induction n as [|n IH]; intros s L U.
  - destruct s; [|cbn in L; lia]. exists []. split; constructor.
  - destruct s as [|a s]; [exists []; split; constructor|]. cbn [utf8] in U. cbn [String.length] in L.
    pose proof (byte_small a) as Ba.
    destruct (within 0 127 a) eqn:W.
    { apply within_spec in W. change (String a s) with (String a "" ++ s)%string. rewrite encoding_1 by lia.
      apply encoded_cons; [left; lia|]. apply IH; [lia|exact U]. }
    assert (Ha : 127 < N_of_ascii a) by (unfold within in W; apply andb_false_iff in W as [W|W]; apply N.leb_gt in W; lia). clear W.
    destruct s as [|b s]; [discriminate|]. cbn [String.length] in L.
    destruct (within 194 223 a) eqn:W.
    { apply within_spec in W. apply andb_true_iff in U as [B U]. apply within_spec in B.
      set (m := (N_of_ascii a - 192) * 64 + (N_of_ascii b - 128)).
      replace (String a (String b s)) with (encoding m ++ s)%string.
      - apply encoded_cons; [left; unfold m; lia|]. apply IH; [lia|exact U].
      - unfold encoding. rewrite (proj2 (N.ltb_ge m 128)), (proj2 (N.ltb_lt m 2048)) by (unfold m; lia). cbn [bytes_of append].
        rewrite (ascii_eq a), (ascii_eq b) by (unfold m; lia). reflexivity. }
    clear W. destruct s as [|c s]; [discriminate|]. cbn [String.length] in L.
    destruct (within 224 239 a) eqn:W.
    { apply within_spec in W. rewrite !andb_true_iff in U. destruct U as [[B C] U]. apply within_spec in B. apply within_spec in C.
      set (m := (N_of_ascii a - 224) * 4096 + (N_of_ascii b - 128) * 64 + (N_of_ascii c - 128)).
      assert (B' : 128 <= N_of_ascii b /\ N_of_ascii b <= 191 /\ (N_of_ascii a = 224 -> 160 <= N_of_ascii b) /\ (N_of_ascii a = 237 -> N_of_ascii b <= 159)).
      { destruct (N.eqb_spec (N_of_ascii a) 224), (N.eqb_spec (N_of_ascii a) 237); lia. } clear B.
      replace (String a (String b (String c s))) with (encoding m ++ s)%string.
      - apply encoded_cons; [unfold scalar, m; lia|]. apply IH; [lia|exact U].
      - unfold encoding. rewrite (proj2 (N.ltb_ge m 128)), (proj2 (N.ltb_ge m 2048)), (proj2 (N.ltb_lt m 65536)) by (unfold m; lia). cbn [bytes_of append].
        rewrite (ascii_eq a), (ascii_eq b), (ascii_eq c) by (unfold m; lia). reflexivity. }
    clear W. destruct s as [|d s]; [discriminate|]. cbn [String.length] in L.
    rewrite !andb_true_iff in U. destruct U as [[[[W B] C] D] U]. apply within_spec in W, B, C, D.
    set (m := (N_of_ascii a - 240) * 262144 + (N_of_ascii b - 128) * 4096 + (N_of_ascii c - 128) * 64 + (N_of_ascii d - 128)).
    assert (B' : 128 <= N_of_ascii b /\ N_of_ascii b <= 191 /\ (N_of_ascii a = 240 -> 144 <= N_of_ascii b) /\ (N_of_ascii a = 244 -> N_of_ascii b <= 143)).
    { destruct (N.eqb_spec (N_of_ascii a) 240), (N.eqb_spec (N_of_ascii a) 244); lia. } clear B.
    replace (String a (String b (String c (String d s)))) with (encoding m ++ s)%string.
    + apply encoded_cons; [unfold scalar, m; lia|]. apply IH; [lia|exact U].
    + unfold encoding. rewrite (proj2 (N.ltb_ge m 128)), (proj2 (N.ltb_ge m 2048)), (proj2 (N.ltb_ge m 65536)) by (unfold m; lia). cbn [bytes_of append].
      rewrite (ascii_eq a), (ascii_eq b), (ascii_eq c), (ascii_eq d) by (unfold m; lia). reflexivity.
Qed.
Lemma utf8_encoded s : utf8 s = true <-> encoded s.
Proof. split; [apply (utf8_accepts (String.length s)); lia|]. intros (l & F & ->). apply utf8_encodings, F. Qed.

(** Line ends. *)
Lemma newlines_lines n : forall s, (String.length s <= n)%nat -> lines_of s (newlines s).
Proof.
  induction n as [|n IH]; intros s L; (destruct s as [|a s]; [constructor|cbn [String.length] in L; try lia]).
  cbn [newlines]. destruct (Ascii.eqb_spec a cr) as [->|N].
  - destruct s as [|b s].
    + apply lines_return; [discriminate|constructor].
    + cbn [String.length] in L. destruct (Ascii.eqb_spec b lf) as [->|K].
      * apply lines_both. apply IH. lia.
      * apply lines_return; [intros r [= -> _]; apply K; reflexivity|]. apply IH. cbn [String.length]. lia.
  - apply lines_char; [exact N|]. apply IH. lia.
Qed.
Lemma lines_newlines s t : lines_of s t -> newlines s = t.
Proof.
  induction 1 as [|s t _ IH|s t N _ IH|a s t N _ IH]; cbn [newlines].
  - reflexivity.
  - cbn. rewrite IH. reflexivity.
  - cbn [Ascii.eqb Bool.eqb]. change (Ascii.eqb "013" cr) with true. cbn iota. destruct s as [|b s]; [cbn in IH; subst; reflexivity|].
    destruct (Ascii.eqb_spec b lf) as [->|_]; [destruct (N s); reflexivity|]. rewrite IH. reflexivity.
  - destruct (Ascii.eqb_spec a cr) as [->|_]; [destruct N; reflexivity|]. rewrite IH. reflexivity.
Qed.

Theorem read_text_spec s t : read_text s = Ok t <-> reads_text s t.
Proof.
  unfold read_text, reads_text. split.
  - destruct (utf8 s) eqn:U; [|discriminate]. intros [= <-]. split; [apply utf8_encoded, U|]. apply (newlines_lines (String.length s)). lia.
  - intros [E N]. apply utf8_encoded in E. rewrite E, (lines_newlines _ _ N). reflexivity.
Qed.
Theorem read_text_raises s : ~ encoded s -> read_text s = Raise "UnicodeDecodeError".
Proof. unfold read_text. destruct (utf8 s) eqn:U; [|reflexivity]. intros N. destruct N. apply utf8_encoded, U. Qed.
Lemma reads_text_once s t t' : reads_text s t -> reads_text s t' -> t = t'.
Proof. intros H H'. apply read_text_spec in H, H'. congruence. Qed.

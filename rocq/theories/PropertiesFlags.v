(** C137: flags given as expressions. *)
From Verif Require Import PyStr PyStrFacts PyDict PyDictFacts Ast Args ArgsFacts UtilsFile TablesData Generate GenerateData GenerateRows PropertiesGenerate FlagSpec FlagFacts.
Opaque api_mapping generators.

Lemma recurrent_rows n : In n ["torch.nn.LSTM"; "torch.nn.RNN"] ->
  exists s r, find (fun r => String.eqb (r_name r) n) api_mapping = Some r /\ generator r = Some (s, g_RNNMatcher).
Proof. intros [<-|[<-|[]]]; (eexists; eexists; split; [vm_compute; reflexivity|vm_compute; reflexivity]). Qed.
Lemma base_row : exists s r, find (fun r => String.eqb (r_name r) "torch.nn.RNNBase") api_mapping = Some r /\ generator r = Some (s, g_RNNBaseMatcher).
Proof. eexists; eexists; split; [vm_compute; reflexivity|vm_compute; reflexivity]. Qed.
Lemma stft_row : exists s r, find (fun r => String.eqb (r_name r) "torch.stft") api_mapping = Some r /\ generator r = Some (s, g_StftMatcher).
Proof. eexists; eexists; split; [vm_compute; reflexivity|vm_compute; reflexivity]. Qed.

(** A recurrent layer whose direction is decided by anything but the literal True is
    replaced by the code for the layer without that argument. *)
Theorem C137_direction_of_recurrent_layers :
  forall n recv args kwargs t v args' kwargs' i,
    In n ["torch.nn.LSTM"; "torch.nn.RNN"] ->
    reads_as n args kwargs t -> passes t "bidirectional" v -> v <> "(True)" ->
    reads_as n args' kwargs' (leaving_out "bidirectional" t) ->
    answer n recv args kwargs i = answer n recv args' kwargs' i.
Proof.
  intros n recv args kwargs t v args' kwargs' i I R P V R'. apply recurrent_rows in I. destruct I as (s & I).
  destruct (answer_reads n recv args kwargs t i _ _ I R) as (c & A). rewrite (A _ _ _ R), (A _ _ _ R').
  pose proof (reads_nodup _ _ _ _ R) as N. destruct (start_left_out "bidirectional" t ltac:(discriminate) N) as [L G].
  rewrite L in *. do 2 f_equal. eapply rnn_alike; [exact G|exact (start_get "bidirectional" v t N ltac:(discriminate) P)|]. rewrite render_one. exact V.
Qed.
Print Assumptions C137_direction_of_recurrent_layers.

(** For RNNBase it matters whether the text of the argument mentions True, nothing else. *)
Theorem C137_direction_of_the_base :
  forall recv args kwargs t v w args' kwargs' i,
    reads_as "torch.nn.RNNBase" args kwargs t -> passes t "bidirectional" v ->
    reads_as "torch.nn.RNNBase" args' kwargs' (giving "bidirectional" w t) ->
    (mentions v "True" <-> mentions w "True") ->
    answer "torch.nn.RNNBase" recv args kwargs i = answer "torch.nn.RNNBase" recv args' kwargs' i.
Proof.
  intros recv args kwargs t v w args' kwargs' i R P R' M. destruct base_row as (s & I).
  destruct (answer_reads _ recv args kwargs t i _ _ I R) as (c & A). rewrite (A _ _ _ R), (A _ _ _ R').
  pose proof (reads_nodup _ _ _ _ R) as N. pose proof (reads_nodup _ _ _ _ R') as N'. do 2 f_equal. apply base_alike.
  - right. rewrite !timed_out. rewrite <- (proj1 (start_left_out "bidirectional" t ltac:(discriminate) N)), <- (proj1 (start_left_out "bidirectional" _ ltac:(discriminate) N')).
    rewrite giving_out. reflexivity.
  - unfold base_direction. rewrite (start_get "bidirectional" v t N ltac:(discriminate) P).
    rewrite (start_get "bidirectional" w _ N' ltac:(discriminate) (giving_passes _ _ w _ P)), !render_one. unfold mentions in M.
    rewrite <- !contains_spec in M. destruct (contains "True" v), (contains "True" w); try reflexivity; destruct M as [M1 M2]; [specialize (M1 eq_refl)|specialize (M2 eq_refl)]; discriminate.
Qed.
Print Assumptions C137_direction_of_the_base.

Lemma ends_real s : endswith (s ++ ".as_real()") ".as_real()" = true.
Proof.
  induction s as [|c s IH]; [reflexivity|]. cbn [append endswith]. rewrite IH. apply Bool.orb_true_r.
Qed.
Lemma real_end s w : In w ["misidentify"; "unchange"; ""] -> s ++ ".as_real()" <> w.
Proof. intros I E. pose proof (ends_real s) as L. rewrite E in L. destruct I as [<-|[<-|[<-|[]]]]; discriminate. Qed.
Lemma render_app a b : render (a ++ b)%list = render a ++ render b.
Proof. induction a as [|p a IH]; [reflexivity|]. cbn [app render]. rewrite IH, app_assoc_s. reflexivity. Qed.
(** stft: a real result is asked for by the literal False alone. *)
Theorem C137_real_results_of_stft :
  forall recv args kwargs t v args' kwargs' i,
    reads_as "torch.stft" args kwargs t -> passes t "return_complex" v ->
    reads_as "torch.stft" args' kwargs' (leaving_out "return_complex" t) ->
    (v <> "(False)" -> answer "torch.stft" recv args kwargs i = answer "torch.stft" recv args' kwargs' i) /\
    (v = "(False)" -> forall q u, answer "torch.stft" recv args' kwargs' i = Some (Ret (Converted q u)) ->
       answer "torch.stft" recv args kwargs i = Some (Ret (Converted (q ++ lit ".as_real()")%list u))).
Proof.
  intros recv args kwargs t v args' kwargs' i R P R'. destruct stft_row as (s & I).
  destruct (answer_reads _ recv args kwargs t i _ _ I R) as (c & A). rewrite (A _ _ _ R), (A _ _ _ R').
  pose proof (reads_nodup _ _ _ _ R) as N. destruct (start_left_out "return_complex" t ltac:(discriminate) N) as [L G].
  rewrite !stft_runs, G, (start_get "return_complex" v t N ltac:(discriminate) P), render_one. rewrite (no_del _ _ G), L.
  destruct (by_generic c (ddel String.eqb "return_complex" (start t)) (initial_api c) i false) as [[[x|] h]|e].
  - split.
    + intros V. destruct (String.eqb_spec v "(False)"); [contradiction|]. destruct x; reflexivity.
    + intros -> q u. destruct x as [p| |b].
      * change (String.eqb "(False)" "(False)") with true. cbv iota. cbn [finish andthen].
        destruct (String.eqb (render p) "misidentify"); [discriminate|]. destruct (String.eqb (render p) "unchange"); [discriminate|].
        destruct (String.eqb (render p) ""); [discriminate|]. intros [= -> ->].
        rewrite render_app. change (render (lit ".as_real()")) with ".as_real()".
        destruct (String.eqb_spec (render q ++ ".as_real()") "misidentify") as [E|_]; [exfalso; revert E; apply real_end; cbn; auto|].
        destruct (String.eqb_spec (render q ++ ".as_real()") "unchange") as [E|_]; [exfalso; revert E; apply real_end; cbn; auto|].
        destruct (String.eqb_spec (render q ++ ".as_real()") "") as [E|_]; [exfalso; revert E; apply real_end; cbn; auto|]. reflexivity.
      * discriminate.
      * destruct b; discriminate.
  - split; [reflexivity|]. intros _ q u. discriminate.
  - split; [reflexivity|]. intros _ q u. discriminate.
Qed.
Print Assumptions C137_real_results_of_stft.

(** With the literal the layer runs in both directions; what batch_first says is negated
    whatever it is. *)
Definition flag_written (t : string) : string := text (MkExpr false false t).
Theorem C137_the_literals :
  forall a b f,
    rewrite "torch.nn.LSTM" None [a; b] [("batch_first", f); ("bidirectional", "(True)")] =
      Some (Ret ("paddle.nn.LSTM(input_size=" ++ flag_written a ++ ", hidden_size=" ++ flag_written b ++ ", time_major=not " ++ flag_written f ++ ", direction='bidirect')", false)) /\
    rewrite "torch.nn.RNN" None [a; b] [("batch_first", f); ("bidirectional", "(True)")] =
      Some (Ret ("paddle.nn.SimpleRNN(input_size=" ++ flag_written a ++ ", hidden_size=" ++ flag_written b ++ ", time_major=not " ++ flag_written f ++ ", direction='bidirect')", false)).
Proof.
  intros a b f. split; (vm_compute; reflexivity).
Qed.
Print Assumptions C137_the_literals.

(** So a flag does not decide: a layer that runs in both directions if [flag] holds is
    replaced by one that never does, and a base layer that runs forward because of
    [not True] by one that runs in both directions. *)
Theorem C137_flags_refuted :
  rewrite "torch.nn.LSTM" None ["a"; "b"] [("bidirectional", "flag")] =
    Some (Ret ("paddle.nn.LSTM(input_size=a, hidden_size=b, time_major=not False)", false)) /\
  rewrite "torch.nn.RNNBase" None ["m"; "a"; "b"] [("bidirectional", "(not True)")] =
    Some (Ret ("paddle.nn.layer.rnn.RNNBase(mode=m, input_size=a, hidden_size=b, time_major=not False, direction='bidirect')", false)) /\
  rewrite "torch.nn.RNNBase" None ["m"; "a"; "b"] [("bidirectional", "flag")] =
    Some (Ret ("paddle.nn.layer.rnn.RNNBase(mode=m, input_size=a, hidden_size=b, time_major=not False, direction='forward')", false)) /\
  rewrite "torch.stft" None ["x"; "n"] [("return_complex", "flag")] =
    Some (Ret ("paddle.signal.stft(x=x, n_fft=n)", false)) /\
  rewrite "torch.stft" None ["x"; "n"] [("return_complex", "(False)")] =
    Some (Ret ("paddle.signal.stft(x=x, n_fft=n).as_real()", false)).
Proof.
  split; [vm_compute; reflexivity|]. split; [vm_compute; reflexivity|]. split; [vm_compute; reflexivity|]. split; (vm_compute; reflexivity).
Qed.
Print Assumptions C137_flags_refuted.

Example C137_nonvacuous :
  (exists t, reads_as "torch.nn.LSTM" (positional ["a"; "b"]) (named [("bidirectional", "flag")]) t /\
     passes t "bidirectional" "flag" /\
     reads_as "torch.nn.LSTM" (positional ["a"; "b"]) [] (leaving_out "bidirectional" t)) /\
  (exists t, reads_as "torch.nn.RNNBase" (positional ["m"; "a"; "b"]) (named [("bidirectional", "flag")]) t /\
     passes t "bidirectional" "flag" /\
     reads_as "torch.nn.RNNBase" (positional ["m"; "a"; "b"]) (named [("bidirectional", "(False)")]) (giving "bidirectional" "(False)" t)) /\
  (exists t, reads_as "torch.stft" (positional ["x"; "n"]) (named [("return_complex", "flag")]) t /\
     passes t "return_complex" "flag" /\
     reads_as "torch.stft" (positional ["x"; "n"]) [] (leaving_out "return_complex" t)) /\
  (exists q u, answer "torch.stft" None (positional ["x"; "n"]) [] [] = Some (Ret (Converted q u))).
Proof.
  split; [|split; [|split]].
  - exists [(Some "input_size", "a"); (Some "hidden_size", "b"); (Some "bidirectional", "flag")]. split; [|split; [cbn; auto|]]; (eexists; split; [vm_compute; reflexivity|vm_compute; reflexivity]).
  - exists [(Some "mode", "m"); (Some "input_size", "a"); (Some "hidden_size", "b"); (Some "bidirectional", "flag")]. split; [|split; [cbn; auto|]]; (eexists; split; [vm_compute; reflexivity|vm_compute; reflexivity]).
  - exists [(Some "input", "x"); (Some "n_fft", "n"); (Some "return_complex", "flag")]. split; [|split; [cbn; auto|]]; (eexists; split; [vm_compute; reflexivity|vm_compute; reflexivity]).
  - eexists; eexists. vm_compute. reflexivity.
Qed.

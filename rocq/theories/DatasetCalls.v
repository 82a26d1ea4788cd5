(** From the dictionaries of DatasetFacts.v to calls. *)
From Verif Require Import PyStr PyStrFacts PyDict PyDictFacts Ast Args ArgsFacts UtilsFile TablesData Generate GenerateData GenerateRows FlagSpec FlagFacts DatasetSpec DatasetFacts.
Opaque api_mapping generators.

Lemma answer_stops n r strictly b x args kwargs t i :
  find (fun r => String.eqb (r_name r) n) api_mapping = Some r -> generator r = Some (strictly, b) -> paddle_api (r_entry r) = Some x ->
  reads_as n args kwargs t ->
  exists c, api_known c None x /\ forall d', stops (exec c b (st [] (start t) None i false)) x d' ->
  exists q u, answer n None args kwargs i = Some (Ret (Converted q u)) /\ render q = imports_os x d'.
Proof.
  intros F G P R. exists (context_of r strictly None). split.
  { intros vs ds i' u. unfold get_paddle_api, context_of. cbn [strict row_of self_api]. rewrite P, Bool.andb_false_r. reflexivity. }
  intros d' (q & s & E & T). exists q, (utils s). split; [|exact T].
  destruct R as (r' & F' & R). rewrite F in F'. injection F' as <-. unfold answer. rewrite F, G. unfold paddle_nodes. rewrite R. cbn [fst snd].
  rewrite generate_ends. unfold initial_api. cbn [receiver context_of].
  rewrite E. unfold ends, finish. rewrite then_ret, T. unfold imports_os. reflexivity.
Qed.
Section Parts.
Variables (n : string) (args : list expr) (kwargs : list kwnode) (t : table).
Hypothesis reads : reads_as n args kwargs t.
Hypothesis no_star : forall w, ~ In (None, w) t.
Lemma keys_once : NoDup (dkeys (start t)). Proof. apply start_nodup; [exact (reads_nodup _ _ _ _ reads)|exact no_star]. Qed.
Lemma got k v : k <> "None" -> In (Some k, v) t -> dget String.eqb k (start t) = Some [MkPiece [Argument k] v].
Proof. intros K I. apply start_get; [exact (reads_nodup _ _ _ _ reads)|exact K|exact I]. Qed.
Lemma not_got k : (forall w, ~ In (Some k, w) t) -> dget String.eqb k (start t) = None.
Proof.
  intros H. destruct (dget String.eqb k (start t)) as [r|] eqn:E; [|reflexivity]. exfalso. apply (H (render r)).
  apply (member_start _ _ _ no_star). apply in_texts; [exact keys_once|]. exists r. split; [exact E|reflexivity].
Qed.
Lemma or_default k a v : k <> "None" -> given_or t k a v -> exists w, (match dget String.eqb k (start t) with Some x => x | None => lit a end) = w /\ render w = v.
Proof.
  intros K [H|[-> H]].
  - rewrite (got _ _ K H). eexists. split; [reflexivity|]. apply render_one.
  - rewrite (not_got _ H). eexists. split; [reflexivity|]. apply render_one.
Qed.
End Parts.
(** The dictionaries consist of the arguments that are kept and the new ones. *)
Lemma made_start t : NoDup (dkeys (start t)) -> (forall w, ~ In (None, w) t) -> made_of (texts (start t)) t [] [].
Proof.
  intros N S. split; [rewrite texts_keys; exact N|]. intros k v. rewrite (member_start _ _ _ S). cbn [In map].
  split; [intros H; right; split; [intros []|split; [intros []|exact H]]|]. intros [[]|(_ & _ & H)]. exact H.
Qed.
Lemma made_out t d dropped new k : made_of (texts d) t dropped new -> ~ In k (map fst new) -> made_of (texts (ddel String.eqb k d)) t (k :: dropped) new.
Proof.
  intros [N M] K. rewrite texts_keys in N. split; [rewrite texts_keys; apply out_nodup; exact N|]. intros a v.
  rewrite member_out by exact N. rewrite M. split.
  - intros [A [H|(D & W & H)]]; [left; exact H|]. right. split; [|split; assumption]. intros [E|E]; [exact (A (eq_sym E))|exact (D E)].
  - intros [H|(D & W & H)].
    + split; [|left; exact H]. intros ->. apply K. apply in_map_iff. exists (k, v). split; [reflexivity|exact H].
    + split; [intros ->; apply D; left; reflexivity|]. right. split; [intros E; apply D; right; exact E|split; assumption].
Qed.
Lemma made_put t d dropped new k r : made_of (texts d) t dropped new -> ~ In k (map fst new) -> made_of (texts (dset String.eqb k r d)) t dropped (new ++ [(k, render r)])%list.
Proof.
  intros [N M] K. rewrite texts_keys in N. split; [rewrite texts_keys; apply put_nodup; exact N|]. intros a v.
  rewrite member_put by exact N. rewrite M, in_app_iff, map_app, in_app_iff. cbn [In map fst]. split.
  - intros [[-> ->]|[A [H|(D & W & H)]]]; [left; right; left; reflexivity|left; left; exact H|]. right. split; [exact D|]. split; [|exact H].
    intros [E|[E|[]]]; [exact (W E)|exact (A (eq_sym E))].
  - intros [[H|[H|[]]]|(D & W & H)].
    + right. split; [|left; exact H]. intros ->. apply K. apply in_map_iff. exists (k, v). split; [reflexivity|exact H].
    + injection H as -> ->. left. split; reflexivity.
    + right. split; [intros ->; apply W; right; left; reflexivity|]. right. split; [exact D|]. split; [intros E; apply W; left; exact E|exact H].
Qed.
Ltac notin := cbn [In map fst List.app]; let W := fresh in intros W; repeat (destruct W as [W|W]; [discriminate W|]); exact W.
Ltac made := lazymatch goal with
  | |- made_of (texts (dset _ _ _ _)) _ _ _ => eapply made_put; [made|notin]
  | |- made_of (texts (ddel _ _ _)) _ _ _ => eapply made_out; [made|notin]
  | |- made_of (texts (start _)) _ _ _ => apply made_start; assumption
  end.
Lemma made_mnist t m a b : NoDup (dkeys (start t)) -> (forall w, ~ In (None, w) t) ->
  made_of (texts (dset String.eqb "label_path" b (dset String.eqb "image_path" a (ddel String.eqb "root" (dset String.eqb "mode" m (ddel String.eqb "train" (start t)))))))
    t ["root"; "train"] [("mode", render m); ("image_path", render a); ("label_path", render b)].
Proof. intros N S. match goal with |- made_of ?l ?t _ _ => eassert (M : made_of l t _ _) by made end. exact M. Qed.
Lemma made_cifar_train t m a : NoDup (dkeys (start t)) -> (forall w, ~ In (None, w) t) ->
  made_of (texts (dset String.eqb "mode" m (ddel String.eqb "train" (dset String.eqb "data_file" a (ddel String.eqb "root" (start t))))))
    t ["train"; "root"] [("data_file", render a); ("mode", render m)].
Proof. intros N S. match goal with |- made_of ?l ?t _ _ => eassert (M : made_of l t _ _) by made end. exact M. Qed.
Lemma made_cifar t a : NoDup (dkeys (start t)) -> (forall w, ~ In (None, w) t) ->
  made_of (texts (dset String.eqb "data_file" a (ddel String.eqb "root" (start t)))) t ["root"] [("data_file", render a)].
Proof. intros N S. match goal with |- made_of ?l ?t _ _ => eassert (M : made_of l t _ _) by made end. exact M. Qed.
Lemma made_flowers t m a b e : NoDup (dkeys (start t)) -> (forall w, ~ In (None, w) t) ->
  made_of (texts (dset String.eqb "setid_file" e (dset String.eqb "label_file" b (dset String.eqb "data_file" a (ddel String.eqb "root" (dset String.eqb "mode" m (ddel String.eqb "split" (start t))))))))
    t ["root"; "split"] [("mode", render m); ("data_file", render a); ("label_file", render b); ("setid_file", render e)].
Proof. intros N S. match goal with |- made_of ?l ?t _ _ => eassert (M : made_of l t _ _) by made end. exact M. Qed.

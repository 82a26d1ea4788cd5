(** Further facts about the import pass, in the form the properties need. *)
From Coq Require Import Permutation Lia.
From Verif Require Import PyStr PyStrFacts PyDict PyDictFacts TablesData Lookup LookupFacts UtilsFacts Ast AstFacts ImportPass ImportSpec ImportFacts.
Opaque api_mapping attribute_mapping alias_mapping wildcard_mapping matcher_classes.

(** ** Renaming does not produce a torch module *)
Lemma no_char_app c a b : no_char c (a ++ b) <-> no_char c a /\ no_char c b.
Proof.
  induction a as [|x a IH]; cbn; [tauto|]. rewrite IH. tauto.
Qed.
Lemma listed_not_speech p : In p listed_packages -> endswith p "paddlespeech" = false.
Proof.
  intros H. assert (E : forallb (fun p => negb (endswith p "paddlespeech")) listed_packages = true) by (vm_compute; reflexivity).
  rewrite forallb_forall in E. specialize (E p H). destruct (endswith p "paddlespeech"); [discriminate|reflexivity].
Qed.
Lemma replaced_first m t : Replaced "audiotools" "paddlespeech.audiotools" m t -> torch_module m = false -> torch_module t = false.
Proof.
  intros R. destruct R as [s C|a b t _ _]; [auto|]. intros H. unfold torch_module in *.
  destruct (first_component_prefix a) as (q & E & [->|(q' & ->)]).
  - rewrite app_nil_r_s in E. pose proof (first_component_no_char a) as N. rewrite <- E in N.
    change ("paddlespeech.audiotools" ++ t) with ("paddlespeech" ++ "." ++ ("audiotools" ++ t)).
    replace (a ++ "paddlespeech" ++ "." ++ "audiotools" ++ t) with ((a ++ "paddlespeech") ++ "." ++ "audiotools" ++ t)
      by (rewrite app_assoc_s; reflexivity).
    rewrite first_component_dot by (apply no_char_app; split; [exact N|cbn; repeat split; discriminate]).
    apply PyStrFacts.mem_str_false. intros I. apply listed_not_speech in I.
    rewrite (proj2 (UtilsFacts.endswith_spec _ _)) in I by (eexists; reflexivity). discriminate I.
  - assert (F : forall z, first_component (a ++ z) = first_component a).
    { intros z. rewrite E at 1. rewrite app_assoc_s.
      change (String "."%char q' ++ z) with ("." ++ (q' ++ z)). apply first_component_dot, first_component_no_char. }
    rewrite F in *. exact H.
Qed.
Lemma renamed_not_torch m : torch_module m = false -> torch_module (py_replace m "audiotools" "paddlespeech.audiotools") = false.
Proof. apply replaced_first, py_replace_Replaced. discriminate. Qed.

Lemma rewritten_torch_free e i i' : min_mode e = false -> is_import i = true -> In i' (rewritten e i) -> torch_free e i'.
Proof.
  intros M I H. destruct i as [| | |names|m names lv|]; try discriminate I; cbn [rewritten] in H.
  - assert (forall a, In a (flat_map (new_alias e) (upto_local e names)) -> torch_module (al_name a) = true -> is_local e (al_name a) = true) as G.
    { intros a Ha T. apply in_flat_map in Ha as (b & _ & Ha). unfold new_alias in Ha.
      destruct (is_local e (al_name b)) eqn:L; [destruct Ha as [<-|[]]; exact L|].
      destruct (torch_module (al_name b)) eqn:Tb; [rewrite M in Ha; contradiction|].
      destruct (renames (al_name b)).
      - destruct Ha as [<-|[]]. unfold renamed in T. destruct (al_asname b); cbn [al_name] in T.
        + rewrite renamed_not_torch in T by exact Tb. discriminate T.
        + vm_compute in T. discriminate T.
      - destruct Ha as [<-|[]]. congruence. }
    destruct (flat_map _ _) as [|x l]; [contradiction|]. destruct H as [<-|[]]. exact G.
  - destruct (from_module e m lv) as [[[m' lv']|]|] eqn:F.
    + destruct (torch_module m') eqn:T; [rewrite M in H; contradiction|].
      destruct (renames m'); destruct H as [<-|[]]; cbn [torch_free]; destruct lv'; trivial.
      * rewrite renamed_not_torch by exact T. discriminate.
      * rewrite T. discriminate.
    + destruct H as [<-|[]]. cbn [torch_free]. destruct m as [m|]; [|exact Logic.I]. destruct lv; [|exact Logic.I]. cbn [from_module] in F.
      destruct (is_local e m); [reflexivity|discriminate F].
    + destruct H as [<-|[]]. cbn [torch_free]. destruct m as [m|]; [|exact Logic.I]. destruct lv; [|exact Logic.I]. cbn [from_module] in F.
      destruct (is_local e m); discriminate F.
Qed.

(** ** Files *)
Lemma rw_module e K body n' : rw e K (module body) n' -> exists body', n' = module body' /\ rws e K body body'.
Proof.
  intros H. remember (module body) as r eqn:Er. induction H; try discriminate Er.
  - injection Er as -> ->. inversion_clear H as [| |? ? l' ? fs'' Hl H0|]. inversion_clear H0 as [| |? ? l'' ? fs''' Hl' H1|].
    inversion_clear H1. inversion_clear Hl'. exists l'. split; [reflexivity|exact Hl].
  - destruct (IHrw Er) as (body' & -> & _). discriminate H0.
Qed.
Lemma module_imports body : imports_of (module body) = flat_map imports_of body.
Proof. rewrite imports_of_children. cbn [is_import children flat_map app module]. rewrite !app_nil_r. reflexivity. Qed.
Lemma module_blocks body : all_blocks (module body) = body :: flat_map all_blocks body.
Proof. rewrite all_blocks_children. unfold module. cbn [own_blocks children flat_map app mem_str blocks existsb String.eqb orb]. cbn. rewrite !app_nil_r. reflexivity. Qed.

Theorem file_rw e K order body out s : program body -> knows e K (module body) ->
  import_transform e order (module body) = Ok (out, s) ->
  exists body', out = module (map import_stmt (keep_first (paddle_packages order s)) ++ body') /\
    rws e K body body' /\ known K s.
Proof.
  intros G Kn E. unfold import_transform in E. destruct (import_visit e (module body)) as [[v [st s']]|] eqn:V; [|discriminate].
  cbn [bind] in E. destruct (import_visit_rw e K (module body) v st s' eq_refl G Kn V) as (-> & n' & -> & R & Ks).
  injection E as <- <-. destruct (rw_module e K body n' R) as (body' & -> & Rs). exists body'. auto.
Qed.
Lemma file_packages e order body out s : program body -> import_transform e order (module body) = Ok (out, s) ->
  gains ist0 s (flat_map (packages_used e) (imports_of (module body))) /\
  imports s = bind_all [] (flat_map (bindings e) (imports_of (module body))).
Proof.
  intros G E. unfold import_transform in E. destruct (import_visit e (module body)) as [[v [st s']]|] eqn:V; [|discriminate].
  cbn [bind] in E. unfold import_visit in V. pose proof V as V'. apply packages_main in V as [-> H]. apply imports_main in V' as [_ H'].
  destruct v; try discriminate. injection E as <- <-. split; [exact (H G)|exact (H' G)].
Qed.

(** ** Packages *)
Lemma keep_first_spec l : NoDup (keep_first l) /\ forall x, In x (keep_first l) <-> In x l.
Proof.
  unfold keep_first.
  assert (H : forall acc, NoDup acc -> NoDup (fold_left (fun acc x => set_add x acc) l acc) /\
    forall x, In x (fold_left (fun acc x => set_add x acc) l acc) <-> In x acc \/ In x l).
  { induction l as [|y l IH]; intros acc N; cbn [fold_left]; [cbn [In]; tauto|].
    destruct (IH (set_add y acc)) as [H1 H2].
    - unfold set_add. destruct (mem_str y acc) eqn:M; [exact N|]. apply PyStrFacts.mem_str_false in M.
      rewrite <- (rev_involutive (acc ++ [y])%list). apply NoDup_rev. rewrite rev_app_distr. cbn [rev app].
      constructor; [rewrite <- in_rev; exact M|]. apply NoDup_rev, N.
    - split; [exact H1|]. intros x. rewrite H2, set_add_In. cbn [In]. intuition auto. }
  destruct (H [] (NoDup_nil _)) as [H1 H2]. split; [exact H1|]. intros x. rewrite H2. cbn [In]. tauto.
Qed.
Lemma packages_spec order s l : (forall l x, In x (order l) <-> In x l) -> gains ist0 s l ->
  forall q, In q (paddle_packages order s) <-> exists p, In p l /\ q = replacement p.
Proof.
  intros O [G1 G2] q. unfold paddle_packages. rewrite in_app_iff, in_map_iff, O. split.
  - intros [(p & <- & H)|H].
    + rewrite O, G1 in H. destruct H as [[]|[H N]]. exists p. split; [exact H|]. unfold replacement.
      rewrite (proj2 (PyStrFacts.mem_str_false _ _) N). reflexivity.
    + rewrite G2 in H. destruct H as [[]|[H N]]. exists q. split; [exact H|]. unfold replacement.
      rewrite (proj2 (PyStrFacts.mem_str_In _ _) N). reflexivity.
  - intros (p & H & ->). unfold replacement. destruct (mem_str p may_torch_package_list) eqn:M.
    + right. apply PyStrFacts.mem_str_In in M. apply G2. auto.
    + left. apply PyStrFacts.mem_str_false in M. exists p. split; [reflexivity|]. rewrite O, G1. auto.
Qed.
Lemma packages_used_listed e i p : In p (packages_used e i) -> In p listed_packages.
Proof.
  destruct i as [| | |names|m names lv|]; cbn [packages_used]; try contradiction.
  - intros H. apply in_flat_map in H as (a & _ & H). destruct (negb _ && _) eqn:B; [|contradiction]. destruct H as [<-|[]].
    apply andb_prop in B as [_ B]. apply PyStrFacts.mem_str_In in B. exact B.
  - destruct (from_module e m lv) as [[[m' lv']|]|]; try contradiction. destruct (torch_module m') eqn:T; [|contradiction].
    intros [<-|[]]. apply PyStrFacts.mem_str_In in T. exact T.
Qed.
Lemma replacement_values p : In p listed_packages -> In (replacement p) ["paddle"; "paddlespeech"; "paddleformers"; "setuptools"; "os"; "einops"].
Proof.
  intros H. assert (E : forallb (fun p => mem_str (replacement p) ["paddle"; "paddlespeech"; "paddleformers"; "setuptools"; "os"; "einops"]) listed_packages = true)
    by (vm_compute; reflexivity).
  rewrite forallb_forall in E. apply PyStrFacts.mem_str_In. exact (E p H).
Qed.

(** ** Plain imports *)
Lemma plain_kept e i : plain e i -> rewritten e i = [i].
Proof.
  destruct i as [| | |names|m names lv|]; cbn [plain]; try contradiction.
  - intros (N & U & H). cbn [rewritten]. rewrite U.
    assert (flat_map (new_alias e) names = names) as ->; [|destruct names; [congruence|reflexivity]].
    clear N U. induction names as [|a r IH]; [reflexivity|]. cbn [flat_map]. rewrite IH by (intros b Hb; apply H; right; exact Hb).
    unfold new_alias. destruct (H a (or_introl eq_refl)) as [->|[-> ->]]; [reflexivity|]. destruct (is_local e (al_name a)); reflexivity.
  - cbn [rewritten]. destruct lv as [|lv].
    + destruct m as [m|]; [|contradiction]. cbn [from_module]. destruct (is_local e m) eqn:L; [reflexivity|].
      intros [H|[H1 H2]]; [discriminate|]. rewrite H1, H2. reflexivity.
    + cbn [from_module]. intros H.
      assert (contains "huggingface_internal" (file e) && ((S lv =? 2)%nat || (S lv =? 3)%nat) = false) as ->; [|destruct m; reflexivity].
      destruct m, H as [->|[H1 H2]]; try reflexivity; apply Nat.eqb_neq in H1, H2; rewrite H1, H2; apply andb_false_r.
Qed.
Lemma plain_unbound e i : plain e i -> bindings e i = [] /\ packages_used e i = [].
Proof.
  destruct i as [| | |names|m names lv|]; cbn [plain]; try contradiction.
  - intros (N & U & H). cbn [bindings packages_used]. rewrite U. clear N U.
    induction names as [|a r IH]; [auto|]. cbn [flat_map]. destruct IH as [-> ->]; [intros b Hb; apply H; right; exact Hb|].
    destruct (H a (or_introl eq_refl)) as [->|[-> _]]; cbn [negb andb]; rewrite ?andb_false_r; auto.
  - cbn [bindings packages_used]. destruct lv as [|lv].
    + destruct m as [m|]; [|contradiction]. cbn [from_module]. destruct (is_local e m) eqn:L; [auto|].
      intros [H|[H1 H2]]; [discriminate|]. rewrite H1. auto.
    + cbn [from_module]. intros H.
      assert (contains "huggingface_internal" (file e) && ((S lv =? 2)%nat || (S lv =? 3)%nat) = false) as ->; [|destruct m; auto].
      destruct m, H as [->|[H1 H2]]; try reflexivity; apply Nat.eqb_neq in H1, H2; rewrite H1, H2; apply andb_false_r.
Qed.

(** ** Chains and names *)
Lemma dotted_full n : forall t, dotted n = Some t -> get_full_attr n = t.
Proof.
  induction n as [i|v a IH|f aa k Hf Ha Hk|l|m l lv|k fs Hfs] using node_ind2; intros t H; try discriminate H.
  - injection H as <-. reflexivity.
  - cbn [dotted] in H. destruct (dotted v) as [u|]; [|discriminate]. injection H as <-. cbn [get_full_attr].
    rewrite (IH u eq_refl). reflexivity.
Qed.
Lemma torch_api_bound n first rest full s : dotted n = Some (first ++ rest) -> first_component (first ++ rest) = first ->
  dget String.eqb first (imports s) = Some full -> get_torch_api n s = Ok (Some (full ++ rest)).
Proof.
  intros D F B. unfold get_torch_api. rewrite (dotted_full n _ D).
  destruct (split_on "."%char (first ++ rest)) as [|x r] eqn:Sp; [exfalso; exact (split_on_nonempty _ _ Sp)|].
  destruct (join_first full _ _ _ Sp) as (tail & Et & Ej & Ef). rewrite F in Ef. subst x.
  rewrite B. rewrite Ej. do 3 f_equal. symmetry. exact (app_inj_l _ _ _ Et).
Qed.
Lemma torch_api_unbound n t s : dotted n = Some t -> dget String.eqb (first_component t) (imports s) = None ->
  ~ In (first_component t) bookkeeping -> get_torch_api n s = Ok None.
Proof.
  intros D B N. unfold get_torch_api. rewrite (dotted_full n _ D). unfold first_component in *.
  destruct (split_on "."%char t) as [|x r]; [reflexivity|]. cbn [nth] in B, N. rewrite B, (proj2 (PyStrFacts.mem_str_false _ _) N). reflexivity.
Qed.

Lemma chain_expanded e v a p st s first rest full :
  dotted (Attribute v a) = Some (first ++ rest) -> first_component (first ++ rest) = first ->
  dget String.eqb first (imports s) = Some full -> enters (Attribute v a) s = false -> min_mode e = false ->
  visit import_pre (import_post e) (Attribute v a) p (st, s) =
  Ok (VNode (parse_dotted (canonical (full ++ rest))), (st, s)).
Proof.
  intros D F B En M. rewrite visit_eq. cbv zeta. cbn [fst snd]. cbn [import_pre]. rewrite En. cbn [bind fst snd import_post].
  unfold finish_attribute. rewrite (torch_api_bound _ _ _ _ _ D F B). cbn [bind].
  destruct (String.eqb_spec (full ++ rest) "") as [Z|Z].
  - exfalso. destruct rest as [|c r].
    + rewrite app_nil_r_s in D, F. cbn [dotted] in D. destruct (dotted v) as [u|]; [|discriminate]. 
      assert (E : u ++ String "."%char a = first) by (injection D as D; exact D). rewrite <- E in F. exact (first_component_not_all u a F).
    + destruct full; discriminate Z.
  - unfold emit, in_min_mode. rewrite M. cbn [andb]. reflexivity.
Qed.

Lemma chain_untouched e n : forall t p st s,
  dotted n = Some t -> (exists v a, n = Attribute v a) -> dget String.eqb (first_component t) (imports s) = None ->
  ~ In (first_component t) bookkeeping ->
  visit import_pre (import_post e) n p (st, s) = Ok (VNode n, (st, s)).
Proof.
  induction n as [i|v a IH|f aa k Hf Ha Hk|l|m l lv|k fs Hfs] using node_ind2; intros t p st s D A B N;
    try (destruct A as (v0 & a0 & A); discriminate A).
  rewrite visit_eq. cbv zeta. cbn [fst snd import_pre bind].
  pose proof (torch_api_unbound _ _ _ D B N) as T.
  destruct (enters (Attribute v a) s).
  - cbn [generic_visit]. cbn [dotted] in D. destruct (dotted v) as [tv|] eqn:Dv; [|discriminate]. injection D as <-.
    rewrite first_component_app in B, N by (right; eexists; reflexivity).
    assert (visit import_pre (import_post e) v (At "value" 0) (MkFrame (Attribute v a) p :: st, s) =
            Ok (VNode v, (MkFrame (Attribute v a) p :: st, s))) as ->.
    { destruct v as [i|v' a'| | | |]; try discriminate Dv.
      - rewrite visit_eq. reflexivity.
      - apply (IH tv); eauto. }
    cbn [bind fst snd set_top e_pos import_post]. unfold finish_attribute. rewrite T. reflexivity.
  - cbn [bind fst snd import_post]. unfold finish_attribute. rewrite T. reflexivity.
Qed.

Lemma undotted_none n : dotted n = None -> exists r, get_full_attr n = "None" ++ r.
Proof.
  induction n as [i|v a IH|f aa k Hf Ha Hk|l|m l lv|k fs Hfs] using node_ind2; intros D; cbn [get_full_attr]; try (exists ""; reflexivity).
  - discriminate D.
  - cbn [dotted] in D. destruct (dotted v); [discriminate|]. destruct (IH eq_refl) as [r ->]. rewrite app_assoc_s. eauto.
Qed.
Definition grand_kind (st : list frame) : string := match st with _ :: g :: _ => kind_of (e_node g) | _ => "" end.
Lemma name_position_spec x p fr st s :
  dget String.eqb x (name_aliases s) = None ->
  exists b asg, name_position x (MkFrame (Name x) p :: fr :: st) s = Ok (inr (b, asg)) /\
    (b = true <-> expanding (grand_kind (fr :: st)) (e_node fr) (p_field p) x).
Proof.
  intros Al. unfold name_position, parent. cbn [bind tl].
  destruct fr as [n q]. cbn [e_node e_pos].
  assert (Hc : forall k, exists b asg,
     (if mem_str k ["ClassDef"; "FunctionDef"; "arg"; "arguments"; "Dict"] then Ok (inr (true, false))
      else
        if String.eqb k "Subscript" && field_is "slice" p then Ok (inr (true, false))
        else if String.eqb k "Subscript" && field_is "value" p then
          Ok (inr (negb (String.eqb x "data"), false))
        else if String.eqb k "Tuple" && String.eqb (grand_kind (MkFrame n q :: st)) "Subscript" then Ok (inr (true, false))
        else if String.eqb k "Assign" && field_is "value" p then Ok (inr (true, true))
        else if String.eqb k "Index" && field_is "value" p then Ok (inr (true, false))
        else Ok (inr (false, false))) = Ok (inr (b, asg) : string + bool * bool) /\
     (b = true <-> In k ["ClassDef"; "FunctionDef"; "arg"; "arguments"; "Dict"] \/
      (k = "Subscript" /\ (p_field p = "slice" \/ (p_field p = "value" /\ x <> "data"))) \/
      (k = "Tuple" /\ grand_kind (MkFrame n q :: st) = "Subscript") \/
      (k = "Assign" /\ p_field p = "value") \/
      (k = "Index" /\ p_field p = "value"))).
  { intros k. unfold field_is. generalize (grand_kind (MkFrame n q :: st)) as g. intros g.
    destruct (mem_str k _) eqn:M.
    { apply PyStrFacts.mem_str_In in M. exists true, false. tauto. }
    apply PyStrFacts.mem_str_false in M.
    destruct (String.eqb_spec k "Subscript") as [->|N1]; cbn [andb].
    { destruct (String.eqb_spec "slice" (p_field p)) as [E|N2].
      { exists true, false. split; [reflexivity|]. split; auto. }
      destruct (String.eqb_spec "value" (p_field p)) as [E|N3].
      { exists (negb (String.eqb x "data")), false. split; [reflexivity|]. rewrite <- E.
        destruct (String.eqb_spec x "data") as [->|N4]; cbn [negb]; [|split; auto 6]. split; [discriminate|].
        intros [H|[(_ & [H|[_ H]])|[(H & _)|[(H & _)|(H & _)]]]]; try discriminate; try contradiction. }
      change (String.eqb "Subscript" "Tuple") with false. change (String.eqb "Subscript" "Assign") with false.
      change (String.eqb "Subscript" "Index") with false. cbn [andb].
      exists false, false. split; [reflexivity|]. split; [discriminate|].
      intros [H|[(_ & [H|[H _]])|[(H & _)|[(H & _)|(H & _)]]]]; try discriminate; try contradiction; congruence. }
    destruct (String.eqb_spec k "Tuple") as [->|N2]; cbn [andb].
    { destruct (String.eqb_spec g "Subscript") as [E|N3].
      { exists true, false. split; [reflexivity|]. split; auto 6. }
      change (String.eqb "Tuple" "Assign") with false. change (String.eqb "Tuple" "Index") with false. cbn [andb].
      exists false, false. split; [reflexivity|]. split; [discriminate|].
      intros [H|[(H & _)|[(_ & H)|[(H & _)|(H & _)]]]]; try discriminate; try contradiction. }
    destruct (String.eqb_spec k "Assign") as [->|N3]; cbn [andb].
    { destruct (String.eqb_spec "value" (p_field p)) as [E|N4].
      { exists true, true. split; [reflexivity|]. split; auto 6. }
      change (String.eqb "Assign" "Index") with false. cbn [andb].
      exists false, false. split; [reflexivity|]. split; [discriminate|].
      intros [H|[(H & _)|[(H & _)|[(_ & H)|(H & _)]]]]; try discriminate; try contradiction. congruence. }
    destruct (String.eqb_spec k "Index") as [->|N4]; cbn [andb].
    { destruct (String.eqb_spec "value" (p_field p)) as [E|N5].
      { exists true, false. split; [reflexivity|]. split; auto 7. }
      exists false, false. split; [reflexivity|]. split; [discriminate|].
      intros [H|[(H & _)|[(H & _)|[(H & _)|(_ & H)]]]]; try discriminate; try contradiction. congruence. }
    exists false, false. split; [reflexivity|]. split; [discriminate|]. intuition congruence. }
  destruct n as [i|v a|f a k|l|m l lv|k fs].
  1: exact (Hc "Name"). 1: exact (Hc "Attribute"). 2: exact (Hc "Import"). 2: exact (Hc "ImportFrom"). 2: exact (Hc k).
  cbn [kind_of]. change (mem_str "Call" ["ClassDef"; "FunctionDef"; "arg"; "arguments"; "Dict"]) with false.
  cbn iota. cbn [expanding].
  destruct f as [fid|v0 a0| | | |]; try (exists false, false; split; [reflexivity|split; [discriminate|contradiction]]).
  - rewrite Al. eexists _, false. split; [reflexivity|]. unfold field_is. rewrite orb_true_iff, PyStrFacts.mem_str_In, String.eqb_eq.
    intuition congruence.
  - eexists _, false. split; [reflexivity|]. rewrite String.eqb_eq. split; intros H; [|exact (dotted_full _ _ H)].
    destruct (dotted (Attribute v0 a0)) as [t|] eqn:D; [rewrite <- H, (dotted_full _ _ D); reflexivity|].
    apply undotted_none in D as [r D]. rewrite H in D. discriminate D.
Qed.

Lemma name_expanded e x p fr st s full :
  dget String.eqb x (name_aliases s) = None -> dget String.eqb x (imports s) = Some full -> full <> "" ->
  no_char "."%char x -> min_mode e = false ->
  (expanding (grand_kind (fr :: st)) (e_node fr) (p_field p) x ->
   exists s', visit import_pre (import_post e) (Name x) p (fr :: st, s) = Ok (VNode (parse_dotted (canonical full)), (fr :: st, s'))) /\
  (~ expanding (grand_kind (fr :: st)) (e_node fr) (p_field p) x ->
   visit import_pre (import_post e) (Name x) p (fr :: st, s) = Ok (VNode (Name x), (fr :: st, s))).
Proof.
  intros Al B NE Nd M. destruct (name_position_spec x p fr st s Al) as (b & asg & E & H).
  rewrite visit_eq. cbv zeta. cbn [fst snd import_pre bind generic_visit import_post]. unfold visit_name. rewrite E. cbn [bind].
  split; intros X.
  - apply H in X. subst b. rewrite (torch_api_bound (Name x) x "" full s).
    + cbn [bind]. rewrite app_nil_r_s. destruct (String.eqb_spec full ""); [contradiction|]. cbn [parent bind].
      unfold emit, in_min_mode. rewrite M. cbn [andb]. eexists. cbn [bind]. reflexivity.
    + rewrite app_nil_r_s. reflexivity.
    + rewrite app_nil_r_s. apply first_component_nodot, Nd.
    + exact B.
  - destruct b; [exfalso; apply X, H; reflexivity|]. reflexivity.
Qed.

(** ** A chain in a statement after the import *)
Lemma visit_list_app {S} pre post nm (l1 l2 : list node) : forall i (st : list frame * S),
  visit_list pre post nm (l1 ++ l2) i st =
  let* (r1, st1) := visit_list pre post nm l1 i st in
  let* (r2, st2) := visit_list pre post nm l2 (List.length l1 + i) st1 in
  Ok ((r1 ++ r2)%list, st2).
Proof.
  induction l1 as [|x l1 IH]; intros i st.
  - rewrite visit_list_nil. cbn [app bind List.length Nat.add]. destruct (visit_list _ _ _ l2 i st) as [[r2 st2]|]; reflexivity.
  - cbn [app]. rewrite !visit_list_cons. destruct (visit pre post x (At nm i) st) as [[r st1]|]; [|reflexivity]. cbn [bind].
    rewrite IH. destruct (visit_list pre post nm l1 (1 + i) st1) as [[r1 st2]|]; [|reflexivity]. cbn [bind].
    replace (List.length (x :: l1) + i)%nat with (List.length l1 + (1 + i))%nat by (cbn [List.length]; lia).
    destruct (visit_list pre post nm l2 _ st2) as [[r2 st3]|]; [|reflexivity]. cbn [bind]. rewrite app_assoc. reflexivity.
Qed.
Lemma bind_all_stands l x full : forall d, stands_for l x full -> dget String.eqb x (bind_all d l) = Some full.
Proof.
  intros d (b & a & -> & H). unfold bind_all. rewrite fold_left_app. cbn [fold_left fst snd].
  generalize (fold_left (fun d b => dset String.eqb (fst b) (snd b) d) b d) as d'. intros d'.
  assert (G : dget String.eqb x (dset String.eqb x full d') = Some full) by apply (dget_set_same _ String.eqb_spec).
  revert G. generalize (dset String.eqb x full d') as c. clear b d d'.
  induction a as [|[y f] a IH]; intros c G; [exact G|]. cbn [fold_left fst snd]. apply IH.
  - intros g Hg. apply (H g). right. exact Hg.
  - rewrite (dget_set_other _ String.eqb_spec); [exact G|]. intros ->. apply (H f). left. reflexivity.
Qed.
Lemma simple_enters n s : simple_chain n -> enters n s = false.
Proof.
  destruct n as [|v a| | | |]; try contradiction. destruct v as [|v' b| | | |]; try contradiction; cbn [simple_chain enters computed orb]; [reflexivity|].
  intros H. apply orb_false_intro.
  - apply PyStrFacts.mem_str_false. intros I. apply H. cbn [In] in *. tauto.
  - destruct (String.eqb_spec b "data") as [->|]; [|reflexivity]. exfalso. apply H. cbn [In]. tauto.
Qed.
Lemma in_list_imports e nm l : forall i st u l' st' u', Forall grammatical l ->
  visit_list import_pre (import_post e) nm l i (st, u) = Ok (l', (st', u')) ->
  st' = st /\ imports u' = bind_all (imports u) (flat_map (bindings e) (flat_map imports_of l)).
Proof.
  induction l as [|x l IH]; intros i st u l' st' u' G E.
  - rewrite visit_list_nil in E. injection E as <- <- <-. auto.
  - rewrite visit_list_cons in E. destruct (visit _ _ x (At nm i) (st, u)) as [[r [st1 u1]]|] eqn:V; [|discriminate].
    cbn [bind] in E. destruct (visit_list _ _ nm l (1 + i) (st1, u1)) as [[rest [st2 u2]]|] eqn:W; [|discriminate].
    cbn [bind] in E. injection E as <- <- <-. apply imports_main in V as [-> B].
    apply IH in W as [-> ->]; [|exact (Forall_inv_tail G)]. split; [reflexivity|].
    rewrite (B (Forall_inv G)). cbn [flat_map]. rewrite flat_map_app. unfold bind_all. rewrite fold_left_app. reflexivity.
Qed.
Theorem expression_expanded e order pre post v a first rest full out s :
  program (pre ++ Other "Expr" [One "value" (Attribute v a)] :: post) -> min_mode e = false ->
  dotted (Attribute v a) = Some (first ++ rest) -> first_component (first ++ rest) = first -> simple_chain (Attribute v a) ->
  stands_for (flat_map (bindings e) (flat_map imports_of pre)) first full ->
  import_transform e order (module (pre ++ Other "Expr" [One "value" (Attribute v a)] :: post)) = Ok (out, s) ->
  exists pre' post', out = module (pre' ++ Other "Expr" [One "value" (parse_dotted (canonical (full ++ rest)))] :: post').
Proof.
  intros G M D F Sc St E. unfold import_transform, import_visit in E.
  match type of E with context [visit _ _ ?n ?p ?st] => destruct (visit import_pre (import_post e) n p st) as [[w [st2 u2]]|] eqn:V; [|discriminate] end.
  cbn [bind] in E. rewrite visit_eq in V. cbv zeta in V. unfold module in V. cbn [fst snd import_pre bind generic_visit] in V.
  rewrite visit_fields_cons in V.
  match type of V with context [visit_list _ _ "body" _ 0 (?x, ist0)] => set (stk := x) in V end.
  rewrite visit_list_app in V.
  destruct (visit_list import_pre (import_post e) "body" pre 0 (stk, ist0)) as [[pre' [st1 u1]]|] eqn:V1; [|discriminate].
  cbn [bind] in V.
  apply in_list_imports in V1 as [-> B].
  2:{ apply Forall_forall. intros x Hx m Hm. apply G. eapply child_nodes; [|exact Hm]. cbn [children module flat_map].
      rewrite app_nil_r. apply in_or_app. left. exact Hx. }
  rewrite visit_list_cons in V.
  match type of V with context [visit _ _ (Other "Expr" ?fs) ?p (stk, u1)] =>
    assert (visit import_pre (import_post e) (Other "Expr" fs) p (stk, u1) =
            Ok (VNode (Other "Expr" [One "value" (parse_dotted (canonical (full ++ rest)))]), (stk, u1))) as VE end.
  { rewrite visit_eq. cbv zeta. cbn [fst snd import_pre bind generic_visit]. rewrite visit_fields_cons.
    rewrite (chain_expanded e v a _ _ u1 first rest full); auto.
    - rewrite B. cbn [imports ist0]. apply bind_all_stands, St.
    - apply simple_enters, Sc. }
  rewrite VE in V. cbn [bind] in V.
  match type of V with context [visit_list _ _ "body" post ?i (stk, u1)] =>
    destruct (visit_list import_pre (import_post e) "body" post i (stk, u1)) as [[post' [st3 u3]]|] eqn:V2; [|discriminate] end.
  cbn [bind spliced app fst snd] in V. rewrite visit_fields_cons, visit_list_nil in V. cbn [bind fst snd] in V.
  rewrite visit_fields_nil in V. cbn [bind import_post app fst snd] in V. injection V as <- <- <-.
  injection E as <- <-. cbn [insert_front map]. eexists (_ ++ pre')%list, post'. unfold module. rewrite <- app_assoc. reflexivity.
Qed.

(** Recognition of uses (C82): proofs. *)
From Coq Require Import Lia.
From Verif Require Import PyStr PyStrFacts PyDict PyDictFacts TablesData Lookup Ast ImportPass Walk BasicPass RegistryFacts RecogniseSpec.
Opaque api_mapping attribute_mapping alias_mapping wildcard_mapping matcher_classes torch_package_mapping.

Notation dot := "."%char.
Notation split := (split_on dot).

(** ** Texts and components *)
Lemma endswith_spec s p : endswith s p = true <-> exists t, s = t ++ p.
Proof.
  induction s as [|c s IH]; cbn [endswith].
  - rewrite orb_false_r. destruct (String.eqb_spec "" p) as [<-|N]; split; try discriminate.
    + exists "". reflexivity.
    + reflexivity.
    + intros [t E]. destruct t; [cbn in E; congruence|discriminate].
  - rewrite orb_true_iff, IH. destruct (String.eqb_spec (String c s) p) as [<-|N]; split.
    + exists "". reflexivity.
    + auto.
    + intros [|[t ->]]; [discriminate|]. exists (String c t). reflexivity.
    + intros [t E]. destruct t as [|d t]; [cbn in E; congruence|]. injection E as -> ->. right. eauto.
Qed.
Lemma split_tail u a : no_char dot a -> split (u ++ a) = (removelast (split u) ++ [(last (split u) "" ++ a)%string])%list.
Proof.
  intros A. induction u as [|c u IH]; cbn [append split_on].
  - cbn. apply split_on_single, A.
  - destruct (Ascii.eqb c dot) eqn:E.
    + rewrite IH. pose proof (split_on_nonempty dot u) as N. destruct (split u); [congruence|reflexivity].
    + rewrite IH. pose proof (split_on_nonempty dot u) as N. destruct (split u) as [|x [|y l]]; [congruence| |]; reflexivity.
Qed.
Lemma split_head b v : no_char dot b -> split (b ++ v) = (b ++ hd "" (split v)) :: tl (split v).
Proof.
  intros B. induction b as [|c b IH]; cbn [append split_on].
  - pose proof (split_on_nonempty dot v) as N. destruct (split v); [congruence|reflexivity].
  - destruct B as [Bc B]. destruct (Ascii.eqb_spec c dot) as [->|_]; [congruence|]. rewrite IH by exact B. reflexivity.
Qed.
Lemma split_dotted l : l <> [] -> Forall (no_char dot) l -> split (join "." l) = l.
Proof. apply split_join. Qed.
Lemma dotted_split s : join "." (split s) = s. Proof. apply join_split. Qed.

Lemma cut_at_dot x y u v : no_char dot x -> no_char dot y -> u ++ String dot v = x ++ String dot y -> u = x /\ v = y.
Proof.
  intros X Y E. apply (f_equal split) in E. rewrite !split_on_app, !(split_on_single dot x), !(split_on_single dot y) in E by assumption.
  pose proof (split_on_nonempty dot u) as NU. pose proof (split_on_nonempty dot v) as NV.
  rewrite <- (dotted_split u), <- (dotted_split v).
  destruct (split u) as [|a [|b lu]]; [congruence| |].
  - injection E as -> E. rewrite E. split; reflexivity.
  - destruct (split v) as [|c lv]; [congruence|]. apply (f_equal (@List.length string)) in E. cbn in E. rewrite app_length in E. cbn in E. lia.
Qed.

(** Two neighbours. *)
Lemma contains_pair a l : Forall (no_char dot) l -> no_char dot a ->
  contains (a ++ ".") (join "." l) = true <-> exists c, In c (removelast l) /\ endswith c a = true.
Proof.
  intros L A. rewrite contains_spec. split.
  - intros (u & v & E). destruct l as [|x l]; [destruct u; [destruct a|]; discriminate|].
    apply (f_equal split) in E. rewrite split_dotted in E by (discriminate || assumption).
    replace (u ++ (a ++ ".") ++ v) with ((u ++ a) ++ String dot v) in E by (rewrite !app_assoc_s; reflexivity).
    rewrite split_on_app, split_tail in E by exact A. exists (last (split u) "" ++ a). split.
    + rewrite E. pose proof (split_on_nonempty dot v) as N. destruct (split v) as [|y m] eqn:V; [congruence|].
      rewrite <- app_assoc. cbn [app]. rewrite removelast_app by discriminate. apply in_or_app. right. left. reflexivity.
    + apply endswith_spec. eauto.
  - intros (c & Hc & Ec). apply endswith_spec in Ec as [t ->].
    apply in_split in Hc as (l1 & l2 & E).
    assert (NE : l <> []) by (intros ->; destruct l1; discriminate).
    rewrite (app_removelast_last "" NE), E. rewrite <- app_assoc. cbn [app].
    exists (match l1 with [] => "" | _ => join "." l1 ++ "." end ++ t), (join "." (l2 ++ [last l ""])).
    assert (Z : join "." (((t ++ a)%string) :: l2 ++ [last l ""])%list = (t ++ a) ++ "." ++ join "." (l2 ++ [last l ""])%list).
    { destruct l2; cbn [app]; apply concat_cons2. }
    destruct l1 as [|y l1]; cbn [app] in *.
    + rewrite Z. rewrite !app_assoc_s. reflexivity.
    + match goal with |- context [(y :: l1 ++ ?r)%list] => change (y :: l1 ++ r)%list with ((y :: l1) ++ r)%list end.
      rewrite (join_app "." (y :: l1)) by discriminate. rewrite Z. rewrite !app_assoc_s. reflexivity.
Qed.
(** A component between two others. *)
Lemma contains_middle k l : Forall (no_char dot) l -> no_char dot k ->
  contains ("." ++ k ++ ".") (join "." l) = true <-> In k (tl (removelast l)).
Proof.
  intros L K. rewrite contains_spec. split.
  - intros (u & v & E). destruct l as [|x l]; [destruct u; discriminate|].
    apply (f_equal split) in E. rewrite split_dotted in E by (discriminate || assumption).
    replace (u ++ ("." ++ k ++ ".") ++ v) with (u ++ String dot (k ++ String dot v)) in E by (rewrite !app_assoc_s; reflexivity).
    rewrite split_on_app, split_on_app_nochar in E by exact K. rewrite E.
    pose proof (split_on_nonempty dot u) as NU. pose proof (split_on_nonempty dot v) as NV.
    destruct (split u) as [|a lu]; [congruence|]. rewrite removelast_app by discriminate. cbn [app tl].
    apply in_or_app. right. destruct (split v); [congruence|]. left. reflexivity.
  - intros H. destruct l as [|x l]; [contradiction|]. destruct l as [|y l]; [contradiction|].
    change (removelast (x :: y :: l)) with (x :: removelast (y :: l)) in H. cbn [tl] in H.
    apply in_split in H as (l1 & l2 & E). assert (NE : y :: l <> []) by discriminate.
    rewrite (app_removelast_last "" NE), E. rewrite <- app_assoc. cbn [app].
    exists (join "." (x :: l1)), (join "." (l2 ++ [last (y :: l) ""])).
    change (x :: l1 ++ k :: l2 ++ [last (y :: l) ""])%list with ((x :: l1) ++ k :: l2 ++ [last (y :: l) ""])%list.
    rewrite join_app by discriminate.
    assert (Z : join "." (k :: l2 ++ [last (y :: l) ""])%list = k ++ "." ++ join "." (l2 ++ [last (y :: l) ""])%list).
    { destruct l2; cbn [app]; apply concat_cons2. }
    rewrite Z. rewrite !app_assoc_s. reflexivity.
Qed.
(** A text without dots. *)
Lemma contains_component k l : Forall (no_char dot) l -> no_char dot k -> k <> "" ->
  contains k (join "." l) = true -> exists c, In c l /\ contains k c = true.
Proof.
  intros L K NE C. apply contains_spec in C as (u & v & E). destruct l as [|x l].
  { cbn in E. exfalso. destruct u; [destruct k; [congruence|discriminate]|discriminate]. }
  apply (f_equal split) in E. rewrite split_dotted in E by (discriminate || assumption).
  exists (last (split u) "" ++ k ++ hd "" (split v)). split.
  - rewrite E. rewrite <- (dotted_split u), <- (dotted_split v).
    pose proof (split_on_no_char dot u) as FU. pose proof (split_on_no_char dot v) as FV.
    pose proof (split_on_nonempty dot u) as NU. pose proof (split_on_nonempty dot v) as NV. rewrite !dotted_split.
    assert (Z : split (u ++ k ++ v) = (removelast (split u) ++ ((last (split u) "" ++ k ++ hd "" (split v))%string) :: tl (split v))%list).
    { clear -K NV FV. induction u as [|c u IH]; cbn [append split_on].
      - cbn. apply split_head, K.
      - destruct (Ascii.eqb c dot) eqn:E.
        + rewrite IH. pose proof (split_on_nonempty dot u) as N. destruct (split u); [congruence|reflexivity].
        + rewrite IH. pose proof (split_on_nonempty dot u) as N. destruct (split u) as [|x [|y l]]; [congruence| |]; reflexivity. }
    rewrite Z. apply in_or_app. right. left. reflexivity.
  - apply contains_spec. eauto.
Qed.
(** A package. *)
Lemma starts_package p l : l <> [] -> Forall (no_char dot) l ->
  startswith (join "." l) (p ++ ".") = true <-> exists rest, rest <> [] /\ l = (split p ++ rest)%list.
Proof.
  intros NE L. unfold startswith. rewrite prefix_spec. split.
  - intros [t E]. exists (split t). split; [apply split_on_nonempty|].
    rewrite <- (split_dotted l NE L), E. rewrite app_assoc_s. apply split_on_app.
  - intros (rest & NR & ->). exists (join "." rest). rewrite join_app by (apply split_on_nonempty || exact NR). rewrite dotted_split, app_assoc_s. reflexivity.
Qed.

(** ** The marker *)
Definition unmarked (n : string) : bool := negb (prefix "NonTorchClass" n).
Lemma tables_unmarked : forallb (fun kv => unmarked (fst kv)) alias_mapping = true /\ forallb (fun r => unmarked (r_name r)) api_mapping = true /\
  forallb (fun r => match r_name r with String p _ => negb (Ascii.eqb p "."%char) && negb (Ascii.eqb p "N"%char) | _ => false end) wildcard_mapping = true.
Proof. vm_compute. auto. Qed.
Lemma find_row_in n t r : find_row n t = Some r -> In r t /\ r_name r = n.
Proof.
  induction t as [|x t IH]; cbn [find_row]; [discriminate|]. destruct (String.eqb_spec n (r_name x)) as [->|_].
  - intros [= <-]. split; [left|]; reflexivity.
  - intros H. destruct (IH H). split; [right|]; assumption.
Qed.
Lemma marked_unknown x : in_api_mapping ("NonTorchClass" ++ x) = false.
Proof.
  destruct tables_unmarked as (TA & TB & TC).
  unfold in_api_mapping, canonical. destruct (dget String.eqb _ alias_mapping) as [t|] eqn:E.
  { apply (dget_some_in _ String.eqb_spec) in E. rewrite forallb_forall in TA. apply TA in E. cbn [fst] in E. unfold unmarked in E. rewrite prefix_app in E. discriminate. }
  destruct (find_row _ api_mapping) as [r|] eqn:F.
  { apply find_row_in in F as [F N]. rewrite forallb_forall in TB. apply TB in F. unfold unmarked in F. rewrite N, prefix_app in F. discriminate. }
  destruct (existsb _ wildcard_mapping) eqn:X; [|reflexivity]. apply existsb_exists in X as (r & I & R).
  rewrite forallb_forall in TC. apply TC in I. destruct (r_name r) as [|p pr]; [discriminate|]. apply andb_prop in I as [I1 I2].
  cbn [re_match append] in R. apply negb_true_iff in I1, I2. rewrite I1, I2 in R. discriminate.
Qed.

(** ** The text of a use *)
Lemma component_in k c l : In c l -> contains k c = true -> contains k (join "." l) = true.
Proof.
  intros I C. apply contains_spec in C as (u & v & ->). apply contains_spec. apply in_split in I as (l1 & l2 & ->).
  assert (Z : exists w, join "." ((u ++ k ++ v)%string :: l2) = (u ++ k ++ v) ++ w).
  { destruct l2 as [|y l2]; [exists ""; rewrite app_nil_r_s; reflexivity|]. exists ("." ++ join "." (y :: l2)). apply concat_cons2. }
  destruct Z as [w Z]. destruct l1 as [|x l1].
  - cbn [app]. rewrite Z. exists u, (v ++ w). rewrite !app_assoc_s. reflexivity.
  - rewrite join_app by discriminate. rewrite Z. exists (join "." (x :: l1) ++ "." ++ u), (v ++ w). rewrite !app_assoc_s. reflexivity.
Qed.

Section Facts.
Context {M : Type}.
Variable e : benv M.

Lemma elsewhere_black i : elsewhere e i = mem_str i (black_list e). Proof. reflexivity. Qed.
Lemma spelling_text n :
  match spelling e n with
  | Some l => l <> [] /\ full_attr_strict e n = dotted l
  | None => exists x, full_attr_strict e n = "NonTorchClass" ++ x /\ (x = "" \/ exists y, x = String dot y)
  end.
Proof.
  induction n; cbn [spelling full_attr_strict]; try (exists ""; split; [reflexivity|auto]).
  - rewrite elsewhere_black. destruct (mem_str id (black_list e)); cbn [orb]; [exists ""; auto|].
    destruct (String.eqb id "paddle"); [exists ""; auto|]. split; [discriminate|reflexivity].
  - rewrite elsewhere_black. destruct (mem_str attr (black_list e)); [exists ""; auto|].
    destruct (spelling e n) as [l|]; cbn [option_map].
    + destruct IHn as [NE ->]. split; [destruct l; discriminate|]. unfold dotted. rewrite join_app by (assumption || discriminate). reflexivity.
    + destruct IHn as (x & -> & H). exists (x ++ "." ++ attr). split; [rewrite !app_assoc_s; reflexivity|]. right. destruct H as [->|[y ->]]; eexists; reflexivity.
  - unfold some_value. fold (black_list e). destruct (existsb _ _); [exists ""; auto|]. split; [discriminate|reflexivity].
  - unfold some_value. fold (black_list e). destruct (mem_str kind _); [|exists ""; auto].
    destruct (existsb _ _); [exists ""; auto|]. split; [discriminate|reflexivity].
Qed.

Hypothesis PF : plain_file e.

(** Nothing marked is recognised. *)
Lemma marked_foreign x : (x = "" \/ exists y, x = String dot y) ->
  replace_torch_module e ("NonTorchClass" ++ x) = Ok ("NonTorchClass" ++ x) /\
  start_with_torch e ("NonTorchClass" ++ x) = false /\ contains "NonTorchClass" ("NonTorchClass" ++ x) = true.
Proof.
  intros X. destruct PF as [PI PT].
  assert (H : exists rest, split ("NonTorchClass" ++ x) = "NonTorchClass" :: rest).
  { destruct X as [-> | [y ->]]; [exists []; reflexivity|]. eexists. rewrite split_on_app. reflexivity. }
  destruct H as [rest H]. repeat split.
  - unfold replace_torch_module. rewrite H. destruct (dget _ _ _) as [full|] eqn:E; [destruct (PI _ _ E); congruence|reflexivity].
  - destruct (start_with_torch e _) eqn:S; [|reflexivity]. unfold start_with_torch in S. apply existsb_exists in S as (p & I & S).
    unfold startswith in S. apply prefix_spec in S as [t S]. apply (f_equal split) in S. rewrite H in S.
    replace ((p ++ ".") ++ t) with (p ++ String dot t) in S by (rewrite app_assoc_s; reflexivity). rewrite split_on_app in S.
    pose proof (split_on_nonempty dot p) as N. destruct (split p) as [|h r] eqn:P; [congruence|]. cbn [app] in S. injection S as S _.
    pose proof (PT p I) as C. rewrite <- (dotted_split p), P in C. rewrite (component_in "NonTorchClass" h) in C; [discriminate|left; reflexivity|]. rewrite <- S. reflexivity.
  - apply contains_spec. exists "", x. reflexivity.
Qed.

Lemma resolved_text l : l <> [] -> Forall plain l -> ~ (exists h rest, l = h :: rest /\ In h bookkeeping) ->
  replace_torch_module e (dotted l) = Ok (dotted (resolved e l)) /\ resolved e l <> [] /\ Forall plain (resolved e l).
Proof.
  intros NE PL NB. destruct PF as [PI _].
  assert (ND : Forall (no_char dot) l) by (eapply Forall_impl; [|exact PL]; intros a [H _]; exact H).
  unfold replace_torch_module, dotted. rewrite split_dotted by assumption. destruct l as [|h rest]; [congruence|].
  cbn [resolved]. destruct (dget _ _ _) as [full|] eqn:E.
  - destruct (PI _ _ E) as [_ C]. repeat split.
    + destruct rest as [|y rest].
      * rewrite app_nil_r, dotted_split. reflexivity.
      * rewrite join_app by (apply split_on_nonempty || discriminate). rewrite dotted_split. reflexivity.
    + pose proof (split_on_nonempty dot full). destruct (split full); [congruence|discriminate].
    + apply Forall_app. inversion PL; subst. split; [|assumption]. pose proof (split_on_no_char dot full) as F. rewrite Forall_forall in F |- *.
      intros c I. split; [apply F, I|]. destruct (contains "NonTorchClass" c) eqn:K; [|reflexivity].
      rewrite <- (dotted_split full), (component_in _ c) in C; [discriminate|exact I|exact K].
  - destruct (mem_str h bookkeeping) eqn:B; [|auto]. apply mem_str_In in B. exfalso. apply NB. eauto.
Qed.

Lemma in_torch_text l : l <> [] -> Forall (no_char dot) l -> start_with_torch e (dotted l) = true <-> in_torch e l.
Proof.
  intros NE ND. unfold start_with_torch, in_torch. rewrite existsb_exists. split.
  - intros (p & I & S). apply starts_package in S as (rest & NR & ->); eauto.
  - intros (p & rest & I & NR & E). exists p. split; [exact I|]. apply starts_package; eauto.
Qed.

(** ** The classes tried *)
Definition self_text (l : list string) : bool := contains "self." (dotted l).
Definition deep_text (called : bool) (l : list string) : bool :=
  existsb (fun k => contains ("." ++ k ++ ".") (dotted l)) (if called then ["T"; "weight"; "bias"] else ["T"; "data"; "real"; "imag"; "weight"; "bias"]).
Lemma self_text_spec l : Forall (no_char dot) l -> self_text l = true <-> of_self l.
Proof. intros ND. apply (contains_pair "self" l ND). repeat split; discriminate. Qed.
Lemma deep_text_spec called l : Forall (no_char dot) l ->
  deep_text called l = true <-> exists k, through l k /\ In k (if called then ["T"; "weight"; "bias"] else ["T"; "data"; "real"; "imag"; "weight"; "bias"]).
Proof.
  intros ND. unfold deep_text. rewrite existsb_exists.
  assert (Z : forall k, In k (if called then ["T"; "weight"; "bias"] else ["T"; "data"; "real"; "imag"; "weight"; "bias"]) -> no_char dot k).
  { intros k I. destruct called; cbn in I; repeat (destruct I as [<-|I]; [repeat split; discriminate|]); contradiction. }
  split; intros (k & A & B); exists k; split; try assumption.
  - apply contains_middle in B; auto.
  - apply contains_middle; auto.
Qed.
Definition tried (called : bool) (l : list string) (c : string) : bool :=
  let two := (List.length l =? 2)%nat in let long := (2 <? List.length l)%nat in
  if String.eqb c "torch.Tensor" then (two && negb (self_text l)) || (long && (self_text l || deep_text called l))
  else if String.eqb c "torch.autograd.function.FunctionCtx" then two && negb (self_text l)
  else if String.eqb c "torch.distributions.distribution.Distribution" then called && two && negb (self_text l)
  else if String.eqb c "torch.nn.Module" then called && (two || (long && self_text l))
  else if String.eqb c "torch.optim.Optimizer" then called && (two || (long && self_text l)) else false.
Lemma tried_member called l c : Forall (no_char dot) l -> tried called l c = true <-> member called l c.
Proof.
  intros ND. unfold tried. pose proof (self_text_spec l ND) as S. pose proof (deep_text_spec called l ND) as D.
  assert (S' : self_text l = false <-> ~ of_self l) by (rewrite <- S; destruct (self_text l); split; congruence).
  split.
  - intros T.
    destruct (String.eqb_spec c "torch.Tensor") as [->|_].
    { apply orb_prop in T as [T|T]; apply andb_prop in T as [T1 T2].
      - apply Nat.eqb_eq in T1. apply negb_true_iff, S' in T2. apply own_tensor; assumption.
      - apply Nat.ltb_lt in T1. apply orb_prop in T2 as [T2|T2].
        + apply self_tensor; [assumption|apply S, T2].
        + apply D in T2 as (k & A & B). eapply deep_tensor; eauto. }
    destruct (String.eqb_spec c "torch.autograd.function.FunctionCtx") as [->|_].
    { apply andb_prop in T as [T1 T2]. apply Nat.eqb_eq in T1. apply negb_true_iff, S' in T2. apply own_context; assumption. }
    destruct (String.eqb_spec c "torch.distributions.distribution.Distribution") as [->|_].
    { apply andb_prop in T as [T1 T2]. apply andb_prop in T1 as [T0 T1]. apply Nat.eqb_eq in T1. apply negb_true_iff, S' in T2. apply own_distribution; assumption. }
    destruct (String.eqb_spec c "torch.nn.Module") as [->|_].
    { apply andb_prop in T as [T0 T]. apply orb_prop in T as [T|T].
      - apply Nat.eqb_eq in T. apply own_module; assumption.
      - apply andb_prop in T as [T1 T2]. apply Nat.ltb_lt in T1. apply self_module; [assumption|assumption|apply S, T2]. }
    destruct (String.eqb_spec c "torch.optim.Optimizer") as [->|_]; [|discriminate].
    { apply andb_prop in T as [T0 T]. apply orb_prop in T as [T|T].
      - apply Nat.eqb_eq in T. apply own_optimizer; assumption.
      - apply andb_prop in T as [T1 T2]. apply Nat.ltb_lt in T1. apply self_optimizer; [assumption|assumption|apply S, T2]. }
  - intros [H1 H2|H1 H2|HC H1|HC H1|HC H1 H2|H1 H2|HC H1 H2|HC H1 H2|k H1 H2 H3]; try rewrite HC; cbn [String.eqb Ascii.eqb Bool.eqb andb].
    all: try (apply S' in H2; rewrite H2). all: try (apply S in H2; rewrite H2).
    all: try (rewrite H1). all: try (apply Nat.ltb_lt in H1; rewrite H1). all: try reflexivity.
    all: try (rewrite orb_true_r; reflexivity).
    + assert (Z : deep_text called l = true) by (apply D; eauto). rewrite Z, orb_true_r. cbn [andb]. apply orb_true_r.
Qed.
Definition candidates (called : bool) (l : list string) : list string :=
  map (fun c => c ++ "." ++ last l "") (filter (tried called l) classes).
Lemma class_methods_candidates l : l <> [] -> Forall (no_char dot) l -> class_methods (dotted l) = candidates true l.
Proof.
  intros NE ND. unfold class_methods, candidates, classes, tried, self_text, deep_text, dotted. rewrite split_dotted by assumption.
  cbn [filter String.eqb Ascii.eqb Bool.eqb existsb append andb].
  destruct (2 <? List.length l)%nat eqn:L2; destruct (List.length l =? 2)%nat eqn:E2; try (apply Nat.ltb_lt in L2; apply Nat.eqb_eq in E2; lia); cbn [andb orb negb].
  - destruct (contains "self." (join "." l)); cbn [andb orb negb map append]; [reflexivity|].
    destruct (contains ".T." (join "." l)), (contains ".weight." (join "." l)), (contains ".bias." (join "." l)); reflexivity.
  - destruct (contains "self." (join "." l)); reflexivity.
  - reflexivity.
Qed.
Lemma class_attributes_candidates l : l <> [] -> Forall (no_char dot) l -> class_attributes (dotted l) = candidates false l.
Proof.
  intros NE ND. unfold class_attributes, candidates, classes, tried, self_text, deep_text, dotted. rewrite split_dotted by assumption.
  cbn [filter String.eqb Ascii.eqb Bool.eqb existsb append andb].
  destruct (2 <? List.length l)%nat eqn:L2; destruct (List.length l =? 2)%nat eqn:E2; try (apply Nat.ltb_lt in L2; apply Nat.eqb_eq in E2; lia); cbn [andb orb negb].
  - match goal with |- (if ?b then _ else _) = _ => destruct b end; reflexivity.
  - destruct (contains "self." (join "." l)); reflexivity.
  - reflexivity.
Qed.
Lemma first_candidate called P l : Forall (no_char dot) l ->
  match find P (candidates called l) with
  | Some a => exists before c after, classes = (before ++ c :: after)%list /\ a = c ++ "." ++ last l "" /\
      (member called l c /\ P (c ++ "." ++ last l "") = true) /\
      forall c', In c' before -> ~ (member called l c' /\ P (c' ++ "." ++ last l "") = true)
  | None => forall c, In c classes -> ~ (member called l c /\ P (c ++ "." ++ last l "") = true)
  end.
Proof.
  intros ND. unfold candidates. induction classes as [|c0 cs IH]; cbn [filter map find]; [intros c []|].
  pose proof (tried_member called l c0 ND) as TM.
  assert (K : ~ (member called l c0 /\ P (c0 ++ "." ++ last l "") = true) ->
    match find P (map (fun c => c ++ "." ++ last l "") (filter (tried called l) cs)) with
    | Some a => exists before c after, c0 :: cs = (before ++ c :: after)%list /\ a = c ++ "." ++ last l "" /\
        (member called l c /\ P (c ++ "." ++ last l "") = true) /\
        forall c', In c' before -> ~ (member called l c' /\ P (c' ++ "." ++ last l "") = true)
    | None => forall c, In c (c0 :: cs) -> ~ (member called l c /\ P (c ++ "." ++ last l "") = true)
    end).
  { intros N. destruct (find P _) as [a|].
    - destruct IH as (before & c & after & E & A & C & B). exists (c0 :: before), c, after. rewrite E. repeat split; try assumption; try apply C.
      intros c' [<-|I]; auto.
    - intros c [<-|I]; auto. }
  destruct (tried called l c0) eqn:T.
  - cbn [map find]. destruct (P (c0 ++ "." ++ last l "")) eqn:Q.
    + exists [], c0, cs. repeat split; try assumption; [apply TM; reflexivity|]. intros c' [].
    + apply K. intros [_ H]. congruence.
  - apply K. intros [H _]. apply TM in H. congruence.
Qed.

(** ** The two visitors *)
Theorem call_recognised f args kws st s : plain_use e f ->
  exists r, stands_for e true f r /\
    match r with
    | Package api => exists l, spelling e f = Some l /\ finish_call e f args kws st s = visit_torch_call e f args kws api (dotted l) st s
    | Member api => exists l, spelling e f = Some l /\ finish_call e f args kws st s = trans_class_method e f args kws api (dotted l) st (recognise api s)
    | Nothing => finish_call e f args kws st s = Ok (Reply (VNode (Call f args kws)), s)
    end.
Proof.
  intros PU. unfold finish_call, stands_for, components, get_full_attr_strict.
  assert (MK : forall x, (x = "" \/ exists y, x = String dot y) ->
     (let* full := replace_torch_module e ("NonTorchClass" ++ x) in
      if start_with_torch e full || in_api_mapping full then visit_torch_call e f args kws full ("NonTorchClass" ++ x) st s
      else if contains "NonTorchClass" full then Ok (Reply (VNode (Call f args kws)), s)
      else match find in_api_mapping (class_methods full) with
           | Some api => trans_class_method e f args kws api ("NonTorchClass" ++ x) st (recognise api s)
           | None => Ok (Reply (VNode (Call f args kws)), s) end) = Ok (Reply (VNode (Call f args kws)), s)).
  { intros x X. destruct (marked_foreign x X) as (R & S & C). rewrite R. cbn [bind]. rewrite S, marked_unknown, C. reflexivity. }
  destruct (torch_packages (file_imports e)) as [|tp tps] eqn:TP.
  { exists Nothing. split; [reflexivity|]. apply (MK ""); auto. }
  pose proof (spelling_text f) as ST. unfold plain_use in PU. destruct (spelling e f) as [l|] eqn:SP; cbn [option_map].
  2:{ exists Nothing. split; [reflexivity|]. destruct ST as (x & E & X). rewrite E. apply MK; auto. }
  destruct ST as [NE E]. rewrite E. destruct (PU l eq_refl) as [PL NB]. destruct (resolved_text l NE PL NB) as (R & RN & RP). rewrite R. cbn [bind].
  assert (ND : Forall (no_char dot) (resolved e l)) by (eapply Forall_impl; [|exact RP]; intros a [H _]; exact H).
  pose proof (in_torch_text (resolved e l) RN ND) as IT.
  destruct (start_with_torch e (dotted (resolved e l)) || in_api_mapping (dotted (resolved e l))) eqn:B.
  { exists (Package (dotted (resolved e l))). split; [|eauto]. split; [|reflexivity]. apply orb_prop in B as [B|B]; [left; apply IT, B|right; split; [reflexivity|exact B]]. }
  apply orb_false_iff in B as [B1 B2].
  assert (NP : ~ (in_torch e (resolved e l) \/ true = true /\ known true (dotted (resolved e l)))).
  { intros [H|[_ H]]; [apply IT in H; congruence|]. unfold known in H. congruence. }
  assert (NC : contains "NonTorchClass" (dotted (resolved e l)) = false).
  { destruct (contains _ _) eqn:C; [|reflexivity]. apply contains_component in C as (c & I & C); [|exact ND|repeat split; discriminate|discriminate].
    rewrite Forall_forall in RP. destruct (RP c I). congruence. }
  rewrite NC, class_methods_candidates by assumption.
  pose proof (first_candidate true in_api_mapping (resolved e l) ND) as FC. destruct (find _ _) as [api|].
  - exists (Member api). split; [split; [exact NP|exact FC]|eauto].
  - exists Nothing. split; [split; [exact NP|exact FC]|reflexivity].
Qed.

Theorem attribute_recognised n st s p : parent st = Ok p -> ~ (exists f a k, p = Call f a k /\ field_is "func" (here st) = true) -> plain_use e n ->
  exists r, stands_for e false n r /\
    match r with
    | Package api => exists l, spelling e n = Some l /\ finish_attribute e n st s = visit_torch_attribute e n api (dotted l) st s
    | Member api => exists l, spelling e n = Some l /\ finish_attribute e n st s = trans_class_attribute e n api (dotted l) st (recognise api s)
    | Nothing => finish_attribute e n st s = Ok (Reply (VNode n), s)
    end.
Proof.
  intros PP NF PU. unfold finish_attribute, stands_for, components, get_full_attr_strict. rewrite PP. cbn [bind].
  assert (G : (match p with Call _ _ _ => true | _ => false end) && field_is "func" (here st) = false).
  { destruct p; try reflexivity. destruct (field_is "func" (here st)) eqn:F; [|reflexivity]. exfalso. apply NF. eauto 6. }
  rewrite G.
  assert (MK : forall x, (x = "" \/ exists y, x = String dot y) ->
     (let* full := replace_torch_module e ("NonTorchClass" ++ x) in
      if start_with_torch e full then visit_torch_attribute e n full ("NonTorchClass" ++ x) st s
      else if contains "NonTorchClass" full then Ok (Reply (VNode n), s)
      else match find in_attribute_mapping (class_attributes full) with
           | Some api => trans_class_attribute e n api ("NonTorchClass" ++ x) st (recognise api s)
           | None => Ok (Reply (VNode n), s) end) = Ok (Reply (VNode n), s)).
  { intros x X. destruct (marked_foreign x X) as (R & S & C). rewrite R. cbn [bind]. rewrite S, C. reflexivity. }
  destruct (torch_packages (file_imports e)) as [|tp tps] eqn:TP.
  { exists Nothing. split; [reflexivity|]. apply (MK ""); auto. }
  pose proof (spelling_text n) as ST. unfold plain_use in PU. destruct (spelling e n) as [l|] eqn:SP; cbn [option_map].
  2:{ exists Nothing. split; [reflexivity|]. destruct ST as (x & E & X). rewrite E. apply MK; auto. }
  destruct ST as [NE E]. rewrite E. destruct (PU l eq_refl) as [PL NB]. destruct (resolved_text l NE PL NB) as (R & RN & RP). rewrite R. cbn [bind].
  assert (ND : Forall (no_char dot) (resolved e l)) by (eapply Forall_impl; [|exact RP]; intros a [H _]; exact H).
  pose proof (in_torch_text (resolved e l) RN ND) as IT.
  destruct (start_with_torch e (dotted (resolved e l))) eqn:B.
  { exists (Package (dotted (resolved e l))). split; [|eauto]. split; [|reflexivity]. left. apply IT, eq_refl. }
  assert (NP : ~ (in_torch e (resolved e l) \/ false = true /\ known true (dotted (resolved e l)))).
  { intros [H|[H _]]; [apply IT in H; congruence|discriminate]. }
  assert (NC : contains "NonTorchClass" (dotted (resolved e l)) = false).
  { destruct (contains _ _) eqn:C; [|reflexivity]. apply contains_component in C as (c & I & C); [|exact ND|repeat split; discriminate|discriminate].
    rewrite Forall_forall in RP. destruct (RP c I). congruence. }
  rewrite NC, class_attributes_candidates by assumption.
  pose proof (first_candidate false in_attribute_mapping (resolved e l) ND) as FC. destruct (find _ _) as [api|].
  - exists (Member api). split; [split; [exact NP|exact FC]|eauto].
  - exists Nothing. split; [split; [exact NP|exact FC]|reflexivity].
Qed.

Lemma stands_for_functional called n r r' : stands_for e called n r -> stands_for e called n r' -> r = r'.
Proof.
  unfold stands_for. destruct (components e n) as [l|]; [|congruence].
  destruct r, r'; try tauto.
  - intros [_ ->] [_ ->]. reflexivity.
  - intros (_ & b & c & a & E & -> & C & B) (_ & b' & c' & a' & E' & -> & C' & B').
    enough (c = c') by (subst; reflexivity).
    rewrite E in E'. clear E. revert b' B' E'. induction b as [|x b IH]; intros [|x' b'] B' E'; cbn [app] in E'; injection E' as Ex E'; subst.
    + reflexivity.
    + exfalso. apply (B' x'); [left; reflexivity|exact C].
    + exfalso. apply (B c'); [left; reflexivity|exact C'].
    + apply (IH (fun c I => B c (or_intror I)) b' (fun c I => B' c (or_intror I)) E').
  - intros (_ & b & c & a & E & -> & C & B) (_ & H). exfalso. apply (H c); [rewrite E; apply in_or_app; right; left; reflexivity|exact C].
  - intros (_ & H) (_ & b & c & a & E & -> & C & B). exfalso. apply (H c); [rewrite E; apply in_or_app; right; left; reflexivity|exact C].
Qed.
End Facts.

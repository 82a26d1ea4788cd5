(** C68: what the conversion pass may change in a file. *)
From Coq Require Import ZArith.
From Verif Require Import PyStr PyDict TablesData Lookup Args LookupSpec Ast ImportPass ImportSpec ImportFacts Walk
  BasicPass BasicSpec BasicFacts Converter QuietSpec ConvSpec ConvFacts PropertiesConverter PropertiesTraversal.
Open Scope string_scope.

(** Names, attributes and calls are rewritten and statements are inserted into blocks;
    everything else stays, in its order.  In particular no statement is lost. *)
Theorem C68_only_expressions_rewritten : forall M (e : benv M) limit root s root' s',
  deletes_nothing e -> well_formed root ->
  basic_transform e limit root s = Ok (root', s') -> conv root root'.
Proof.
  intros M e limit root s root' s' D W H. unfold basic_transform in H.
  destruct (basic_walk e limit root (At "" 0) ([], s)) as [[r [st s1]]|] eqn:E; [|discriminate]. cbn [bind] in H.
  apply (walk_conv e D) in E.
  - destruct E as (n' & -> & C). injection H as <- _. exact C.
  - intros k fs I. apply (proj1 W k fs I).
Qed.
Print Assumptions C68_only_expressions_rewritten.

(** The tables shipped ask for no deletion: no row names the matcher that deletes, none has the name "delete". *)
Lemma no_row_deletes : forallb (fun r => negb (match r_matcher r with Some m => String.eqb m "DeleteMatcher" | None => false end)
                                         && negb (match paddle_api (r_entry r) with Some p => String.eqb p "delete" | None => false end)) shipped = true.
Proof. vm_compute. reflexivity. Qed.
Theorem C68_shipped_rows_delete_nothing : forall r, In r shipped ->
  r_matcher r <> Some "DeleteMatcher" /\ paddle_api (r_entry r) <> Some "delete".
Proof.
  intros r I. pose proof (proj1 (forallb_forall _ _) no_row_deletes r I) as H. apply andb_prop in H as [A B]. split.
  - intros E. rewrite E in A. discriminate A.
  - intros E. rewrite E in B. discriminate B.
Qed.
Print Assumptions C68_shipped_rows_delete_nothing.

Example C68_nonvacuous : deletes_nothing ex_env /\ well_formed ex_nested /\
  exists root' s', basic_transform ex_env 100 ex_nested ex_state = Ok (root', s') /\ root' <> ex_nested.
Proof.
  split; [repeat split; intros; cbn; try destruct (Nat.eqb _ _); discriminate|]. split.
  - repeat split.
    + intros [<-|[<-|[]]]; revert H; cbn; intuition discriminate.
    + intros ->. revert H. cbn. intuition discriminate.
    + intros names H ->. revert H. cbn. intuition discriminate.
    + intros m names lv H ->. revert H. cbn. intuition discriminate.
  - eexists _, _. split; [vm_compute; reflexivity|]. discriminate.
Qed.

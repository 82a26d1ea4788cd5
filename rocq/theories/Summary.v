(** main.py:144-206: the summary printed after [--separate_convert].  Definitions only.  Not
    here: the Excel file. *)
From Coq Require Import ZArith QArith.
From Verif Require Import PyStr PyDict Ast BasicPass Converter Shipped Program Main Report.
From Verif Require FileTree.
Open Scope string_scope.

Section Summary.
(** The rounding of floating point arithmetic. *)
Variable round : Q -> Q.

(** main.py:145-148, 166-172: the counters and the dict of rates; the rates and the literals
    0.95 and 0.90 are floating point numbers. *)
Definition count_rate (s : summary) (p : string * conv world) : summary :=
  let r := float_rate round (snd p) in
  MkSummary (at_100 s + (if Qeq_bool r 1 then 1 else 0))
            (at_95 s + (if Qle_bool (round (95 # 100)) r then 1 else 0))
            (at_90 s + (if Qle_bool (round (90 # 100)) r then 1 else 0))
            (dset String.eqb (fst p) r (rate_map s)).
Definition counted (l : list (string * conv world)) : summary := fold_left count_rate l (MkSummary 0 0 0 []).

(** "{}({:.2%})".format(k, k / n) *)
Definition share (k n : nat) : string :=
  nat_to_str k ++ "(" ++ percent round (round (Z.of_nat k # Z.to_pos (Z.of_nat n))) ++ ")".
(** main.py:174-193.  [n]: len(os.listdir(in_dir)); the division fails if that is 0. *)
Definition printed_summary (n : nat) (l : list (string * conv world)) : res (list string) :=
  let s := counted l in
  match n with
  | O => Raise "ZeroDivisionError"
  | _ =>
      Ok (([nls ++ "=============================================="; "Convert Summary"; "==============================================";
           "Convert rate of each project is:" ++ nls])%string ++
          map (fun kv => ("  " ++ fst kv ++ ": " ++ percent round (snd kv))%string) (rate_map s) ++
          ([nls ++ "In Total, there are " ++ nat_to_str n ++ " Pytorch Projects:" ++ nls ++
           " : " ++ share (at_100 s) n ++ " Project's Convert-Rate is 100%" ++ nls ++
           " : " ++ share (at_95 s) n ++ " Project's Convert-Rate >=95%" ++ nls ++
           " : " ++ share (at_90 s) n ++ " Project's Convert-Rate >=90%"])%string)%list
  end.

(** main.py:144-202: the projects are converted, the directory is listed a second time, the
    summary is printed.  What is printed before an exception is left out. *)
Definition separate_output (L : libraries) (cwd package : FileTree.path) (o : options) (base : FileTree.path) : FileTree.act (list string) :=
  FileTree.bind (command L cwd package o) (fun r =>
  FileTree.see (fun f =>
    match printed_summary (List.length (FileTree.names f base)) r with
    | Ok l => FileTree.ret l
    | Raise e => FileTree.fail e
    end)).
End Summary.

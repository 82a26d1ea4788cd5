(** Model of [UniqueNameGenerator] and [UtilsFileHelper] (paconvert/utils.py).
    Definitions only. *)
From Verif Require Import PyStr PyDict.

(** * Fresh names: utils.py:22-36 *)

(** State: [self.ids], a defaultdict(int). *)
Definition ids := dict string nat.

(** [__call__]: returns ["_".join([key, str(counter)])] and bumps the counter. *)
Definition unique_name (st : ids) (key : string) : ids * string :=
  let counter := match dget String.eqb key st with Some n => n | None => 0 end in
  (dset String.eqb key (S counter) st, join "_" [key; nat_to_str counter]).

Fixpoint unique_names (st : ids) (keys : list string) : list string :=
  match keys with
  | [] => []
  | k :: ks => let (st', n) := unique_name st k in n :: unique_names st' ks
  end.

(** * Helper registry: utils.py:39-186 *)

Record helper := MkHelper {
  file_name : option string;      (* self.fileName; None or "" disables it *)
  dir_mode : bool;                (* self.is_dir_mode *)
  code_map : dict Z string        (* self.code_map *)
}.

(** utils.py:54-67: [__new__] / [__init__]: the first construction fixes the
    attributes, later ones return the same object untouched. *)
Definition construct (inst : option helper) (file : option string) (dirm : bool) : helper :=
  match inst with
  | Some h => h
  | None => MkHelper file dirm []
  end.

(** [if not self.fileName] *)
Definition has_file (h : helper) : bool :=
  match file_name h with
  | Some f => negb (String.eqb f "")
  | None => false
  end.

Section WithHash.
  Variable hash : string -> Z.    (* Python's hash() on str *)

  (** utils.py:69-73 [_get_code_hash].  The loop need not terminate: [None] is
      "still looping after [fuel] iterations". *)
  Fixpoint probe (fuel : nat) (cm : dict Z string) (code : string) (base : Z) : option Z :=
    match dget Z.eqb base cm with
    | None => Some base
    | Some c =>
        if String.eqb c code then Some base
        else match fuel with
             | O => None
             | S f => probe f cm code (hash (code ++ "_" ++ nat_to_str (List.length cm)))
             end
    end.

  Definition get_code_hash (fuel : nat) (cm : dict Z string) (code : string) : option Z :=
    probe fuel cm code (hash code).

  Inductive add_result :=
  | NotAdded                       (* returns None: no file name *)
  | Added (h : helper) (key : Z)
  | StillLooping.                  (* fuel exhausted *)

  (** utils.py:75-86 [add_code]. *)
  Definition add_code (fuel : nat) (h : helper) (code : string) : add_result :=
    if has_file h then
      let code := rstrip_by (Ascii.eqb nl) code in
      match get_code_hash fuel (code_map h) code with
      | None => StillLooping
      | Some k =>
          if dmem Z.eqb k (code_map h) then Added h k
          else Added (MkHelper (file_name h) (dir_mode h) (dset Z.eqb k code (code_map h))) k
      end
    else NotAdded.

  (** A sequence of registrations; [None] if one of them does not terminate
      within [fuel] or the helper has no file. *)
  Fixpoint add_all (fuel : nat) (h : helper) (codes : list string) : option helper :=
    match codes with
    | [] => Some h
    | c :: cs => match add_code fuel h c with
                 | Added h' _ => add_all fuel h' cs
                 | _ => None
                 end
    end.
End WithHash.

(** * Insertion point: utils.py:88-132 [_find_import_insert_idx] *)

Definition bs_end (l : string) : bool := endswith (py_rstrip l) "\".
Definition paren_delta (l : string) : Z :=
  (Z.of_nat (py_count l "(") - Z.of_nat (py_count l ")"))%Z.
Definition has_paren (l : string) : bool := contains "(" l || contains ")" l.

(** Lines 106-108, the loop after an [import] line.  [None] = IndexError or out
    of fuel. *)
Fixpoint import_loop (fuel : nat) (lines : list string) (i ins : nat) : option (nat * nat) :=
  match fuel with
  | O => None
  | S f =>
      if (i <? List.length lines)%nat then
        match nth_error lines (i - 1) with
        | None => None
        | Some p => if bs_end p then import_loop f lines (S i) (S i) else Some (i, ins)
        end
      else Some (i, ins)
  end.

(** Lines 116-129, the loop after a [from] line. *)
Fixpoint from_loop (fuel : nat) (lines : list string) (i ins : nat)
    (depth : Z) (saw : bool) : option (nat * nat) :=
  match fuel with
  | O => None
  | S f =>
      if (i <? List.length lines)%nat then
        match nth_error lines (i - 1), nth_error lines i with
        | Some p, Some cur =>
            if negb (bs_end p) && negb (saw && (0 <? depth)%Z) then Some (i, ins)
            else from_loop f lines (S i) (S i) (depth + paren_delta cur)%Z (saw || has_paren cur)
        | _, _ => None
        end
      else Some (i, ins)
  end.

(** The outer loop, lines 93-132. *)
Fixpoint find_loop (fuel : nat) (lines : list string) (i ins : nat) : option nat :=
  match fuel with
  | O => None
  | S f =>
      if (i <? List.length lines)%nat then
        match nth_error lines i with
        | None => None
        | Some line =>
            let stripped := py_strip line in
            if String.eqb stripped "" || startswith stripped "#" then find_loop f lines (S i) ins
            else if startswith stripped "import " then
              match import_loop (S (List.length lines)) lines (S i) (S i) with
              | Some (i', ins') => find_loop f lines i' ins'
              | None => None
              end
            else if startswith stripped "from " then
              match from_loop (S (List.length lines)) lines (S i) (S i) (paren_delta line) (has_paren line) with
              | Some (i', ins') => find_loop f lines i' ins'
              | None => None
              end
            else Some ins
        end
      else Some ins
  end.

Definition find_import_insert_idx (lines : list string) : option nat :=
  find_loop (S (List.length lines)) lines 0 0.

(** * Writing: utils.py:134-186 [write_code] *)

(** utils.py:43-53. *)
Definition START_CONTENT : string :=
  nls ++ "############################## 相关utils函数，如下 ##############################".
Definition INIT_CONTENT : string :=
  "############################ PaConvert 自动生成的代码 ###########################".
Definition END_CONTENT : string :=
  "############################## 相关utils函数，如上 ##############################" ++ nls ++ nls.

(** utils.py:144-151. *)
Definition insert_code (h : helper) : string :=
  join nls ((if dir_mode h then [(nls ++ "import paddle" ++ nls)%string; START_CONTENT; INIT_CONTENT]
             else [START_CONTENT])
            ++ dvals (code_map h) ++ [END_CONTENT])%list.

(** utils.py:158-170, the text before [isort]. *)
Definition splice (lines : list string) (k : nat) (block : string) : string :=
  join nls (firstn k lines) ++ block ++ join nls (skipn k lines).

Inductive write_result :=
| NoWrite                                    (* early return *)
| Written (content : string) (h : helper)    (* new file content, new state *)
| WriteCrash.                                (* exception *)

Section WithIsort.
  Variable isort : string -> option string.   (* isort.code; None = exception, skipped *)

  Definition format (s : string) : string :=
    match isort s with Some t => t | None => s end.

  (** [existing] is the content of [fileName], as read in text mode, if the file
      exists.  The real file write and [os.makedirs] are not modelled: the result
      is the content handed to [f.write]. *)
  Definition write_code (h : helper) (existing : option string) : write_result :=
    if has_file h then
      match code_map h with
      | [] => NoWrite
      | _ =>
          let done := MkHelper (file_name h) (dir_mode h) [] in
          if dir_mode h then Written (format (insert_code h)) done
          else match existing with
               | None => WriteCrash
               | Some content =>
                   let lines := splitlines content in
                   match find_import_insert_idx lines with
                   | None => WriteCrash
                   | Some k => Written (format (splice lines k (insert_code h))) done
                   end
               end
      end
    else NoWrite.
End WithIsort.

(** * One conversion: converter.py:117-129
    [UtilsFileHelper(file, is_dir_mode)], the registrations made while the files
    are converted, [write_code()].  Result: what was written where (if anything),
    and the instance left for the next conversion in the same process. *)
Record job := MkJob {
  job_file : string; job_dir : bool; job_codes : list string;
  job_existing : option string     (* content of the file [write_code] reads *)
}.

Definition run_job (hash : string -> Z) (isort : string -> option string) (fuel : nat)
    (inst : option helper) (j : job) : option (option (option string * string) * helper) :=
  let h := construct inst (Some (job_file j)) (job_dir j) in
  match add_all hash fuel h (job_codes j) with
  | None => None
  | Some h' =>
      match write_code isort h' (job_existing j) with
      | NoWrite => Some (None, h')
      | Written c h2 => Some (Some (file_name h', c), h2)
      | WriteCrash => None
      end
  end.

Fixpoint run_jobs (hash : string -> Z) (isort : string -> option string) (fuel : nat)
    (inst : option helper) (js : list job) : option (list (option (option string * string))) :=
  match js with
  | [] => Some []
  | j :: r => match run_job hash isort fuel inst j with
              | None => None
              | Some (w, h) => match run_jobs hash isort fuel (Some h) r with
                               | None => None
                               | Some ws => Some (w :: ws)
                               end
              end
  end.

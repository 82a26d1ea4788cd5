(** Symbolic execution of the programs of Generate.v, for all calls of one row of the
    table at once.  This is a proof device, not a model of the code: GenerateSound.v
    proves that every concrete run is an instance of one of the results.
    Definitions only. *)
From Verif Require Import PyStr PyDict Args Generate.

(** Symbolic texts.  [AArg k]: text of the argument [k]; [AFresh k]: a generated name;
    [AJoin es]: "k=v, k=v" of a dictionary, in the order of that dictionary. *)
Inductive apiece :=
| ALit (s : string) | AArg (k : string) | ARecv | AFresh (k : string)
| AEdit (f : edit) (l : list apiece)
| AJoin (es : list (string * (option string * list apiece))).
Definition atext := list apiece.
(** An entry with guard [Some k] is there iff the call gives the argument [k]. *)
Definition adict := list (string * (option string * atext)).
Inductive avalue := AText (a : atext) | ANone | ABool (b : bool).

(** What is assumed on a path: arguments given or not, results of tests on texts. *)
Record assume := MkAssume { known : list (string * bool); facts : list (atext * test * bool) }.
Record astate := MkA { a_vars : dict string avalue; a_dicts : dict string adict;
                       a_api : option atext; a_utils : bool }.
Inductive ares (A : Type) := ADone (a : A) (s : astate) | AFail (e : string) | AStuck (why : string).
Arguments ADone {A}. Arguments AFail {A}. Arguments AStuck {A}.

Definition M (A : Type) := assume -> astate -> list (assume * ares A).
Definition aret {A} (a : A) : M A := fun h s => [(h, ADone a s)].
Definition afail {A} (e : string) : M A := fun h _ => [(h, AFail e)].
Definition astuck {A} (e : string) : M A := fun h _ => [(h, AStuck e)].
Definition abind {A B} (m : M A) (f : A -> M B) : M B := fun h s =>
  flat_map (fun hr => match snd hr with
                      | ADone a s' => f a (fst hr) s'
                      | AFail e => [(fst hr, AFail e)]
                      | AStuck e => [(fst hr, AStuck e)]
                      end) (m h s).
Definition aget_state : M astate := fun h s => [(h, ADone s s)].
Definition aput (s : astate) : M unit := fun h _ => [(h, ADone tt s)].
Notation "'do*' x := r 'in' k" := (abind r (fun x => k))
  (at level 200, x pattern, r at level 100, k at level 200).

(** Equality of symbolic texts without fresh names and dictionaries, whose rendering
    is determined by the call. *)
Definition edit_eqb (f g : edit) : bool :=
  match f, g with
  | Strip a, Strip b | RStrip a, RStrip b | AfterLast a, AfterLast b
  | BeforeLast a, BeforeLast b | FromLast a, FromLast b => String.eqb a b
  | StripSpace, StripSpace | Through, Through => true
  | Replace a b, Replace c d => String.eqb a c && String.eqb b d
  | _, _ => false
  end.
Definition test_eqb (f g : test) : bool :=
  match f, g with
  | Is a, Is b | Has a, Has b => String.eqb a b
  | Digits, Digits | ZeroInside, ZeroInside => true
  | _, _ => false
  end.
Fixpoint piece_eqb (p q : apiece) {struct p} : bool :=
  match p, q with
  | ALit a, ALit b | AArg a, AArg b => String.eqb a b
  | ARecv, ARecv => true
  | AEdit f l, AEdit g m =>
      edit_eqb f g &&
      (fix go l m := match l, m with
                     | [], [] => true
                     | x :: l', y :: m' => piece_eqb x y && go l' m'
                     | _, _ => false
                     end) l m
  | _, _ => false
  end.
Fixpoint text_eqb (l m : atext) : bool :=
  match l, m with
  | [], [] => true
  | x :: l', y :: m' => piece_eqb x y && text_eqb l' m'
  | _, _ => false
  end.

(** The text of a symbolic text made of literals only. *)
Fixpoint closed (l : atext) : option string :=
  match l with
  | [] => Some ""
  | ALit s :: r => match closed r with Some t => Some (s ++ t) | None => None end
  | _ => None
  end.

Fixpoint lit_length (l : atext) : nat :=
  match l with
  | [] => 0
  | ALit s :: r => String.length s + lit_length r
  | _ :: r => lit_length r
  end.

(** Tests whose result follows from the literal parts. *)
Definition decide_test (t : test) (a : atext) : option bool :=
  match closed a with
  | Some s => Some (run_test t s)
  | None =>
      match t with
      | Is c =>
          if (String.length c <? lit_length a)%nat then Some false
          else match a with
               | ALit p :: _ => if prefix p c then None else Some false
               | _ => None
               end
      | Has c =>
          if existsb (fun p => match p with ALit s => contains c s | _ => false end) a
          then Some true else None
      | _ => None
      end
  end.
Fixpoint find_fact (a : atext) (t : test) (l : list (atext * test * bool)) : option bool :=
  match l with
  | [] => None
  | (b, u, v) :: r => if text_eqb a b && test_eqb t u then Some v else find_fact a t r
  end.
Definition atest (t : test) (a : atext) : M bool := fun h s =>
  match decide_test t a with
  | Some b => [(h, ADone b s)]
  | None =>
      match find_fact a t (facts h) with
      | Some b => [(h, ADone b s)]
      | None =>
          if text_eqb a a
          then [(MkAssume (known h) ((a, t, true) :: facts h), ADone true s);
                (MkAssume (known h) ((a, t, false) :: facts h), ADone false s)]
          else [(h, ADone true s); (h, ADone false s)]
      end
  end.
Definition atruth (v : avalue) : M bool :=
  match v with
  | AText a => do* b := atest (Is "") a in aret (negb b)
  | ANone => aret false
  | ABool b => aret b
  end.

(** Is the argument given? *)
Definition agiven (k : string) : M bool := fun h s =>
  match dget String.eqb k (known h) with
  | Some b => [(h, ADone b s)]
  | None => [(MkAssume ((k, true) :: known h) (facts h), ADone true s);
             (MkAssume ((k, false) :: known h) (facts h), ADone false s)]
  end.
Definition aguard (g : option string) : M bool :=
  match g with None => aret true | Some k => agiven k end.

(** Dictionaries. *)
Definition adel (k : string) (d : adict) : adict :=
  filter (fun e => negb (String.eqb (fst e) k)) d.
Definition aset (k : string) (g : option string) (a : atext) (d : adict) : adict :=
  (k, (g, a)) :: adel k d.
Definition alook (k : string) (d : adict) : M (option atext) :=
  match dget String.eqb k d with
  | None => aret None
  | Some (g, a) => do* b := aguard g in aret (if (b : bool) then Some a else None)
  end.
(** Removes repetitions. *)
Fixpoint nodup_str (l : list string) : list string :=
  match l with
  | [] => []
  | x :: r => if mem_str x r then nodup_str r else x :: nodup_str r
  end.
Fixpoint nodup (l : list string) : bool :=
  match l with [] => true | x :: r => negb (mem_str x r) && nodup r end.

(** The names [change_kwargs] writes for the key [k], in order. *)
Definition outputs (e : entry) (unuse : list string) (k : string) : list string :=
  match change_names e k with
  | Some ns => ns
  | None => if mem_str k unuse then [] else [k]
  end.
Definition claims (e : entry) (unuse : list string) (k : string) : list string :=
  match change_names e k with Some ns => ns | None => [k] end.
Definition collides (e : entry) (unuse : list string) (d : adict) : bool :=
  negb (nodup (flat_map (claims e unuse) (map fst d))).
(** Decides every guard. *)
Fixpoint aresolve (d : adict) : M adict :=
  match d with
  | [] => aret []
  | (k, (g, a)) :: r =>
      do* b := aguard g in
      do* r' := aresolve r in
      aret (if (b : bool) then (k, (None, a)) :: r' else r')
  end.
Definition achange (e : entry) (unuse : list string) (d : adict) : option adict :=
  if nodup (map fst d) && nodup (flat_map (claims e unuse) (map fst d))
  then Some (flat_map (fun en => map (fun n => (n, snd en)) (outputs e unuse (fst en))) d)
  else None.
(** [d[k] = v] for an entry that may be missing. *)
Definition amerge (k : string) (g : option string) (a : atext) (d : adict) : M adict :=
  if mem_str k (map fst d) then
    do* b := aguard g in
    aret (if (b : bool) then aset k None a d else d)
  else aret (aset k g a d).
Fixpoint aupdate (es : adict) (d : adict) : M adict :=
  match es with
  | [] => aret d
  | (k, (g, a)) :: r => do* d' := amerge k g a d in aupdate r d'
  end.
Fixpoint amissing (es : adict) (d : adict) : M adict :=
  match es with
  | [] => aret d
  | (k, (g, a)) :: r =>
      do* v := alook k d in
      amissing r (match v with Some _ => d | None => aset k g a d end)
  end.
Fixpoint aempty (d : adict) : M bool :=
  match d with
  | [] => aret true
  | (_, (g, _)) :: r => do* b := aguard g in if (b : bool) then aret false else aempty r
  end.

Fixpoint afill (parts : list string) (args : list atext) : M atext :=
  match parts with
  | [] => aret []
  | [p] => aret [ALit p]
  | p :: ps =>
      match args with
      | [] => afail "IndexError"
      | a :: l => do* r := afill ps l in aret (ALit p :: a ++ r)%list
      end
  end.
Definition aformat (t : avalue) (args : list atext) : M atext :=
  match t with
  | AText a => match closed a with
               | Some s => match holes s "" with
                           | Some ps => afill ps args
                           | None => afail "ValueError"
                           end
               | None => astuck "template"
               end
  | _ => afail "AttributeError"
  end.
Definition ashow (v : avalue) : atext :=
  match v with
  | AText a => a
  | ANone => [ALit "None"]
  | ABool true => [ALit "True"]
  | ABool false => [ALit "False"]
  end.
Definition aedit (f : edit) (a : atext) : atext :=
  match closed a with Some s => [ALit (edit_text f s)] | None => [AEdit f a] end.

(** A kind of call: the row, the name looked up, method call or not. *)
Record config := MkConfig { c_row : entry; c_name : string; c_method : bool;
                            c_convert : list string; c_strict : bool }.
Definition ainitial_api (c : config) : option atext :=
  match paddle_api (c_row c) with
  | Some a =>
      if c_method c && negb (String.eqb a "")
      then Some (flat_map (fun x => match x with
                                    | Some s => [ALit s]
                                    | None => [AEdit Through [ARecv]]
                                    end) (segments 0 "" a))
      else None
  | None => None
  end.
Definition aget_dict (d : string) : M adict := fun h s =>
  match dget String.eqb d (a_dicts s) with
  | Some v => [(h, ADone v s)]
  | None => [(h, AFail "UnboundLocalError")]
  end.
Definition aset_dict (d : string) (v : adict) : M unit := fun h s =>
  [(h, ADone tt (MkA (a_vars s) (dset String.eqb d v (a_dicts s)) (a_api s) (a_utils s)))].
Definition row_api (e : entry) : avalue :=
  match paddle_api e with Some a => AText [ALit a] | None => ANone end.

Section Run.
  Variable c : config.

  Definition aapi : M avalue :=
    if c_strict c && match paddle_api (c_row c) with None => true | Some _ => false end
    then afail "AssertionError"
    else
      do* s := aget_state in
      match a_api s with
      | None => aret (row_api (c_row c))
      | Some a =>
          do* b := atest (Is "") a in
          aret (if (b : bool) then row_api (c_row c) else AText a)
      end.

  Fixpoint aeval (e : exp) : M avalue :=
    match e with
    | ELit t => aret (AText [ALit t])
    | EVar x =>
        do* s := aget_state in
        match dget String.eqb x (a_vars s) with
        | Some v => aret v
        | None => afail "UnboundLocalError"
        end
    | EClass => if c_method c then aret (AText [ARecv]) else afail "AttributeError"
    | EApi => aapi
    | ETorch => aret (AText [ALit (c_name c)])
    | EGet d k =>
        do* v := aget_dict d in
        do* a := alook k v in
        match a with Some t => aret (AText t) | None => afail "KeyError" end
    | EPop d k =>
        do* v := aget_dict d in
        do* a := alook k v in
        match a with
        | Some t => do* _ := aset_dict d (adel k v) in aret (AText t)
        | None => afail "KeyError"
        end
    | EGetOr d k e =>
        do* w := aeval e in
        do* v := aget_dict d in
        do* a := alook k v in
        aret (match a with Some t => AText t | None => w end)
    | EPopOr d k e =>
        do* w := aeval e in
        do* v := aget_dict d in
        do* a := alook k v in
        match a with
        | Some t => do* _ := aset_dict d (adel k v) in aret (AText t)
        | None => aret w
        end
    | EFormat t l =>
        do* w := aeval t in
        do* vs := aevals l in
        do* r := aformat w vs in aret (AText r)
    | ECat a b =>
        do* v := aeval a in
        do* w := aeval b in
        match v, w with
        | AText x, AText y => aret (AText (x ++ y)%list)
        | _, _ => afail "TypeError"
        end
    | EStr f a =>
        do* v := aeval a in
        match v with
        | AText r => aret (AText (aedit f r))
        | _ => afail "AttributeError"
        end
    | EKwargs d => do* v := aget_dict d in aret (AText [AJoin v])
    | EUnique k => aret (AText [AFresh k])
    | EIf x a b =>
        do* v := aeval x in
        do* t := atruth v in
        if (t : bool) then aeval a else aeval b
    | ENone => aret ANone
    | EBool b => aret (ABool b)
    | EIn k d =>
        do* v := aget_dict d in
        do* a := alook k v in
        aret (ABool (match a with Some _ => true | None => false end))
    | EEmpty d => do* v := aget_dict d in do* b := aempty v in aret (ABool b)
    | ETest t a =>
        do* v := aeval a in
        match v with
        | AText r => do* b := atest t r in aret (ABool b)
        | _ => match t with Is _ => aret (ABool false) | _ => afail "TypeError" end
        end
    | EIsNone a => do* v := aeval a in aret (ABool (match v with ANone => true | _ => false end))
    | ENot a => do* v := aeval a in do* b := atruth v in aret (ABool (negb b))
    | EAnd a b => do* v := aeval a in do* t := atruth v in if (t : bool) then aeval b else aret v
    | EOr a b => do* v := aeval a in do* t := atruth v in if (t : bool) then aret v else aeval b
    | ETarget k => aret (ABool (is_target k (c_row c)))
    | EConvert k => aret (ABool (mem_str k (c_convert c)))
    | EGenerate b d =>
        do* v := aget_dict d in
        do* s := aget_state in
        do* _ := aput (MkA [] [("kwargs", v)] (a_api s) (a_utils s)) in
        do* w := aexec b in
        do* s' := aget_state in
        do* _ := aput (MkA (a_vars s) (a_dicts s) (a_api s') (a_utils s')) in
        aret (match w with Some x => x | None => ANone end)
    end
  with aevals (l : exps) : M (list atext) :=
    match l with
    | Nil => aret []
    | Cons e r =>
        do* v := aeval e in
        do* vs := aevals r in
        aret (ashow v :: vs)
    end
  with astep (t : stmt) : M (option avalue) :=
    match t with
    | SLet x e =>
        do* v := aeval e in
        do* s := aget_state in
        do* _ := aput (MkA (dset String.eqb x v (a_vars s)) (a_dicts s) (a_api s) (a_utils s)) in
        aret None
    | SSet d k e =>
        do* v := aeval e in
        do* w := aget_dict d in
        do* _ := aset_dict d (aset k None (ashow v) w) in aret None
    | SDo e => do* _ := aeval e in aret None
    | SNew d => do* _ := aset_dict d [] in aret None
    | SCopy d e => do* v := aget_dict e in do* _ := aset_dict d v in aret None
    | SUpdate d e =>
        do* v := aget_dict d in do* w := aget_dict e in
        if nodup (map fst w) then
          do* u := aupdate w v in do* _ := aset_dict d u in aret None
        else astuck "update"
    | SMissing d e =>
        do* v := aget_dict d in do* w := aget_dict e in
        if nodup (map fst w) then
          do* u := amissing w v in do* _ := aset_dict d u in aret None
        else astuck "missing"
    | SRename d e r =>
        do* v := aget_dict d in do* w := aget_dict e in
        if nodup (map (fun en => rename_key r (fst en)) w) then
          do* u := aupdate (map (fun en => (rename_key r (fst en), snd en)) w) v in
          do* _ := aset_dict d u in do* _ := aset_dict e [] in aret None
        else astuck "rename"
    | SChange d e unuse =>
        do* v := aget_dict e in
        do* v := (if collides (c_row c) unuse v then aresolve v else aret v) in
        match achange (c_row c) unuse v with
        | Some u => do* _ := aset_dict d u in aret None
        | None => astuck "change"
        end
    | SDefaults d =>
        do* v := aget_dict d in
        let w := map (fun kv => (fst kv, (None, [ALit (snd kv)]))) (paddle_default_kwargs (c_row c)) in
        if nodup (map fst w) then
          do* u := amissing w v in do* _ := aset_dict d u in aret None
        else astuck "defaults"
    | SUtils =>
        do* s := aget_state in
        do* _ := aput (MkA (a_vars s) (a_dicts s) (a_api s) true) in aret None
    | SApi e =>
        do* v := aeval e in
        match v with
        | AText r =>
            do* s := aget_state in
            do* _ := aput (MkA (a_vars s) (a_dicts s) (Some r) (a_utils s)) in aret None
        | _ => astuck "api"
        end
    | SIf x a b =>
        do* v := aeval x in
        do* t := atruth v in
        if (t : bool) then aexec a else aexec b
    | SReturn e => do* v := aeval e in aret (Some v)
    end
  with aexec (b : block) : M (option avalue) :=
    match b with
    | Done => aret None
    | Seq t r =>
        do* w := astep t in
        match w with Some v => aret (Some v) | None => aexec r end
    end.

  Inductive agenerated := AConverted (a : atext) (helpers : bool) | AMisidentify | AUnchange | ARefused.

  (** All arguments the row accepts. *)
  Definition astart : adict :=
    map (fun k => (k, (Some k, [AArg k])))
        (nodup_str (args_list (c_row c) ++ overload_args_list (c_row c))%list).
  Definition agenerate (b : block) : M agenerated :=
    do* _ := aput (MkA [] [("kwargs", astart)] (ainitial_api c) false) in
    do* w := aexec b in
    match w with
    | Some (AText r) =>
        do* x := atest (Is "misidentify") r in
        if (x : bool) then aret AMisidentify else
        do* y := atest (Is "unchange") r in
        if (y : bool) then aret AUnchange else
        do* z := atest (Is "") r in
        if (z : bool) then aret ARefused else
        do* s := aget_state in aret (AConverted r (a_utils s))
    | Some (ABool true) => afail "TypeError"
    | _ => aret ARefused
    end.
  (** The arguments of [must] are given. *)
  Definition paths (must : list string) (b : block) : list (assume * ares agenerated) :=
    agenerate b (MkAssume (map (fun k => (k, true)) must) []) (MkA [] [] None false).
End Run.

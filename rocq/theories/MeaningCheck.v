(** A parser from symbolic texts to symbolic expressions, and their symbolic values.
    A proof device, not a model of the code. *)
From Coq Require Import QArith.
From Verif Require Import PyStr PyDict UtilsFile Args ArgsSpec
  Generate GenerateSym GenerateRel GenerateSpec GenerateCheck Grammar GrammarCheck MeaningSpec.
Close Scope Q_scope.
Open Scope string_scope.

(** Expressions with holes: the argument [k], the receiver, a dictionary of arguments of
    which those with a guard are there iff the call gives the argument. *)
Inductive sexp :=
| EArg (k : string) | ERecv | EWord (w : string) | ENum (s : string) | EQuote (s : string)
| EMinus (a : sexp) | ENot (a : sexp) | EBin (o : string) (a b : sexp)
| EMember (a : sexp) (x : string) | EIndex (a i : sexp) | EList (l : sargs) | ECall (f : sexp) (l : sargs)
with sargs :=
| ANil | APos (e : sexp) (r : sargs) | AKey (k : string) (e : sexp) (r : sargs) | AJn (es : sents)
with sents := SNil | SCons (k : string) (g : option string) (e : sexp) (r : sents).

Fixpoint no_positional (l : sargs) : bool :=
  match l with ANil | AJn _ => true | APos _ _ => false | AKey _ _ r => no_positional r end.
Fixpoint only_positional (l : sargs) : bool :=
  match l with ANil => true | APos _ r => only_positional r | _ => false end.
Fixpoint ent_keys (l : sents) : list string := match l with SNil => [] | SCons k _ _ r => k :: ent_keys r end.
Fixpoint arg_keys (l : sargs) : list string :=
  match l with ANil => [] | APos _ r => arg_keys r | AKey k _ r => k :: arg_keys r | AJn es => ent_keys es end.
Fixpoint distinct (l : list string) : bool :=
  match l with [] => true | x :: r => negb (mem_str x r) && distinct r end.

Inductive grade := GTest | GUnary.
Section Levels.
  Variable sub : grade -> parser sexp.
  Variable n : nat.
  Variable gone : option string -> bool.
  Variable joins : string -> bool.

  Definition any_hole : parser sexp := fun l =>
    match l with
    | H (AArg k) :: r | H (AEdit StripSpace [AArg k]) :: r => if joins k then None else Some (EArg k, r)
    | _ => None
    end.
  Definition tight_hole : parser sexp := fun l =>
    match l with
    | H (AArg k) :: r | H (AEdit StripSpace [AArg k]) :: r => if joins k then Some (EArg k, r) else None
    | H ARecv :: r | H (AEdit Through [ARecv]) :: r => Some (ERecv, r)
    | _ => None
    end.
  Fixpoint entries (es : adict) : option sents :=
    match es with
    | [] => Some SNil
    | (k, (g, l)) :: r =>
        if gone g then entries r
        else if variableb k then
          match sub GTest (flat l), entries r with
          | Some (e, []), Some x => Some (SCons k g e x)
          | _, _ => None
          end
        else None
    end.
  Definition joined_ : parser sargs := fun l =>
    match l with
    | H (AJoin es) :: r => match entries es with Some x => Some (AJn x, r) | None => None end
    | _ => None
    end.
  Fixpoint items_ (m : nat) : parser sargs :=
    match m with
    | O => pfail
    | S m =>
        por (let! k := a_variable in text "=" >> let! e := sub GTest in skip true >>
             por (text "," >> skip true >> let! r := items_ m in
                  if no_positional r then pret (AKey k e r) else pfail)
                 (pret (AKey k e ANil)))
        (por (let! e := sub GTest in no_equals >> skip true >>
              por (text "," >> skip true >> let! r := items_ m in pret (APos e r)) (pret (APos e ANil)))
        (por joined_ (pret ANil)))
    end.
  Definition args_ : parser sargs := let! l := items_ n in if distinct (arg_keys l) then pret l else pfail.
  Definition decimal_ : parser string :=
    let! c := char_of digit in let! d := many_of digit in
    por (text "." >> let! f := many_of digit in pret (String c d ++ "." ++ f)) (pret (String c d)).
  Definition quoted_ (q : ascii) : parser string :=
    char_of (Ascii.eqb q) >> let! b := many_of (fun c => negb (mem_char c (String q ("\" ++ newline)))) in
    char_of (Ascii.eqb q) >> pret (String q (b ++ String q "")).
  Definition atom_ : parser sexp :=
    por tight_hole
    (por (let! w := a_name in pret (EWord w))
    (por (let! s := decimal_ in pret (ENum s))
    (por (let! s := por (quoted_ "'") (quoted_ """") in pret (EQuote s))
    (por (text "(" >> skip true >> let! e := sub GTest in skip true >> text ")" >> pret e)
         (text "[" >> skip true >> let! l := args_ in text "]" >> if only_positional l then pret (EList l) else pfail))))).
  Definition trailer_ (a : sexp) : parser sexp :=
    por (text "." >> let! w := a_name in pret (EMember a w))
    (por (text "(" >> skip true >> let! l := args_ in text ")" >> pret (ECall a l))
         (text "[" >> let! i := sub GTest in text "]" >> pret (EIndex a i))).
  Definition primary5 : parser sexp := let! a := atom_ in repeat_ n trailer_ a.
  Definition power4 : parser sexp :=
    let! a := primary5 in
    por (skip false >> text "**" >> skip false >> let! b := sub GUnary in pret (EBin "**" a b)) (pret a).
  Definition unary3 : parser sexp :=
    por (text "-" >> skip false >> let! a := sub GUnary in pret (EMinus a)) power4.
  Definition operator (ss : list string) : parser string := fun l =>
    List.fold_right (fun s r => match text s l with Some (_, l') => Some (s, l') | None => r end) None ss.
  Definition product2 : parser sexp :=
    let! a := unary3 in
    repeat_ n (fun a => skip false >> let! o := operator ["*"; "/"] in skip false >> let! b := unary3 in pret (EBin o a b)) a.
  Definition sum1 : parser sexp :=
    let! a := product2 in
    repeat_ n (fun a => skip false >> let! o := operator ["+"; "-"] in skip false >> let! b := product2 in pret (EBin o a b)) a.
  Definition test0 : parser sexp := por (text "not " >> let! a := sum1 in pret (ENot a)) (por sum1 any_hole).
End Levels.

Section Parse.
  Variable gone : option string -> bool.
  Variable joins : string -> bool.
  Fixpoint read (n : nat) (k : grade) : parser sexp :=
    match n with
    | O => pfail
    | S n => match k with GTest => test0 (read n) n gone joins | GUnary => unary3 (read n) n gone joins end
    end.
  Definition read_code : parser sexp :=
    repeat_ 5 (fun _ => text newline) tt >> let! e := read 12 GTest in repeat_ 5 (fun _ => text newline) tt >> pret e.
  Definition reading (a : atext) : option sexp :=
    match read_code (flat a) with Some (e, []) => Some e | _ => None end.
End Parse.

(** ** Symbolic values *)
Fixpoint spath (e : sexp) : option string :=
  match e with
  | EWord w => Some w
  | EMember a x => match spath a with Some n => Some (n ++ "." ++ x) | None => None end
  | _ => None
  end.
Section Values.
  Variable W : algebra.
  Variable a : string -> option (V W).
  Variable x : V W.
  Definition there (g : option string) : bool :=
    match g with None => true | Some k => match a k with Some _ => true | None => false end end.
  Fixpoint svalue (e : sexp) : V W :=
    match e with
    | EArg k => or_else W (a k) (word W "None")
    | ERecv => x
    | EWord w => word W w
    | ENum s => num W (number_value s)
    | EQuote s => quoted W s
    | EMinus e => minus W (svalue e)
    | ENot e => negation W (svalue e)
    | EBin o e f => operation W o (svalue e) (svalue f)
    | EMember b w => match spath e with Some n => word W n | None => member W (svalue b) w end
    | EIndex e i => item W (svalue e) (svalue i)
    | EList l => listed W (spositional l)
    | ECall f l =>
        match spath f with
        | Some n => function W n (spositional l) (skeys l)
        | None => match f with
                  | EMember e m => method W m (svalue e) (spositional l) (skeys l)
                  | _ => other W "" (svalue f :: spositional l) (skeys l)
                  end
        end
    end
  with spositional (l : sargs) : list (V W) :=
    match l with APos e r => svalue e :: spositional r | _ => [] end
  with skeys (l : sargs) (k : string) : option (V W) :=
    match l with
    | ANil => None
    | APos _ r => skeys r k
    | AKey j e r => if String.eqb k j then Some (svalue e) else skeys r k
    | AJn es => sentries es k
    end
  with sentries (es : sents) (k : string) : option (V W) :=
    match es with
    | SNil => None
    | SCons j g e r => if String.eqb k j then (if there g then Some (svalue e) else None) else sentries r k
    end.

  (** Stores, with symbolic places. *)
  Inductive spot := AtArg (k : string) | AtRecv | Elsewhere.
  Fixpoint splace (e : sexp) : spot :=
    match e with
    | EArg k => AtArg k
    | ERecv => AtRecv
    | ECall f l =>
        match spath f with
        | Some n => if ends_with_underscore n then match l with APos e _ => splace e | _ => Elsewhere end else Elsewhere
        | None => match f with EMember e m => if ends_with_underscore m then splace e else Elsewhere | _ => Elsewhere end
        end
    | _ => Elsewhere
    end.
  (** The last argument called "output" that is certainly given. *)
  Fixpoint soutput (l : sargs) : option sexp :=
    match l with
    | ANil | AJn _ => None
    | APos _ r => soutput r
    | AKey k e r => if String.eqb k "output" then Some e else soutput r
    end.
  Fixpoint sstores (e : sexp) : list (spot * V W) :=
    match e with
    | EArg _ | ERecv | EWord _ | ENum _ | EQuote _ => []
    | EMinus e | ENot e | EMember e _ => sstores e
    | EBin _ e f | EIndex e f => (sstores e ++ sstores f)%list
    | EList l => sstores_args l
    | ECall f l =>
        (sstores f ++ sstores_args l ++
         match spath f with
         | Some n =>
             if ends_with_underscore n then [(match l with APos e _ => splace e | _ => Elsewhere end, svalue e)]
             else if String.eqb n "paddle.assign"
                  then match soutput l with Some o => [(splace o, svalue e)] | None => [] end
                  else []
         | None => match f with EMember b m => if ends_with_underscore m then [(splace b, svalue e)] else [] | _ => [] end
         end)%list
    end
  with sstores_args (l : sargs) : list (spot * V W) :=
    match l with
    | ANil | AJn _ => []
    | APos e r | AKey _ e r => (sstores e ++ sstores_args r)%list
    end.
End Values.
Arguments spot : clear implicits.

(** Nothing is stored in the values of a dictionary of arguments. *)
Fixpoint calm (e : sexp) : bool :=
  match e with
  | EArg _ | ERecv | EWord _ | ENum _ | EQuote _ => true
  | EMinus e | ENot e | EMember e _ => calm e
  | EBin _ e f | EIndex e f => calm e && calm f
  | EList l => calm_args l
  | ECall f l =>
      calm f && calm_args l &&
      match spath f with
      | Some n => negb (ends_with_underscore n) && negb (String.eqb n "paddle.assign")
      | None => match f with EMember _ m => negb (ends_with_underscore m) | _ => true end
      end
  end
with calm_args (l : sargs) : bool :=
  match l with ANil => true | APos e r | AKey _ e r => calm e && calm_args r | AJn es => calm_entries es end
with calm_entries (es : sents) : bool :=
  match es with SNil => true | SCons k _ e r => negb (String.eqb k "output") && calm e && calm_entries r end.
Fixpoint settled (e : sexp) : bool :=
  match e with
  | EArg _ | ERecv | EWord _ | ENum _ | EQuote _ => true
  | EMinus e | ENot e | EMember e _ => settled e
  | EBin _ e f | EIndex e f => settled e && settled f
  | EList l => settled_args l
  | ECall f l => settled f && settled_args l
  end
with settled_args (l : sargs) : bool :=
  match l with ANil => true | APos e r | AKey _ e r => settled e && settled_args r | AJn es => calm_entries es end.

(** Arguments the expression depends on. *)
Fixpoint uses (e : sexp) : list string :=
  match e with
  | EArg k => [k]
  | ERecv | EWord _ | ENum _ | EQuote _ => []
  | EMinus e | ENot e | EMember e _ => uses e
  | EBin _ e f | EIndex e f => (uses e ++ uses f)%list
  | EList l => uses_args l
  | ECall f l => (uses f ++ uses_args l)%list
  end
with uses_args (l : sargs) : list string :=
  match l with ANil => [] | APos e r | AKey _ e r => (uses e ++ uses_args r)%list | AJn es => uses_entries es end
with uses_entries (es : sents) : list string :=
  match es with
  | SNil => []
  | SCons _ g e r => (match g with Some k => [k] | None => [] end ++ uses e ++ uses_entries r)%list
  end.

(** The call to one function. *)
Definition scalls (f : string) (g : sexp) : bool :=
  match spath g with
  | Some n => String.eqb n f
  | None => match g with EMember _ m => String.eqb ("." ++ m) f | _ => false end
  end.
Fixpoint skeywords_to (f : string) (e : sexp) : option sargs :=
  match e with
  | ECall g l =>
      if scalls f g then Some l
      else match skeywords_to f g with
           | Some l => Some l
           | None => match l with APos x _ => skeywords_to f x | _ => None end
           end
  | EMember a _ | EIndex a _ => skeywords_to f a
  | _ => None
  end.

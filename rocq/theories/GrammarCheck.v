(** A parser for symbolic texts: if it accepts, all instances are in the grammar.
    A proof device, not a model of the code. *)
From Coq Require Import Lia.
From Verif Require Import PyStr PyDict PyDictFacts PyStrFacts UtilsFile RegistryFacts Args ArgsSpec
  Generate GenerateSym GenerateRel GenerateSpec GenerateCheck Grammar.

(** Symbolic texts as sequences of characters and holes. *)
Inductive sym := C (c : ascii) | H (p : apiece).
Fixpoint chars (s : string) : list sym := match s with "" => [] | String c r => C c :: chars r end.
Definition flat (l : atext) : list sym := flat_map (fun p => match p with ALit s => chars s | _ => [H p] end) l.

Definition parser (A : Type) := list sym -> option (A * list sym).
Definition pret {A} (a : A) : parser A := fun l => Some (a, l).
Definition pfail {A} : parser A := fun _ => None.
Definition pbind {A B} (p : parser A) (f : A -> parser B) : parser B := fun l =>
  match p l with Some (a, r) => f a r | None => None end.
Definition por {A} (p q : parser A) : parser A := fun l => match p l with Some x => Some x | None => q l end.
Notation "'let!' x := p 'in' k" := (pbind p (fun x => k)) (at level 200, x pattern, p at level 100, k at level 200).
Notation "p >> q" := (pbind p (fun _ => q)) (at level 61, right associativity).
(** A character of a class; the longest sequence of such characters. *)
Definition char_of (f : ascii -> bool) : parser ascii := fun l =>
  match l with C c :: r => if f c then Some (c, r) else None | _ => None end.
Fixpoint span (f : ascii -> bool) (l : list sym) : string * list sym :=
  match l with
  | C c :: r => if f c then let (s, r') := span f r in (String c s, r') else ("", l)
  | _ => ("", l)
  end.
Definition many_of (f : ascii -> bool) : parser string := fun l => Some (span f l).
Fixpoint text (s : string) : parser unit :=
  match s with "" => pret tt | String c r => char_of (Ascii.eqb c) >> text r end.
Fixpoint any_text (ss : list string) : parser unit :=
  match ss with [] => pfail | s :: r => por (text s) (any_text r) end.
Fixpoint repeat_ {A} (n : nat) (step : A -> parser A) (a : A) : parser A :=
  match n with
  | O => pret a
  | S n => por (let! b := step a in repeat_ n step b) (pret a)
  end.
Definition skip (breaks : bool) : parser unit := many_of (space breaks) >> pret tt.

Definition word : parser string :=
  let! c := char_of word_start in let! s := many_of word_char in pret (String c s).
Definition a_name : parser string :=
  let! w := word in if mem_str w keywords_of_python then pfail else pret w.
Definition digit := in_range 48 57.
Definition some_digits : parser unit := char_of digit >> many_of digit >> pret tt.
Definition a_number_ : parser unit :=
  some_digits
  >> por (text "." >> many_of digit >> pret tt) (pret tt)
  >> por (text "e" >> por (text "-" >> some_digits) some_digits) (pret tt).
Definition quoted (q : ascii) : parser unit :=
  char_of (Ascii.eqb q) >> many_of (fun c => negb (mem_char c (String q ("\" ++ newline)))) >> char_of (Ascii.eqb q) >> pret tt.
Definition a_string : parser unit := por (quoted "'") (quoted """").
(** What kind of expression was read; [Name (Some w)]: the variable [w]; [Name None]: a
    generated name. *)
Inductive shape := Name (w : option string) | Place | Plain.
(** An argument that may be any expression; an argument in [joins] must be an operand. *)
Definition given (joins : string -> bool) : parser unit := fun l =>
  match l with
  | H (AArg k) :: r | H (AEdit StripSpace [AArg k]) :: r => if joins k then None else Some (tt, r)
  | _ => None
  end.
Definition hole (joins : string -> bool) : parser shape := fun l =>
  match l with
  | H (AArg k) :: r | H (AEdit StripSpace [AArg k]) :: r => if joins k then Some (Plain, r) else None
  | H ARecv :: r | H (AEdit Through [ARecv]) :: r => Some (Plain, r)
  | H (AFresh k) :: r => if wordb k then Some (Name None, r) else None
  | _ => None
  end.

(** Expressions in general, without choice at the top, without comparisons and "not". *)
Inductive kind := KTest | KNegation | KArith.

Section Levels.
  (** Reads an expression with less fuel. *)
  Variable sub : kind -> parser unit.
  Variable n : nat.
  (** Arguments that are certainly not given. *)
  Variable gone : option string -> bool.
  Variable joins : string -> bool.

  Definition whole (l : atext) : bool := match sub KTest (flat l) with Some (_, []) => true | _ => false end.
  Definition variableb (k : string) : bool :=
    if wordb k then if mem_str k keywords_of_python then false else negb (mem_str k constants_of_python) else false.
  (** "k=v, k=v" of a dictionary. *)
  Definition joined : parser unit := fun l =>
    match l with
    | H (AJoin es) :: r =>
        if forallb (fun en => if gone (fst (snd en)) then true
                              else if variableb (fst en) then whole (snd (snd en)) else false) es
        then Some (tt, r) else None
    | _ => None
    end.
  Definition comma (breaks : bool) : parser unit := skip breaks >> text "," >> skip breaks.
  Definition tests_ (breaks : bool) : parser unit := sub KTest >> repeat_ n (fun _ => comma breaks >> sub KTest) tt.
  Definition a_variable : parser string :=
    let! k := a_name in if mem_str k constants_of_python then pfail else pret k.
  Definition keyword_ : parser string := let! k := a_variable in text "=" >> sub KTest >> pret k.
  Definition keywords_ : parser (list string) :=
    let! k := keyword_ in
    repeat_ n (fun ks => comma true >> let! k := keyword_ in if mem_str k ks then pfail else pret (k :: ks)) [k].
  (** A positional argument must not be the name of a keyword. *)
  Definition no_equals : parser unit := fun l =>
    match l with C c :: _ => if Ascii.eqb c "=" then None else Some (tt, l) | _ => Some (tt, l) end.
  Definition positional_ : parser unit :=
    sub KTest >> no_equals >> repeat_ n (fun _ => comma true >> sub KTest >> no_equals) tt.
  Definition arguments_ : parser unit :=
    por (positional_ >>
         por (comma true >> por joined (keywords_ >> pret tt)) (por (skip true >> text ",") (pret tt)))
        (por (keywords_ >> pret tt) (por joined (pret tt))).
  Definition subscript_ : parser unit :=
    por (text ":" >> por (sub KArith) (pret tt))
        (por (sub KArith >> text ":" >> por (sub KArith) (pret tt)) (sub KTest)).
  Definition group_ : parser unit := text "(" >> skip true >> tests_ true >> skip true >> text ")".
  Definition list_ : parser unit :=
    por (text "[]")
        (por (text "[" >> sub KTest >> text " for " >> a_variable >> text " in " >> sub KArith >> text "]")
             (text "[" >> skip true >> tests_ true >> skip true >> text "]")).
  Definition atom : parser shape :=
    por (hole joins)
        (por (let! w := a_name in pret (if mem_str w constants_of_python then Plain else Name (Some w)))
             (por a_string (por group_ list_) >> pret Plain)).
  Definition trailer : parser shape :=
    por (text "." >> skip false >> a_name >> pret Place)
        (por (text "(" >> skip true >> arguments_ >> skip true >> text ")" >> pret Plain)
             (text "[" >> subscript_ >> text "]" >> pret Place)).
  Definition primary_ : parser shape := let! s := atom in repeat_ n (fun _ => trailer) s.
  Definition arith1 : parser unit :=
    por (primary_ >> pret tt) (por a_number_ (text "-" >> skip false >> sub KArith)).
  Definition arith_ : parser unit :=
    arith1 >> repeat_ n (fun _ => skip false >> any_text ["**"; "+"; "-"; "*"; "/"] >> skip false >> arith1) tt.
  Definition condition_ : parser unit :=
    arith_ >> repeat_ n (fun _ => por (skip false >> any_text comparators >> skip false >> arith_)
                                      (any_text word_comparators >> arith_)) tt.
  Definition negation_ : parser unit := por (text "not " >> sub KNegation) condition_.
  Definition test_ : parser unit :=
    por (negation_ >> por (text " if " >> negation_ >> text " else " >> sub KTest) (pret tt)) (given joins).

  Definition target_ : parser (list (option string)) :=
    let! s := primary_ in match s with Name w => pret [w] | Place => pret [] | Plain => pfail end.
  Definition targets_ : parser (list (option string)) :=
    let! b := target_ in repeat_ n (fun b => comma false >> let! c := target_ in pret (b ++ c)%list) b.
  Definition simple_ : parser (list (option string)) :=
    por (let! m := text "import " >> a_variable in
         por (let! k := text " as " >> a_variable in pret [Some k]) (pret [Some m]))
        (por (text "assert " >> sub KTest >> text "," >> skip false >> sub KTest >> pret [])
             (por (let! b := targets_ in skip false >> text "=" >> skip false >> tests_ false >> pret b)
                  (tests_ false >> pret []))).
  Definition statement_ : parser (list (option string)) :=
    por (text "if " >> sub KTest >> text ":" >> text newline >> text "    " >> simple_)
        (por (text "for " >> let! w := a_variable in text " in " >> sub KTest >> text ":" >> text newline >> text "    " >>
              let! b := simple_ in pret (Some w :: b))
             simple_).
End Levels.

Section Parse.
  Variable gone : option string -> bool.
  Variable joins : string -> bool.
  Fixpoint level (n : nat) (k : kind) : parser unit :=
    match n with
    | O => pfail
    | S n =>
        match k with
        | KTest => test_ (level n) n gone joins
        | KNegation => negation_ (level n) n gone joins
        | KArith => arith_ (level n) n gone joins
        end
    end.
  Fixpoint program_ (m n : nat) : parser (list (option string)) :=
    match m with
    | O => pfail
    | S m =>
        por (text newline >> program_ m n)
            (por (let! b := statement_ (level n) n gone joins in text newline >> let! c := program_ m n in pret (b ++ c)%list)
                 (tests_ (level n) n false >> repeat_ n (fun _ => text newline) tt >> pret []))
    end.
  (** The names bound by a symbolic program; [None] if it was not understood. *)
  Definition bound_names (a : atext) : option (list (option string)) :=
    match program_ 20 20 (flat a) with Some (b, []) => Some b | _ => None end.
End Parse.

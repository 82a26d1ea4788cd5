(** Words for C149: torch.autograd.Variable. *)
From Verif Require Import PyStr PyDict Args FlagSpec DatasetSpec OutSpec.

(** The two forms of the new code for the data [x] and the flag [r], as text. *)
Inductive form := Plain | Flagged.
Definition written (f : form) (x r : string) : string :=
  match f with Plain => x | Flagged => lines [x ++ ".stop_gradient = not " ++ r; x] end.
(** What the code does. Objects are numbered; each has its stop_gradient. The data is a name of
    an object that exists, or a call, which makes a new object whenever it is evaluated, with
    stop_gradient=True as Paddle's functions make them. *)
Definition objects := list bool.
Inductive data := Named (n : nat) | Made.
Definition evaluate (d : data) (h : objects) : nat * objects :=
  match d with Named n => (n, h) | Made => (List.length h, (h ++ [true])%list) end.
Fixpoint put (n : nat) (b : bool) (h : objects) : objects :=
  match h, n with [], _ => [] | _ :: h', 0 => b :: h' | a :: h', S n' => a :: put n' b h' end.
(** The object that is the value of the code, and the objects afterwards; [b] is the value of the flag. *)
Definition run (f : form) (d : data) (b : bool) (h : objects) : nat * objects :=
  match f with
  | Plain => evaluate d h
  | Flagged => let (o, h1) := evaluate d h in evaluate d (put o (negb b) h1)
  end.
Definition stops (p : nat * objects) : option bool := nth_error (snd p) (fst p).

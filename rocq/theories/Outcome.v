(* Results of Rust code that may panic or, for [while] loops run with fuel in the
   model, may not have finished. *)
From Coq Require Import List.
Import ListNotations.

Inductive outcome (A : Type) : Type :=
| Ret (a : A)        (* normal return *)
| Panic              (* panic!, failed unwrap/expect, out-of-bounds index, usize underflow *)
| OutOfFuel.         (* the modelled loop was cut off: not a behaviour of the code *)
Arguments Ret {A} a.
Arguments Panic {A}.
Arguments OutOfFuel {A}.

Definition obind {A B : Type} (m : outcome A) (f : A -> outcome B) : outcome B :=
  match m with
  | Ret a => f a
  | Panic => Panic
  | OutOfFuel => OutOfFuel
  end.

Notation "'let!' x ':=' m 'in' k" := (obind m (fun x => k))
  (at level 200, x pattern, m at level 100, k at level 200, right associativity).

(* Option::unwrap *)
Definition unwrap {A : Type} (o : option A) : outcome A :=
  match o with
  | Some a => Ret a
  | None => Panic
  end.

(* slice indexing [l[i]]: panics when out of bounds *)
Definition oindex {A : Type} (l : list A) (i : nat) : outcome A :=
  unwrap (nth_error l i).

(* checked usize subtraction: "attempt to subtract with overflow" is a panic in debug
   builds; release builds wrap.  Callers say which of the two they model. *)
Definition usize_sub (a b : nat) : outcome nat :=
  if Nat.leb b a then Ret (Nat.sub a b) else Panic.

(* iterator map over fallible body, left to right, first panic wins *)
Fixpoint omap {A B : Type} (f : A -> outcome B) (l : list A) : outcome (list B) :=
  match l with
  | [] => Ret []
  | x :: xs => let! y := f x in let! ys := omap f xs in Ret (y :: ys)
  end.

(* for loop over a list with a fallible body and an accumulator *)
Fixpoint ofold {A S : Type} (f : S -> A -> outcome S) (l : list A) (s : S) : outcome S :=
  match l with
  | [] => Ret s
  | x :: xs => let! s' := f s x in ofold f xs s'
  end.

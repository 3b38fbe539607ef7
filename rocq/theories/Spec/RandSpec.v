(** What is asked of a generator of pseudo-random numbers. *)
From Coq Require Import ZArith List.
Local Open Scope Z_scope.

(** A generator with hidden state: state after [n] calls, and what call number [n] (from 0) returns. *)
Fixpoint after {S : Type} (f : S -> S * Z) (n : nat) (s : S) : S :=
  match n with O => s | Datatypes.S k => after f k (fst (f s)) end.
Definition returned {S : Type} (f : S -> S * Z) (n : nat) (s : S) : Z := snd (f (after f n s)).

(** How many of the first [k] calls return [r]. *)
Definition times {S : Type} (f : S -> S * Z) (k : nat) (s : S) (r : Z) : Z :=
  Z.of_nat (length (filter (fun n => returned f n s =? r) (seq 0 k))).

(** [p] is a period of what is returned. *)
Definition period {S : Type} (f : S -> S * Z) (s : S) (p : nat) : Prop :=
  forall n, returned f (n + p) s = returned f n s.

(** ISO/IEC 9899:1999, 7.20: RAND_MAX is at least this. *)
Definition least_max : Z := 32767.

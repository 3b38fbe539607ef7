(** Range of the value of a lock object: what the creator asked for. *)
From Verif Require Import Model.Base Model.LockObj.

(** Sensible attributes: a semaphore starts inside [0, maximum] and its maximum is positive. *)
Definition sensible (a : lattr) : Prop :=
  la_kind a = LK_SEMAPHORE -> 0 <= la_initial a <= la_max a /\ 1 <= la_max a.

(** Largest number of holders the creator allows: the maximum of a semaphore, one otherwise. *)
Definition capacity (a : lattr) : Z := if la_kind a =? LK_SEMAPHORE then la_max a else 1.
(** Number of free units at creation. *)
Definition initial (a : lattr) : Z := if la_kind a =? LK_SEMAPHORE then la_initial a else 1.

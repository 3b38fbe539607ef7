(** What the kernel does to the ports in the course of an execution. *)
From Verif Require Import Model.Base Model.Kernel.

(** The flush that one event reports, if any. *)
Definition flush_of (ev : kevent) : list flush_act :=
  match ev with
  | XFlush NoFlush => []
  | XFlush f => [f]
  | _ => []
  end.
(** The flushes of an execution, first to last. *)
Definition flushes (evs : list kevent) : list flush_act := flat_map flush_of evs.

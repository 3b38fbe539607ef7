(** Calls that wait. *)
From Verif Require Import Model.Base Model.State Model.LockObj Model.LockSys.

Definition returns (t : Z) (evs : list event) : Prop := exists e, In (EvReturn t e) evs.
(** Thread [t] has made the call [o] on object [id] in state [s], and in state [s1] it has not returned yet. *)
Definition pending (n : Z) (s : lsys) (t id : Z) (o : lop) (s1 : lsys) : Prop :=
  exists s0 ev0 ls ev1, step n s (LCall t id o) = Next s0 ev0 /\ run n s0 ls = Some (s1, ev1) /\
    ~ returns t (ev0 ++ ev1).
(** The next thing that happens is that the call returns code [e]. *)
Definition ends (n : Z) (t : Z) (s1 : lsys) (e : Z) : Prop :=
  exists l s2 ev, step n s1 l = Next s2 ev /\ In (EvReturn t e) ev.
(** The scheduler may wake thread [t] because its time-out has expired. *)
Definition expires (n t : Z) (s1 : lsys) : Prop := exists s2 ev, step n s1 (LExpire t) = Next s2 ev.

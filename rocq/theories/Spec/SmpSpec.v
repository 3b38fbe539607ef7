(** What spin locks and the rendezvous are expected to do, in terms of what an observer sees. *)
From Verif Require Import Model.Base Model.Smp.

(** After the events [tr] (latest first), is processor [p] between acquiring and releasing lock [l]? *)
Fixpoint inside (p l : Z) (tr : list spin_event) : bool :=
  match tr with
  | [] => false
  | Acquired q m :: t => if (q =? p) && (m =? l) then true else inside p l t
  | Released q m :: t => if (q =? p) && (m =? l) then false else inside p l t
  end.

(** Histories of [nl] locks. [rule p l tr] restricts when a processor may start to release a lock. *)
Inductive spin_reach (nl : Z) (rule : Z -> Z -> list spin_event -> Prop) : list spin_event -> spin_state -> Prop :=
| sr_start : spin_reach nl rule [] spin_start
| sr_step : forall tr s a s' ev, spin_reach nl rule tr s ->
    match a with
    | SpLock p l => 0 <= l < nl
    | SpUnlock p l => 0 <= l < nl /\ rule p l tr
    | SpNext p => True
    end ->
    spin_step a s = SpGo s' ev -> spin_reach nl rule (ev ++ tr) s'.

(** A processor releases only what it holds. *)
Definition own_only (p l : Z) (tr : list spin_event) : Prop := inside p l tr = true.

(** How often a processor has entered and left the rendezvous. *)
Definition is_enter (p : Z) (e : rv_event) : bool := match e with Enter q => q =? p | _ => false end.
Definition is_leave (p : Z) (e : rv_event) : bool := match e with Leave q => q =? p | _ => false end.
Definition entries (p : Z) (ev : list rv_event) : Z := Z.of_nat (length (filter (is_enter p) ev)).
Definition leaves (p : Z) (ev : list rv_event) : Z := Z.of_nat (length (filter (is_leave p) ev)).

(** The processors of a system of [n], and schedules of them. *)
Definition valid_sched (n : Z) (sched : list Z) : Prop := Forall (fun p => 0 <= p < n) sched.

(** A round of a fair schedule: everybody has a turn. *)
Definition everybody (n : Z) (b : list Z) : Prop := valid_sched n b /\ forall p, 0 <= p < n -> In p b.

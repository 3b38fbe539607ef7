(** What the processes of a partition are, told from the requests and answers alone. *)
From Verif Require Import Model.Base Model.Arinc.

(** The processes created so far, oldest first: name, kernel thread, base priority. *)
Fixpoint processes (ops : list proc_op) (outs : list pout) : list (list Z * Z * Z) :=
  match ops, outs with
  | OCreate name prio _ id _ :: ops', PProcess _ _ :: outs' => (name, id, prio) :: processes ops' outs'
  | _ :: ops', _ :: outs' => processes ops' outs'
  | _, _ => []
  end.

Definition p_name (x : list Z * Z * Z) := fst (fst x).
Definition p_thread (x : list Z * Z * Z) := snd (fst x).
Definition p_prio (x : list Z * Z * Z) := snd x.

(** No process has the empty name. *)
Definition named (ops : list proc_op) : Prop :=
  forall name prio r id r2, In (OCreate name prio r id r2) ops -> name <> [].

(** [history nbt ops p outs]: a partition whose tables have [nbt] entries has made the requests [ops] since it
    started, and none has left the tables. *)
Definition history (nbt : Z) (ops : list proc_op) (p : procs) (outs : list pout) : Prop :=
  0 < nbt < 2 ^ 31 /\ proc_run nbt ops procs_start = (p, outs) /\ ~ In POutside outs.

(** Number of threads the kernel has granted. *)
Fixpoint granted (ops : list proc_op) : Z :=
  match ops with
  | OCreate _ _ r _ _ :: t => (if r =? 0 then 1 else 0) + granted t
  | _ :: t => granted t
  | [] => 0
  end.

(** What the thread schedulers of a partition have to do. *)
From Verif Require Import Model.Base Model.State.

(** Thread [i] may execute on processor [p]. *)
Definition ready_thread (p : Z) (th : Z -> thread) (i : Z) : Prop :=
  t_state (th i) = ST_RUNNABLE /\ t_affinity (th i) = p.

(** Thread [i] has an identifier of the partition. *)
Definition in_range (low high i : Z) : Prop := low <= i < high.

(** The current and previous thread of a partition: the idle thread or a thread of the partition. *)
Definition idle_or_in (idle low high i : Z) : Prop := i = idle \/ in_range low high i.

(** Number of steps from [from] to [i] when the identifiers of the partition are arranged in a circle. *)
Definition steps_to (low high from i : Z) : Z := (i - from) mod (high - low).

(** [e] is a correct choice for processor [p]: a ready thread of the partition, or idle when there is none. *)
Definition sound_choice (p idle low high : Z) (th : Z -> thread) (e : Z) : Prop :=
  (in_range low high e /\ ready_thread p th e) \/
  (e = idle /\ forall i, in_range low high i -> ~ ready_thread p th i).

(** A sequence of elections by scheduler [sched] on one processor. The tables seen by the elections are
    [ths], the elected threads [es]; the previous thread is only updated when the current thread was not
    idle and changes. *)
Inductive elections (sched : (Z -> thread) -> Z -> Z -> option Z) (idle : Z)
  : Z -> Z -> list (Z -> thread) -> list Z -> Prop :=
| El_nil : forall prev cur, elections sched idle prev cur [] []
| El_cons : forall prev cur th e ths es,
    sched th prev cur = Some e ->
    elections sched idle (if (cur =? e) || (cur =? idle) then prev else cur) e ths es ->
    elections sched idle prev cur (th :: ths) (e :: es).

(** At each election the thread that executed until then has used up its quantum. *)
Fixpoint exhausted (cur : Z) (ths : list (Z -> thread)) (es : list Z) : Prop :=
  match ths, es with
  | th :: ths', e :: es' =>
      t_remaining (th cur) <= 0 /\ t_capacity (th cur) <> INFINITE /\ exhausted e ths' es'
  | _, _ => True
  end.

(** Identifiers low, low+1, ..., as a list. *)
Fixpoint zseq (low : Z) (n : nat) : list Z :=
  match n with O => [] | S k => low :: zseq (low + 1) k end.
Definition ids (low high : Z) : list Z := zseq low (Z.to_nat (high - low)).

(** The ready threads of the partition. *)
Definition ready_b (p : Z) (th : Z -> thread) (i : Z) : bool :=
  (t_state (th i) =? ST_RUNNABLE) && (t_affinity (th i) =? p).
Definition ready_ids (p low high : Z) (th : Z -> thread) : list Z :=
  filter (ready_b p th) (ids low high).

(** Periods as deadline-monotonic numbers: a thread without period counts as infinitely slow. *)
Definition period_le (a b : Z) : Prop := b = INFINITE \/ (a <> INFINITE /\ a <= b).

(** Elements low .. high-1 of an array. *)
Definition slice {A : Type} (f : Z -> A) (low high : Z) : list A := map f (ids low high).
(** Ordered by key. *)
Definition ordered {A : Type} (key : A -> Z) (f : Z -> A) (low high : Z) : Prop :=
  forall i j, low <= i -> i <= j -> j < high -> key (f i) <= key (f j).

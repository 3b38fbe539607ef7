(** Thread election inside a partition: kernel/core/sched.c:445-673.

    Debug output is left out. [p] is the number of the processor (pok_get_proc_id), [idle] its
    IDLE_THREAD, [th] the table pok_threads. Thread numbers are small, so that the additions on
    uint32_t never wrap; the result [None] stands for a loop that does not terminate. *)
From Verif Require Import Model.Base Model.State.

(** The test that the three policies share (sched.c:464-465, 523-524, 615-616). *)
Definition ready_on (p : Z) (th : Z -> thread) (i : Z) : bool :=
  (t_state (th i) =? ST_RUNNABLE) && (t_affinity (th i) =? p).

(** i++; if (i >= index_high) i = index_low;  (sched.c:459-462, 529-532, 610-613). *)
Definition bump (low high i : Z) : Z := if high <=? i + 1 then low else i + 1.

(** sched.c:609-616: do-while search of the next ready thread. *)
Fixpoint rr_scan (fuel : nat) (p : Z) (th : Z -> thread) (low high from e : Z) : option Z :=
  match fuel with
  | O => None
  | S k =>
      let e' := bump low high e in
      if negb (e' =? from) && negb (ready_on p th e')
      then rr_scan k p th low high from e'
      else Some e'
  end.

(** pok_sched_part_rr, sched.c:586-673. The fuel exceeds the number of threads of the partition;
    a longer search visits the same threads again. *)
Definition sched_rr (p idle : Z) (th : Z -> thread) (low high prev cur : Z) : option Z :=
  let from := if cur =? idle then (if prev =? idle then low else prev) else cur in
  if ((0 <? t_remaining (th cur)) || (t_capacity (th cur) =? INFINITE))
     && ready_on p th cur && negb (cur =? idle)
  then Some cur
  else
    match rr_scan (S (Z.to_nat (high - low))) p th low high from from with
    | None => None
    | Some e => if (e =? from) && negb (ready_on p th e) then Some idle else Some e
    end.

(** sched.c:522-533: do-while search of the maximal priority; [best] is max_thread. *)
Fixpoint static_scan (fuel : nat) (p : Z) (th : Z -> thread) (low high from i mprio best : Z)
  : option (Z * Z) :=
  match fuel with
  | O => None
  | S k =>
      let '(mprio', best') :=
        if ready_on p th i && (mprio <? t_priority (th i)) then (t_priority (th i), i)
        else (mprio, best) in
      let i' := bump low high i in
      if i' =? from then Some (mprio', best')
      else static_scan k p th low high from i' mprio' best'
  end.

(** pok_sched_part_static, sched.c:509-583. *)
Definition sched_static (p idle : Z) (th : Z -> thread) (low high prev cur : Z) : option Z :=
  let from := if prev =? idle then low else if cur =? idle then prev else cur in
  match static_scan (S (Z.to_nat (high - low))) p th low high from from (-1) cur with
  | None => None
  | Some (mprio, best) => Some (if 0 <=? mprio then best else idle)
  end.

(** sched.c:458-465. *)
Fixpoint rms_scan (fuel : nat) (p : Z) (th : Z -> thread) (low high res : Z) : option Z :=
  match fuel with
  | O => None
  | S k =>
      let r := bump low high res in
      if negb (r =? low) && negb (ready_on p th r)
      then rms_scan k p th low high r
      else Some r
  end.

(** pok_sched_part_rms, sched.c:445-505. *)
Definition sched_rms (p idle : Z) (th : Z -> thread) (low high : Z) : option Z :=
  match rms_scan (S (Z.to_nat (high - low))) p th low high low with
  | None => None
  | Some r => Some (if (r =? low) && negb (ready_on p th r) then idle else r)
  end.

(** pok_thread_insert_sort, kernel/core/thread.c:54-65; [i] is index_high, the loop index j runs down
    from i - 1 to index_low. Entries move as a whole; [key] is the period of an entry. *)
Fixpoint insert_shift {A : Type} (fuel : nat) (key : A -> Z) (th : Z -> A) (low j : Z) (val : A) : Z -> A :=
  match fuel with
  | O => upd th (j + 1) val
  | S k =>
      if (low <=? j) && (key val <? key (th j))
      then insert_shift k key (upd th (j + 1) (th j)) low (j - 1) val
      else upd th (j + 1) val
  end.
Definition insert_sort {A : Type} (key : A -> Z) (th : Z -> A) (low i : Z) : Z -> A :=
  insert_shift (Z.to_nat (i - low)) key th low (i - 1) (th i).

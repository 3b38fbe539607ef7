(** Wait queues of lock objects: the ring buffer of kernel/core/lockobj.c:430-503. *)
From Verif Require Import Model.Base.

(** kernel/include/core/lockobj.h:54-59 (pok_lockobj_fifo_t). *)
Record fifo := mkFifo {
  f_head  : Z;
  f_last  : Z;
  f_empty : bool;
  f_buf   : Z -> Z
}.

(** Queueing disciplines, lockobj.h:43-46. *)
Definition QD_FIFO := 0.
Definition QD_PRIORITY := 1.

(** lockobj.c:430-433; the buffer keeps its old contents. *)
Definition fifo_init (f : fifo) : fifo := mkFifo 0 0 true (f_buf f).

(** lockobj.c:434-436. *)
Definition fifo_get_head (f : fifo) : Z := f_buf f (f_head f).

(** lockobj.c:477-479. *)
Definition fifo_is_empty (f : fifo) : bool := f_empty f.

(** Successor and predecessor of a ring index; n is POK_CONFIG_NB_THREADS
    (lockobj.c:443,450,458,471 and 453-454,495). *)
Definition nxt (n i : Z) : Z := (i + 1) mod n.
Definition prv (n i : Z) : Z := if i =? 0 then n - 1 else i - 1.

(** lockobj.c:447-451: search of the insertion point. [None] when the loop has
    not stopped after [fuel] iterations. *)
Fixpoint prio_scan (fuel : nat) (n : Z) (prio : Z -> Z) (f : fifo) (thr i : Z) : option Z :=
  match fuel with
  | O => None
  | S k =>
      if (negb (i =? f_last f)) && (prio thr <=? prio (f_buf f i))
      then prio_scan k n prio f thr (nxt n i)
      else Some i
  end.

(** lockobj.c:452-455: shift of the elements behind the insertion point. *)
Fixpoint shift_back (fuel : nat) (n : Z) (b : Z -> Z) (j i : Z) : option (Z -> Z) :=
  match fuel with
  | O => None
  | S k =>
      if j =? i then Some b
      else shift_back k n (upd b j (b (prv n j))) (prv n j) i
  end.

(** lockobj.c:437-467. Result [None]: a loop does not terminate.
    The disabled debug printf (462-464) is left out. *)
Definition fifo_enqueue (n : Z) (prio : Z -> Z) (f : fifo) (thr disc : Z)
  : option (fifo * Z) :=
  if disc =? QD_FIFO then
    if negb (f_empty f) && (f_last f =? f_head f) then Some (f, ERR_FULL)
    else Some (mkFifo (f_head f) (nxt n (f_last f)) false
                      (upd (f_buf f) (f_last f) thr), ERR_OK)
  else if disc =? QD_PRIORITY then
    match prio_scan (S (Z.to_nat n)) n prio f thr (f_head f) with
    | None => None
    | Some i =>
        match shift_back (S (Z.to_nat n)) n (f_buf f) (f_last f) i with
        | None => None
        | Some b => Some (mkFifo (f_head f) (nxt n (f_last f)) false (upd b i thr), ERR_OK)
        end
    end
  else Some (f, ERR_PARAM).

(** lockobj.c:468-475. *)
Definition fifo_dequeue (n : Z) (f : fifo) : fifo * Z :=
  if f_empty f then (f, ERR_EMPTY)
  else
    let h := nxt n (f_head f) in
    (mkFifo h (f_last f) (f_last f =? h) (f_buf f), ERR_OK).
(* The C code sets is_empty only when last = head; it was FALSE before, so the
   new flag is exactly that comparison. *)

(** lockobj.c:486-492: do-while search. [Some tmp] with tmp = n when absent;
    [None] when the loop has not stopped. *)
Fixpoint remove_scan (fuel : nat) (n : Z) (f : fifo) (thr i : Z) : option Z :=
  match fuel with
  | O => None
  | S k =>
      if f_buf f i =? thr then Some i
      else
        let i' := nxt n i in
        if i' =? f_last f then Some n else remove_scan k n f thr i'
  end.

(** lockobj.c:496-499. *)
Fixpoint shift_fwd (fuel : nat) (n : Z) (b : Z -> Z) (tmp last : Z) : option (Z -> Z) :=
  match fuel with
  | O => None
  | S k =>
      if tmp =? last then Some b
      else shift_fwd k n (upd b tmp (b (nxt n tmp))) (nxt n tmp) last
  end.

(** lockobj.c:481-503. *)
Definition fifo_remove (n : Z) (f : fifo) (thr : Z) : option (fifo * Z) :=
  if f_empty f then Some (f, ERR_NOTFOUND)
  else
    match remove_scan (S (Z.to_nat n)) n f thr (f_head f) with
    | None => None
    | Some tmp =>
        if tmp =? n then Some (f, ERR_NOTFOUND)
        else
          let last' := prv n (f_last f) in
          match shift_fwd (S (Z.to_nat n)) n (f_buf f) tmp last' with
          | None => None
          | Some b => Some (mkFifo (f_head f) last' (last' =? f_head f) b, ERR_OK)
          end
    end.

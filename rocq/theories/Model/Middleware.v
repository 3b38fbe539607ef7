(** Communication inside a partition: buffers and blackboards of libpok/middleware.

    The operations of a buffer or blackboard are executed under the event of that object (pok_event_lock ..
    pok_event_unlock), hence as one step each; where pok_event_wait would be called the step ends with the outcome
    "blocks" and the state is that before the wait (the loop tests its condition again after it). What the kernel
    answers to pok_event_create is a parameter. The offsets in the data arrays are computed in uint32_t; a copy that
    leaves the array of 1024 bytes is an ordinary copy here: cells outside [0, 1024) stand for what the linker has put
    there. *)
From Verif Require Import Model.Base.

Definition DATA_SIZE := 1024. (* libpok/middleware/ressources.c:23, ressources.c:28 *)
Definition MW_FULL := ERR_FULL. (* libpok/include/errno.h *)

(** streq, libpok/libc/string/streq.c:26-41: compares as many characters as the shorter string has, that number taken
    modulo 256. *)
Fixpoint streq_loop (n : nat) (a b : list Z) : bool :=
  match n, a, b with
  | S k, x :: a', y :: b' => if x =? y then streq_loop k a' b' else false
  | _, _, _ => true
  end.
Definition streq (a b : list Z) : bool :=
  streq_loop (Z.to_nat (u8 (if Z.of_nat (length a) <? Z.of_nat (length b) then Z.of_nat (length a) else Z.of_nat (length b)))) a b.

(** memcpy between an array and a message: [len] bytes. *)
Definition put_bytes (d : Z -> Z) (off : Z) (msg : Z -> Z) (len : Z) : Z -> Z :=
  fun x => if (off <=? x) && (x <? off + len) then msg (x - off) else d x.
Definition get_bytes (d : Z -> Z) (off len : Z) : list Z :=
  map (fun k => d (off + Z.of_nat k)) (seq 0 (Z.to_nat len)).

(** The loop over the names in the create and id functions (buffercreate.c:39-40, blackboardcreate.c:35-36): first
    index whose name is streq. *)
Fixpoint find_name (names : list (list Z)) (name : list Z) (n : Z) : option Z :=
  match names with
  | [] => None
  | x :: t => if streq name x then Some n else find_name t name (n + 1)
  end.

(** * Buffers *)

(** pok_buffer_t, libpok/include/middleware/buffer.h:29-41; discipline, waiting_processes and the number of the event
    are never used. *)
Record buffer := mkBuffer {
  b_ready : bool; b_empty : bool; b_full : bool; b_size : Z; b_index : Z; b_offb : Z; b_offe : Z; b_msgsize : Z
}.

(** pok_buffers, pok_buffers_data, pok_buffers_data_index. *)
Record buffers := mkBuffers { bu : Z -> buffer; bu_data : Z -> Z; bu_next : Z }.

(** Static storage is zero; pok_buffer_init, bufferinit.c:24-34. *)
Definition buffers_start : buffers :=
  mkBuffers (fun _ => mkBuffer false true false 0 0 0 0 0) (fun _ => 0) 0.

(** [Returns c]: with code [c]; [Delivers msg len]: code OK, the message and the length stored; [Blocks]: in
    pok_event_wait; [Endless]: never comes back by itself; [Outside]: reads behind the array of buffers; [DivZero]. *)
Inductive mw_out := Returns (code : Z) | Created (id : Z) | Delivers (msg : list Z) (len : Z) | Blocks | Endless | Outside | DivZero.

(** pok_buffer_create, buffercreate.c:31-69. *)
Definition buffer_create (names : list (list Z)) (name : list Z) (size msgsize : Z) (event_ret : Z) (s : buffers) : buffers * mw_out :=
  match find_name names name 0 with
  | None => (s, Returns ERR_EINVAL)
  | Some n =>
      if b_ready (bu s n) then (s, Returns ERR_READY)
      else if negb (event_ret =? ERR_OK) then (s, Returns event_ret)
      else (mkBuffers (upd (bu s) n (mkBuffer true true (b_full (bu s n)) size (bu_next s) 0 0 msgsize)) (bu_data s)
              (u32 (bu_next s + size)), Created n)
  end.

(** pok_buffer_send, buffersend.c:30-84. [data]: [None] for a null pointer. *)
Definition buffer_send (nb id : Z) (data : option (Z -> Z)) (len timeout : Z) (s : buffers) : buffers * mw_out :=
  let b := bu s id in
  if nb <? id then (s, Returns ERR_EINVAL)
  else if id =? nb then (s, Outside)
  else if negb (b_ready b) then (s, Returns ERR_EINVAL)
  else match data with
  | None => (s, Returns ERR_EINVAL)
  | Some msg =>
      if len <=? 0 then (s, Returns ERR_EINVAL)
      else if u32 (b_size b * b_msgsize b) <? len then (s, Returns ERR_EINVAL)
      else if b_full b then (s, if timeout =? 0 then Returns ERR_FULL else Blocks)
      else
        let d := put_bytes (bu_data s) (u32 (b_index b + b_offe b)) msg len in
        if b_size b =? 0 then (s, DivZero)
        else
          let offe := u32 (b_offe b + len) mod b_size b in
          (mkBuffers (upd (bu s) id (mkBuffer true false (if offe =? b_offb b then true else b_full b) (b_size b) (b_index b)
                                       (b_offb b) offe (b_msgsize b))) d (bu_next s), Returns ERR_OK)
  end.

(** pok_buffer_receive, bufferreceive.c:30-77. With timeout 0 the loop of lines 48-57 only gives the lock back and
    tests the same condition again. *)
Definition buffer_receive (nb id : Z) (timeout : Z) (null : bool) (s : buffers) : buffers * mw_out :=
  let b := bu s id in
  if nb <? id then (s, Returns ERR_EINVAL)
  else if id =? nb then (s, Outside)
  else if negb (b_ready b) then (s, Returns ERR_EINVAL)
  else if null then (s, Returns ERR_EINVAL)
  else if b_empty b then (s, if timeout =? 0 then Endless else Blocks)
  else
    let msg := get_bytes (bu_data s) (u32 (b_index b + b_offb b)) (b_msgsize b) in
    if b_size b =? 0 then (s, DivZero)
    else
      let offb := u32 (b_offb b + b_msgsize b) mod b_size b in
      (mkBuffers (upd (bu s) id (mkBuffer true (if offb =? b_offe b then true else b_empty b) false (b_size b) (b_index b)
                                   offb (b_offe b) (b_msgsize b))) (bu_data s) (bu_next s),
       Delivers msg (b_msgsize b)).

Inductive buffer_op :=
| BCreate (name : list Z) (size msgsize event_ret : Z)
| BSend (id : Z) (data : option (Z -> Z)) (len timeout : Z)
| BReceive (id timeout : Z) (null : bool).

Definition buffer_step (names : list (list Z)) (o : buffer_op) (s : buffers) : buffers * mw_out :=
  let nb := Z.of_nat (length names) in
  match o with
  | BCreate name size msgsize r => buffer_create names name size msgsize r s
  | BSend id data len timeout => buffer_send nb id data len timeout s
  | BReceive id timeout null => buffer_receive nb id timeout null s
  end.

Fixpoint buffer_run (names : list (list Z)) (ops : list buffer_op) (s : buffers) : buffers * list mw_out :=
  match ops with
  | [] => (s, [])
  | o :: t => let '(s1, r) := buffer_step names o s in let '(s2, rs) := buffer_run names t s1 in (s2, r :: rs)
  end.

(** * Blackboards *)

(** pok_blackboard_t, libpok/include/middleware/blackboard.h:24-31. *)
Record board := mkBoard { k_size : Z; k_empty : bool; k_index : Z; k_ready : bool }.
Record boards := mkBoards { bo : Z -> board; bo_data : Z -> Z; bo_next : Z }.

(** Static storage; pok_blackboard_init, blackboardinit.c:24-31. *)
Definition boards_start : boards := mkBoards (fun _ => mkBoard 0 false 0 false) (fun _ => 0) 0.

(** pok_blackboard_create, blackboardcreate.c:30-59. *)
Definition board_create (names : list (list Z)) (name : list Z) (size event_ret : Z) (s : boards) : boards * mw_out :=
  match find_name names name 0 with
  | None => (s, Returns ERR_EINVAL)
  | Some n =>
      if k_ready (bo s n) then (s, Returns ERR_READY)
      else if negb (event_ret =? ERR_OK) then (s, Returns event_ret)
      else (mkBoards (upd (bo s) n (mkBoard size true (bo_next s) true)) (bo_data s) (u32 (bo_next s + size)), Created n)
  end.

(** pok_blackboard_display, blackboarddisplay.c:28-55. *)
Definition board_display (nb id : Z) (data : option (Z -> Z)) (len : Z) (s : boards) : boards * mw_out :=
  let k := bo s id in
  if nb <? id then (s, Returns ERR_EINVAL)
  else match data with
  | None => (s, Returns ERR_EINVAL)
  | Some msg =>
      if id =? nb then (s, Outside)
      else if k_size k <? len then (s, Returns ERR_SIZE)
      else if negb (k_ready k) then (s, Returns ERR_EINVAL)
      else (mkBoards (bo s) (put_bytes (bo_data s) (k_index k) msg len) (bo_next s), Returns ERR_OK)
  end.

(** pok_blackboard_read, blackboardread.c:28-58. *)
Definition board_read (nb id : Z) (null : bool) (s : boards) : boards * mw_out :=
  let k := bo s id in
  if nb <? id then (s, Returns ERR_EINVAL)
  else if null then (s, Returns ERR_EINVAL)
  else if id =? nb then (s, Outside)
  else if negb (k_ready k) then (s, Returns ERR_EINVAL)
  else (s, Delivers (get_bytes (bo_data s) (k_index k) (k_size k)) (k_size k)).

(** pok_blackboard_clear, blackboardclear.c:25-32. *)
Definition board_clear (nb id : Z) (s : boards) : boards * mw_out :=
  let k := bo s id in
  if nb <? id then (s, Returns ERR_EINVAL)
  else if id =? nb then (s, Outside)
  else (mkBoards (upd (bo s) id (mkBoard (k_size k) true (k_index k) (k_ready k))) (bo_data s) (bo_next s), Returns ERR_OK).

Inductive board_op :=
| KCreate (name : list Z) (size event_ret : Z)
| KDisplay (id : Z) (data : option (Z -> Z)) (len : Z)
| KRead (id : Z) (null : bool)
| KClear (id : Z).

Definition board_step (names : list (list Z)) (o : board_op) (s : boards) : boards * mw_out :=
  let nb := Z.of_nat (length names) in
  match o with
  | KCreate name size r => board_create names name size r s
  | KDisplay id data len => board_display nb id data len s
  | KRead id null => board_read nb id null s
  | KClear id => board_clear nb id s
  end.

Fixpoint board_run (names : list (list Z)) (ops : list board_op) (s : boards) : boards * list mw_out :=
  match ops with
  | [] => (s, [])
  | o :: t => let '(s1, r) := board_step names o s in let '(s2, rs) := board_run names t s1 in (s2, r :: rs)
  end.

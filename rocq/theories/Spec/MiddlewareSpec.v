(** What buffers and blackboards are expected to do. *)
From Verif Require Import Model.Base Model.Middleware.

(** A list is the beginning of another. *)
Definition prefix_of (a b : list Z) : Prop := exists t, b = a ++ t.

(** Names that streq can tell apart: shorter than 256 and none the beginning of another. *)
Definition good_names (names : list (list Z)) : Prop :=
  Forall (fun x => Z.of_nat (length x) < 256) names /\
  forall i j a b, nth_error names i = Some a -> nth_error names j = Some b -> prefix_of a b -> i = j.

(** Position of a name. *)
Fixpoint position (names : list (list Z)) (name : list Z) (n : Z) : option Z :=
  match names with
  | [] => None
  | x :: t => if list_eq_dec Z.eq_dec name x then Some n else position t name (n + 1)
  end.

Definition bytes_of (msg : Z -> Z) (len : Z) : list Z := map (fun k => msg (Z.of_nat k)) (seq 0 (Z.to_nat len)).

(** * Buffers: bounded queues of messages of one size *)

Record queue := mkQueue { q_capacity : Z; q_msgsize : Z; q_items : list (list Z) }.
Record queues := mkQueues { qs : Z -> option queue; qs_used : Z }.
Definition queues_start : queues := mkQueues (fun _ => None) 0.

(** One operation on the queues; [None] outside the use that is specified: buffers are created with a size that is a
    multiple of a positive message size and fits into the memory left, under a name that is configured; messages
    have exactly the size of the buffer; ids are below the number of buffers or above it; and nobody polls an empty
    buffer. *)
Definition queue_step (names : list (list Z)) (o : buffer_op) (st : queues) : option (queues * mw_out) :=
  let nb := Z.of_nat (length names) in
  match o with
  | BCreate name size msz r =>
      match position names name 0 with
      | None => None
      | Some n =>
          match qs st n with
          | Some _ => Some (st, Returns ERR_READY)
          | None =>
              if negb (r =? ERR_OK) then Some (st, Returns r)
              else if (0 <? msz) && (0 <? size) && (size mod msz =? 0) && (qs_used st + size <=? DATA_SIZE)
              then Some (mkQueues (upd (qs st) n (Some (mkQueue (size / msz) msz []))) (qs_used st + size), Created n)
              else None
          end
      end
  | BSend id data len timeout =>
      if (id <? 0) || (id =? nb) then None
      else if nb <? id then Some (st, Returns ERR_EINVAL)
      else match qs st id, data with
      | None, _ | _, None => Some (st, Returns ERR_EINVAL)
      | Some q, Some msg =>
          if negb (len =? q_msgsize q) then None
          else if Z.of_nat (length (q_items q)) =? q_capacity q
          then Some (st, if timeout =? 0 then Returns ERR_FULL else Blocks)
          else Some (mkQueues (upd (qs st) id (Some (mkQueue (q_capacity q) (q_msgsize q) (q_items q ++ [bytes_of msg len])))) (qs_used st),
                     Returns ERR_OK)
      end
  | BReceive id timeout null =>
      if (id <? 0) || (id =? nb) then None
      else if nb <? id then Some (st, Returns ERR_EINVAL)
      else match qs st id with
      | None => Some (st, Returns ERR_EINVAL)
      | Some q =>
          if null then Some (st, Returns ERR_EINVAL)
          else match q_items q with
          | [] => if timeout =? 0 then None else Some (st, Blocks)
          | m :: t => Some (mkQueues (upd (qs st) id (Some (mkQueue (q_capacity q) (q_msgsize q) t))) (qs_used st),
                            Delivers m (q_msgsize q))
          end
      end
  end.

Fixpoint queue_run (names : list (list Z)) (ops : list buffer_op) (st : queues) : option (queues * list mw_out) :=
  match ops with
  | [] => Some (st, [])
  | o :: t => match queue_step names o st with
              | None => None
              | Some (st1, r) => match queue_run names t st1 with None => None | Some (st2, rs) => Some (st2, r :: rs) end
              end
  end.

(** * Blackboards *)

(** The latest message that a successful display of blackboard [id] left, from the outcomes of a history. *)
Fixpoint last_display (id : Z) (h : list (board_op * mw_out)) : option (list Z) :=
  match h with   (* latest first *)
  | [] => None
  | (KDisplay i (Some msg) len, Returns c) :: t =>
      if (i =? id) && (c =? ERR_OK) then Some (bytes_of msg len) else last_display id t
  | _ :: t => last_display id t
  end.

(** Memory given to blackboards so far. *)
Fixpoint created_total (h : list (board_op * mw_out)) : Z :=
  match h with
  | [] => 0
  | (KCreate _ size _, Created _) :: t => size + created_total t
  | _ :: t => created_total t
  end.

(** Arguments within the types of the functions, and blackboards that fit into the memory. *)
Definition fair_use (o : board_op) (h : list (board_op * mw_out)) : Prop :=
  match o with
  | KCreate _ size _ => 0 <= size /\ created_total h + size <= DATA_SIZE
  | KDisplay id _ len => 0 <= id /\ 0 <= len
  | KRead id _ | KClear id => 0 <= id
  end.

(** Histories, latest first. *)
Inductive board_history (names : list (list Z)) : list (board_op * mw_out) -> boards -> Prop :=
| bh_start : board_history names [] boards_start
| bh_step : forall h s o s' out, board_history names h s -> fair_use o h ->
    board_step names o s = (s', out) -> board_history names ((o, out) :: h) s'.

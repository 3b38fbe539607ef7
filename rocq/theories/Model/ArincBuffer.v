(** libpok/arinc653/buffer.c and the status and identifier services of buffers and blackboards, on Model/Middleware.v.
    Simplified: the product of two signed 32-bit numbers wraps; what a local variable holds before it is assigned is a parameter ([junk]). *)
From Verif Require Import Model.Base Model.Middleware.

(** What a service leaves: *RETURN_CODE, and the identifier or the message with its length where it stores one; or the outcome of the middleware where it does not return. *)
Inductive apex := Ret (code : Z) | RetId (code id : Z) | RetMsg (code : Z) (msg : list Z) (len : Z) | Stuck (o : mw_out).

(** buffer.c:22-53, CREATE_BUFFER; FIFO = 0, PRIORITY = 1 (arinc653/types.h:60). [event]: what pok_event_create answers. *)
Definition create_buffer (names : list (list Z)) (name : list Z) (max nb disc junk event : Z) (s : buffers) : buffers * apex :=
  if negb ((disc =? 0) || (disc =? 1)) then (s, Ret 3)
  else match buffer_create names name (u32 (max * nb)) (u32 max) event s with
       | (s', Created n) => (s', RetId ERR_OK (u8 n))
       | (s', Returns c) => (s', RetId c (u8 junk))
       | (s', o) => (s', Stuck o)
       end.
(** buffer.c:55-64, SEND_BUFFER: the identifier has 8 bits in pok_buffer_send. [msg]: [None] for a null pointer. *)
Definition apex_send (count id : Z) (msg : option (Z -> Z)) (len timeout : Z) (s : buffers) : buffers * apex :=
  match buffer_send count (u8 id) msg (u32 len) (u64 timeout) s with
  | (s', Returns c) => (s', Ret c)
  | (s', o) => (s', Stuck o)
  end.
(** buffer.c:66-77, RECEIVE_BUFFER. *)
Definition apex_receive (count id timeout : Z) (s : buffers) : buffers * apex :=
  match buffer_receive count (u8 id) (u64 timeout) false s with
  | (s', Returns c) => (s', Ret c)
  | (s', Delivers m len) => (s', RetMsg ERR_OK m len)
  | (s', o) => (s', Stuck o)
  end.
(** buffersend.c:61-65 and bufferreceive.c:52-56 with buffer.c:63, 76: pok_event_wait has answered [ret], not POK_ERRNO_OK. *)
Definition apex_woken (ret : Z) : Z := ret.
(** buffer.c:79-95 and blackboard.c:54-77: GET_BUFFER_ID, GET_BUFFER_STATUS, CLEAR_BLACKBOARD, GET_BLACKBOARD_ID and GET_BLACKBOARD_STATUS store a code and nothing else. *)
Definition apex_other : apex := Ret 2.

(** bufferstatus.c:25-38, pok_buffer_status: nb_messages, max_messages (8 bits), message_size, waiting_processes. *)
Inductive status (A : Type) := Status (a : A) | Refused (code : Z) | Broken (o : mw_out).
Arguments Status {A}. Arguments Refused {A}. Arguments Broken {A}.
Definition buffer_status (count id : Z) (s : buffers) : status (Z * Z * Z * Z) :=
  if count <? id then Refused ERR_EINVAL
  else if id =? count then Broken Outside
  else if b_msgsize (bu s id) =? 0 then Broken DivZero
  else Status (0, u8 (b_size (bu s id) / b_msgsize (bu s id)), b_msgsize (bu s id), 0).
(** blackboardstatus.c:25-36, pok_blackboard_status: waiting_processes (set to 0 at creation, blackboardcreate.c:50, and nowhere else), msg_size, empty. *)
Definition board_status (count id : Z) (s : boards) : status (Z * Z * bool) :=
  if count <? id then Refused ERR_EINVAL
  else if id =? count then Broken Outside
  else Status (0, k_size (bo s id), k_empty (bo s id)).

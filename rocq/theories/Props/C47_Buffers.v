(** C47: the buffers of a partition deliver messages in the order sent, unaltered, and refuse a message when full.

    True if messages have exactly the size of the buffer. A shorter message comes out longer and shifts all that
    follow; a longer one is accepted and written over the neighbouring buffers; and a receive that should not wait
    on an empty buffer does not return. *)
From Verif Require Import Model.Base Model.Middleware Spec.MiddlewareSpec Proof.Tac Proof.MiddlewareProof.

(** Every history of all buffers of a partition has the outcomes of a set of bounded first-in-first-out queues, as long
    as the buffers are used as the queues are specified; and nothing is written outside the memory for buffers. *)
Theorem C47_fifo_partial : forall names ops st outs, good_names names ->
  queue_run names ops queues_start = Some (st, outs) ->
  snd (buffer_run names ops buffers_start) = outs /\
  forall x, ~ (0 <= x < DATA_SIZE) -> bu_data (fst (buffer_run names ops buffers_start)) x = bu_data buffers_start x.
Proof.
  intros names ops st outs G E.
  destruct (run_ok names ops buffers_start queues_start st outs G (start_ok names) E) as (s' & R & K).
  rewrite R. split; [reflexivity|]. intros x Hx. cbn [fst buffers_start bu_data]. now apply (bs_outside _ _ _ K).
Qed.
Print Assumptions C47_fifo_partial.

Definition two_names : list (list Z) := [[97]; [98]].
Lemma two_names_good : good_names two_names.
Proof.
  split; [repeat constructor; cbn; lia|]. intros i j a b Hi Hj [t E].
  destruct i as [|[|[|i]]]; cbn in Hi; inversion Hi; subst; destruct j as [|[|[|j]]]; cbn in Hj; inversion Hj; subst; try reflexivity; discriminate E.
Qed.

(** Two buffers; the second of two messages goes round the end of the ring, a third is refused. *)
Example C47_example :
  let m := fun v (_ : Z) => v in
  let ops := [BCreate [97] 8 4 0; BCreate [98] 4 4 0; BSend 0 (Some (m 1)) 4 0; BSend 1 (Some (m 7)) 4 0; BReceive 0 5 false;
              BSend 0 (Some (m 2)) 4 0; BSend 0 (Some (m 3)) 4 0; BSend 0 (Some (m 4)) 4 0; BReceive 0 5 false; BReceive 0 5 false;
              BReceive 0 5 false; BReceive 1 5 false] in
  exists st outs, queue_run two_names ops queues_start = Some (st, outs) /\
    outs = [Created 0; Created 1; Returns 0; Returns 0; Delivers [1;1;1;1] 4; Returns 0; Returns 0; Returns ERR_FULL;
            Delivers [2;2;2;2] 4; Delivers [3;3;3;3] 4; Blocks; Delivers [7;7;7;7] 4].
Proof. vm_compute. do 2 eexists. split; reflexivity. Qed.

(** What one would expect of any single message within the limits that the buffer announces. *)
Definition any_length : Prop := forall msg len, 0 < len <= 4 ->
  snd (buffer_run [[97]] [BCreate [97] 8 4 0; BSend 0 (Some msg) len 0; BReceive 0 1 false] buffers_start) =
  [Created 0; Returns ERR_OK; Delivers (bytes_of msg len) len].
Theorem C47_short_refuted : ~ any_length.
Proof. intros H. specialize (H (fun _ => 5) 1 ltac:(lia)). vm_compute in H. discriminate H. Qed.
Print Assumptions C47_short_refuted.

(** Order is lost, too: after two messages of one byte the first receive takes both. *)
Theorem C47_order_refuted : ~ forall a b, exists c,
  snd (buffer_run [[97]] [BCreate [97] 8 2 0; BSend 0 (Some (fun _ => a)) 1 0; BSend 0 (Some (fun _ => b)) 1 0;
                          BReceive 0 1 false; BReceive 0 1 false] buffers_start) =
  [Created 0; Returns ERR_OK; Returns ERR_OK; Delivers (a :: fst c) 2; Delivers (b :: snd c) 2].
Proof. intros H. destruct (H 1 2) as [[c d] E]. vm_compute in E. discriminate E. Qed.
Print Assumptions C47_order_refuted.

(** A message that is too long is accepted and destroys the message in another buffer. *)
Theorem C47_long_refuted : ~ forall msg len, 4 < len ->
  let '(_, outs) := buffer_run two_names [BCreate [97] 8 4 0; BCreate [98] 4 4 0; BSend 1 (Some (fun _ => 9)) 4 0;
                                          BSend 0 (Some msg) len 0; BReceive 1 1 false] buffers_start in
  nth 3 outs Blocks <> Returns ERR_OK \/ nth 4 outs Blocks = Delivers [9;9;9;9] 4.
Proof. intros H. specialize (H (fun _ => 5) 12 ltac:(lia)). vm_compute in H. destruct H as [H|H]; [now apply H|discriminate H]. Qed.
Print Assumptions C47_long_refuted.

(** A receive with timeout zero never comes back from an empty buffer. *)
Theorem C47_poll_refuted : ~ forall names s id, snd (buffer_receive names id 0 false s) <> Endless.
Proof.
  intros H. apply (H 1 (fst (buffer_run [[97]] [BCreate [97] 8 4 0] buffers_start)) 0). vm_compute. reflexivity.
Qed.
Print Assumptions C47_poll_refuted.

(** Id [nb], one behind the last buffer, is not refused. *)
Theorem C47_id_refuted : ~ forall names id data len timeout s, Z.of_nat (length names) <= id ->
  snd (buffer_step names (BSend id data len timeout) s) = Returns ERR_EINVAL.
Proof. intros H. specialize (H [[97]] 1 None 1 0 buffers_start ltac:(cbn; lia)). vm_compute in H. discriminate H. Qed.
Print Assumptions C47_id_refuted.

(** C11: every ready thread is elected within as many elections as there are ready threads. *)
From Verif Require Import Model.Base Model.State Model.Sched Model.Kernel Spec.SchedSpec Proof.SchedProof Proof.FairProof.

Theorem C11_round_robin_fair : forall p idle low high th0 ths es prev cur x,
  ~ in_range low high idle -> low < high ->
  idle_or_in idle low high prev -> in_range low high cur ->
  elections (fun th pr cu => sched_rr p idle th low high pr cu) idle prev cur ths es -> exhausted cur ths es ->
  (forall th i, In th ths -> in_range low high i -> (ready_thread p th i <-> ready_thread p th0 i)) ->
  (length (ready_ids p low high th0) <= length ths)%nat ->
  In x (ready_ids p low high th0) -> In x es.
Proof. exact rr_fair. Qed.
Print Assumptions C11_round_robin_fair.

(** Threads 1, 2 and 4 of the range 1..4 are ready, thread 3 is blocked. *)
Definition c11_table : Z -> thread := fun i => set_t_state (if i =? 3 then ST_LOCK else ST_RUNNABLE) zero_thread.
Definition c11_elections : list Z := [4; 1; 2].
Example c11_case :
  elections (fun th pr cu => sched_rr 0 9 th 1 5 pr cu) 9 9 2 [c11_table; c11_table; c11_table] c11_elections /\
  exhausted 2 [c11_table; c11_table; c11_table] c11_elections /\ ready_ids 0 1 5 c11_table = [1; 2; 4].
Proof.
  split; [|split; [cbn; intuition discriminate|reflexivity]].
  repeat (econstructor; [vm_compute; reflexivity|]). constructor.
Qed.

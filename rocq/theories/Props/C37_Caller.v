(** C37: the system-call gate finds the calling partition from the code-segment selector. *)
From Verif Require Import Model.Base Model.Mem Spec.MemSpec Proof.Tac Proof.MemProof.

(** Whatever the privilege and table bits of the selector, the gate finds the partition to whose code
    segment the selector belongs. *)
Theorem C37_caller : forall np p cs, 1 <= np <= 255 -> 0 <= p <= 255 -> 0 <= cs < 2 ^ 16 ->
  cs / 8 = gdt_code np p -> partition_of np cs = p.
Proof.
  intros np p cs Hn Hp Hc H. apply partition_of_index; [lia|assumption|]. left.
  rewrite Z.shiftr_div_pow2 by lia. exact H.
Qed.
Print Assumptions C37_caller.

(** In particular for the selector with which the kernel starts the threads of a partition. *)
Theorem C37_dispatch : forall np p, 1 <= np <= 255 -> 0 <= p <= 255 ->
  partition_of np (code_selector np p) = p.
Proof.
  intros np p Hn Hp. apply partition_of_index; [lia|assumption|]. left. apply build_selector_shift.
Qed.
Print Assumptions C37_dispatch.

(** No two of the table entries in use coincide: a selector belongs to at most one partition, and never
    to the kernel or to a task state segment. *)
Theorem C37_distinct : forall np p q, 1 <= np -> 0 <= p -> 0 <= q ->
  gdt_code np p <> gdt_data np q /\
  (p <> q -> gdt_code np p <> gdt_code np q /\ gdt_data np p <> gdt_data np q) /\
  (forall c, 0 <= c < np -> gdt_tss c <> gdt_code np p /\ gdt_tss c <> gdt_data np p) /\
  gdt_code np p <> GDT_CORE_CODE /\ gdt_code np p <> GDT_CORE_DATA /\
  gdt_data np p <> GDT_CORE_CODE /\ gdt_data np p <> GDT_CORE_DATA.
Proof.
  intros np p q Hn Hp Hq. unfold gdt_code, gdt_data, gdt_tss, GDT_CORE_CODE, GDT_CORE_DATA. repeat split; intros; lia.
Qed.
Print Assumptions C37_distinct.

(** The table has 256 entries: the segments of partition [p] exist exactly when they fit. *)
Theorem C37_fits : forall np p b s g, 1 <= np -> 0 <= p ->
  ((exists g', create_space np p b s g = Some g') <-> 4 + np + 2 * p < 256).
Proof.
  intros np p b s g Hn Hp. split.
  - intros (g' & H). apply create_space_some in H. unfold gdt_data, GDT_SIZE in H. lia.
  - intros H. unfold create_space, gdt_write.
    assert (E1 : (0 <=? gdt_code np p) && (gdt_code np p <? GDT_SIZE) = true) by (unfold gdt_code, GDT_SIZE; lia).
    assert (E2 : (0 <=? gdt_data np p) && (gdt_data np p <? GDT_SIZE) = true) by (unfold gdt_data, GDT_SIZE; lia).
    rewrite E1, E2. eexists. reflexivity.
Qed.
Print Assumptions C37_fits.

(** Partition 5 on four processors: entry 17, selector 139. *)
Example C37_demo : code_selector 4 5 = 139 /\ partition_of 4 139 = 5 /\ 139 / 8 = gdt_code 4 5.
Proof. vm_compute. repeat split; reflexivity. Qed.

(** C85: Every vector leads to its handler; partitions enter the kernel through the system call only. *)
From Verif Require Import Model.Base Model.Timer Model.Smp Spec.X86Cpu Spec.X86Gates Model.X86Idt Proof.Tac Proof.TimerProof Proof.X86IdtProof.

(** pok_idt_set_gate writes the gate that its arguments describe, for the processor's reading of the descriptor, and no
    other. Types 6 and 7 are the 32-bit gates 14 and 15. *)
Theorem C85_gate : forall idt i sel off t dpl, 0 <= sel < 2 ^ 16 -> 0 <= off < 2 ^ 32 -> 0 <= t < 8 -> 0 <= dpl < 4 ->
  decode (idt_set_gate idt i sel off t dpl i) = mkGate off sel (t + 8) dpl true /\
  forall n, n <> i -> idt_set_gate idt i sel off t dpl n = idt n.
Proof. intros. split; [now apply gate_at|]. intros n Hn. now apply gate_other. Qed.
Print Assumptions C85_gate.

(** The kernel's code segment is present. *)
Definition kernel_code (code : Z -> option Z) : Prop := code 1 = Some 0.
(** What the architecture says about exceptions, and the vectors of the machine. *)
Definition wanted (several : bool) (n : Z) : option handler :=
  nth (Z.to_nat n)
    [Some divide_error; Some debug; Some nmi; Some breakpoint; Some overflow; Some boundrange; Some invalidopcode;
     Some nomath_coproc; Some doublefault; Some copseg_overrun; Some invalid_tss; Some segment_not_present;
     Some stackseg_fault; Some general_protection; Some pagefault; None; Some fpu_fault; Some alignement_check;
     Some machine_check; Some simd_fault; None; None; None; None; None; None; None; None; None; None; None; None;
     Some pit_interrupt; if several then Some IPI_test_gate else None;
     if several then Some global_sched_thread_gate else None; if several then Some sched_thread_gate else None;
     None; None; None; None; None; None; Some syscall_gate] None.
Lemma wanted_installed : forall several n, 0 <= n < 256 -> wanted several n = option_map fst (installed several n).
Proof.
  intros several n Hn.
  assert (B : Forall (fun n => wanted several n = option_map fst (installed several n)) (map Z.of_nat (seq 0 256))).
  { destruct several; repeat (constructor; [reflexivity|]); constructor. }
  rewrite Forall_forall in B. apply B. apply in_map_iff. exists (Z.to_nat n). split; [lia|]. apply in_seq. lia.
Qed.

(** After boot, whatever the memory held and wherever the handlers are: an interrupt or an exception reaches its handler,
    at every privilege level, and the other vectors are closed. *)
Theorem C85_boot : forall addr several idt code level n, (forall h, 0 <= addr h < 2 ^ 32) -> kernel_code code ->
  0 <= level <= 3 -> 0 <= n < 256 ->
  option_map fst (vector (boot addr several idt) idt_limit code level n false) = option_map addr (wanted several n).
Proof.
  intros addr several idt code level n A K Hl Hn. rewrite (wanted_installed several n Hn).
  pose proof (boot_gates addr several idt n A Hn) as B. unfold vector.
  destruct (Z.ltb_spec idt_limit (8 * n + 7)) as [X|_]; [unfold idt_limit, IDT_SIZE in X; lia|].
  destruct (installed several n) as [[h trap]|].
  - rewrite B. cbn [g_type g_dpl g_present g_sel g_offset]. change (8 <? 4) with false. change (8 / 8) with 1.
    rewrite K. destruct (Z.leb_spec 0 level); [|lia]. destruct trap; reflexivity.
  - rewrite B. reflexivity.
Qed.
Print Assumptions C85_boot.

(** The stubs for an error code are at exactly the vectors where the processor pushes one. *)
Theorem C85_errorcode : forall several n h, 0 <= n < 256 -> wanted several n = Some h ->
  errorcode_stub h = pushes_error n.
Proof.
  intros several n h Hn H.
  assert (B : Forall (fun n => forall h, wanted several n = Some h -> errorcode_stub h = pushes_error n) (map Z.of_nat (seq 0 256))).
  { destruct several; repeat (constructor; [intros g G; vm_compute in G; first [discriminate G | injection G as <-; reflexivity]|]); constructor. }
  rewrite Forall_forall in B. apply B; [|exact H]. apply in_map_iff. exists (Z.to_nat n). split; [lia|]. apply in_seq. lia.
Qed.
Print Assumptions C85_errorcode.

(** The INT instructions that a partition can execute: all installed vectors. *)
Theorem C85_open : forall addr several idt code n, (forall h, 0 <= addr h < 2 ^ 32) -> kernel_code code -> 0 <= n < 256 ->
  option_map fst (vector (boot addr several idt) idt_limit code 3 n true) = option_map addr (wanted several n).
Proof.
  intros addr several idt code n A K Hn. rewrite (wanted_installed several n Hn).
  pose proof (boot_gates addr several idt n A Hn) as B. unfold vector.
  destruct (Z.ltb_spec idt_limit (8 * n + 7)) as [X|_]; [unfold idt_limit, IDT_SIZE in X; lia|].
  destruct (installed several n) as [[h trap]|].
  - rewrite B. cbn [g_type g_dpl g_present g_sel g_offset]. change (8 <? 4) with false. change (8 / 8) with 1.
    rewrite K. destruct trap; reflexivity.
  - rewrite B. reflexivity.
Qed.
Print Assumptions C85_open.

(** So the claim about partitions is false. *)
Definition addr0 (h : handler) : Z := match h with pit_interrupt => 0x101000 | pci_handler => 0x103000 | _ => 0x102000 end.
Definition code0 (i : Z) : option Z := if i =? 1 then Some 0 else if i =? 4 then Some 3 else None.
Lemma addr0_range : forall h, 0 <= addr0 h < 2 ^ 32. Proof. intros []; cbn; lia. Qed.
Theorem C85_only_syscall_refuted : ~ (forall addr several idt code n, (forall h, 0 <= addr h < 2 ^ 32) -> kernel_code code ->
  0 <= n < 256 -> vector (boot addr several idt) idt_limit code 3 n true <> None -> n = 42).
Proof.
  intros H. specialize (H addr0 false (fun _ => 0) code0 32 addr0_range eq_refl ltac:(lia)). discriminate H.
  vm_compute. discriminate.
Qed.
Print Assumptions C85_only_syscall_refuted.

(** With INT 32 a partition moves the kernel's clock: [n] instructions, and the clock is [n] increments later than the
    timer has made it; and the scheduler runs whenever a quantum of that clock is over. *)
Theorem C85_clock_refuted : forall addr several idt code c n s s' l, (forall h, 0 <= addr h < 2 ^ 32) -> kernel_code code ->
  0 <= pit_increment c <= pit_quantum c -> 0 < pit_quantum c < 2 ^ 31 -> 0 <= pit_qc s < pit_quantum c ->
  pit_run c n s = (s', l) ->
  vector (boot addr several idt) idt_limit code 3 32 true = Some (addr pit_interrupt, true) /\
  u64 (pit_ticks s') = u64 (pit_ticks s + Z.of_nat n * pit_increment c) /\
  nsched l = (pit_qc s + Z.of_nat n * pit_increment c) / pit_quantum c.
Proof.
  intros addr several idt code c n s s' l A K I P Q E. split.
  - pose proof (boot_gates addr several idt 32 A ltac:(lia)) as B. cbn [installed find exception_list fst snd Z.eqb Pos.eqb] in B.
    unfold vector. rewrite B. cbn [g_type g_dpl g_present g_sel g_offset]. change (8 <? 4) with false. change (8 / 8) with 1.
    now rewrite K.
  - destruct (pit_run_spec c I (proj1 P) (proj2 P) n _ _ _ Q E) as (X1 & X2 & X3 & X4).
    split; [exact X4|]. apply (Z.div_unique _ _ _ (pit_qc s')); lia.
Qed.
Print Assumptions C85_clock_refuted.
(** 109 instructions on the board's constants: the scheduler is called though no time has passed. *)
Example C85_clock_example : let c := mkPit 11 9219 1000000 in
  pit_ticks (fst (pit_run c 109 pit_start)) = 1004871 /\ nsched (snd (pit_run c 109 pit_start)) = 1.
Proof. vm_compute. split; reflexivity. Qed.

(** With INT 34 on a machine with several processors a partition joins a rendezvous that nobody has called: the assertion
    fails. *)
Theorem C85_rendezvous_refuted : forall addr idt code n p s, (forall h, 0 <= addr h < 2 ^ 32) -> kernel_code code ->
  rv_fence s = 0 -> rv_at s p = JAssert1 ->
  vector (boot addr true idt) idt_limit code 3 34 true = Some (addr global_sched_thread_gate, true) /\ rv_step n p s = None.
Proof.
  intros addr idt code n p s A K F P. split.
  - pose proof (boot_gates addr true idt 34 A ltac:(lia)) as B. cbn [installed find exception_list fst snd Z.eqb Pos.eqb] in B.
    unfold vector. rewrite B. cbn [g_type g_dpl g_present g_sel g_offset]. change (8 <? 4) with false. change (8 / 8) with 1.
    now rewrite K.
  - unfold rv_step. rewrite P, F. reflexivity.
Qed.
Print Assumptions C85_rendezvous_refuted.

(** The gate of a PCI device has the selector 1, which is a null selector: every interrupt of the device is a general
    protection fault. *)
Theorem C85_pci_refuted : forall addr several idt code level line soft, (forall h, 0 <= addr h < 2 ^ 32) -> 0 <= line < 224 ->
  vector (pci_register addr line (boot addr several idt)) idt_limit code level (32 + line) soft = None.
Proof.
  intros addr several idt code level line soft A H. unfold vector, pci_register.
  rewrite (Z.mod_small line 256) by lia. rewrite gate_at; [|lia|apply A|unfold IDTE_INTERRUPT; lia|lia].
  cbn [g_type g_dpl g_present g_sel g_offset]. destruct (Z.ltb_spec idt_limit (8 * (32 + line) + 7)); [reflexivity|].
  change (negb ((IDTE_INTERRUPT + 8 =? INT_GATE) || (IDTE_INTERRUPT + 8 =? TRAP_GATE))) with false. cbv iota.
  change (1 <? 4) with true. cbn [negb]. now destruct (soft && (0 <? level)).
Qed.
Print Assumptions C85_pci_refuted.
(** A device on line 10 takes the place of the system call; a device that reports 255 (no line) has its gate written
    behind the table. *)
Theorem C85_line_refuted :
  (exists addr idt code, (forall h, 0 <= addr h < 2 ^ 32) /\ kernel_code code /\
     vector (boot addr false idt) idt_limit code 3 SYSCALL_INT true = Some (addr syscall_gate, false) /\
     vector (pci_register addr 10 (boot addr false idt)) idt_limit code 3 SYSCALL_INT true = None) /\
  (exists addr idt i, (forall h, 0 <= addr h < 2 ^ 32) /\ IDT_SIZE <= i /\
     pci_register addr 255 (boot addr false idt) i <> boot addr false idt i).
Proof.
  split.
  - exists addr0, (fun _ => 0), code0. split; [exact addr0_range|]. split; [reflexivity|]. split; vm_compute; reflexivity.
  - exists addr0, (fun _ => 0), 287. split; [exact addr0_range|]. split; [unfold IDT_SIZE; lia|]. vm_compute. discriminate.
Qed.
Print Assumptions C85_line_refuted.

Example C85_example : (forall h, 0 <= addr0 h < 2 ^ 32) /\ kernel_code code0 /\
  vector (boot addr0 true (fun _ => 7)) idt_limit code0 3 32 true = Some (0x101000, true) /\
  vector (boot addr0 true (fun _ => 7)) idt_limit code0 3 15 true = None /\
  vector (boot addr0 false (fun _ => 7)) idt_limit code0 3 33 true = None.
Proof. split; [exact addr0_range|]. split; [reflexivity|]. repeat split; vm_compute; reflexivity. Qed.

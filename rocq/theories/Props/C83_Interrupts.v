(** C83: An interrupt, an exception or a system call gives the interrupted program its registers back. *)
From Verif Require Import Model.Base Spec.X86Cpu Model.X86Entry Proof.Tac Proof.X86EntryProof.

Lemma enter_some : forall c err trap hd, running c -> exists c0, enter err trap hd c = Some c0.
Proof.
  intros c err trap hd R. unfold enter. rewrite (load_kernel _ (run_kdata _ R)), (load_kcode _ (run_kcode _ R)).
  eexists. reflexivity.
Qed.

(** Interrupts and exceptions without error code: the stub of INTERRUPT_HANDLER, around any C function. *)
Theorem C83_interrupt : forall c trap hd h j, running c -> c_function 68 h ->
  exists c0 c', enter None trap hd c = Some c0 /\ exec_all (stub h j) c0 = Some c' /\ resumed c c'.
Proof.
  intros c trap hd h j R Hh. destruct (enter_some c None trap hd R) as (c0 & E0). exists c0.
  destruct (enter_plain c c0 trap hd R E0) as (F & c2 & X & EN).
  destruct (body_ok c F c2 h j false R EN Hh) as (y & c' & _ & B & RS & _). exists c'.
  split; [exact E0|]. split; [|exact RS]. unfold stub. rewrite exec_app, X. exact B.
Qed.
Print Assumptions C83_interrupt.

(** Exceptions with error code. *)
Theorem C83_exception : forall c e trap hd h j, running c -> c_function 68 h ->
  exists c0 c', enter (Some e) trap hd c = Some c0 /\ exec_all (stub_errorcode h j) c0 = Some c' /\ resumed c c'.
Proof.
  intros c e trap hd h j R Hh. destruct (enter_some c (Some e) trap hd R) as (c0 & E0). exists c0.
  destruct (enter_error c c0 e trap hd R E0) as (F & c2 & X & EN).
  destruct (body_ok c F c2 h j false R EN Hh) as (y & c' & _ & B & RS & _). exists c'.
  split; [exact E0|]. split; [|exact RS]. unfold stub_errorcode. rewrite exec_app, X. exact B.
Qed.
Print Assumptions C83_exception.

(** System calls: eax holds what the handler left there, everything else is as before. *)
Theorem C83_syscall : forall c trap hd h j, running c -> c_function 68 h ->
  exists c0 y c', enter None trap hd c = Some c0 /\
    exec_all ([Cli; AddEsp (-4)] ++ stub_save ++ [Call h]) c0 = Some y /\
    exec_all (stub_syscall h j) c0 = Some c' /\
    resumed (set_gp (set_eax (eax (gp y)) (gp c)) c) c'.
Proof.
  intros c trap hd h j R Hh. destruct (enter_some c None trap hd R) as (c0 & E0). exists c0.
  destruct (enter_plain c c0 trap hd R E0) as (F & c2 & X & EN).
  destruct (body_ok c F c2 h j true R EN Hh) as (y & c' & Y & B & RS & _). exists y, c'.
  split; [exact E0|]. split; [rewrite exec_app, X; exact Y|]. split; [|exact RS].
  unfold stub_syscall. rewrite exec_app, X. exact B.
Qed.
Print Assumptions C83_syscall.

(** The handler finds in the frame what the program had in its registers: ebx and eax, from which the system call takes
    its arguments, and cs, from which it takes the partition. *)
Theorem C83_frame : forall c trap hd, running c ->
  exists c0 x, enter None trap hd c = Some c0 /\ exec_all ([Cli; AddEsp (-4)] ++ stub_save) c0 = Some x /\
    let frame := top x 0 in
    mem x (frame + 24) = ebx (gp c) /\ mem x (frame + 36) = eax (gp c) /\ mem x (frame + 48) = sel (cs c) /\
    (cpl c = 3 -> frame + 64 = esp0 c).
Proof.
  intros c trap hd R. destruct (enter_some c None trap hd R) as (c0 & E0). exists c0.
  destruct (enter_plain c c0 trap hd R E0) as (F & c2 & X & (A1 & A2 & _ & _ & _ & _ & A7 & _ & A9)).
  destruct (save_ok c2 F ltac:(rewrite A7; apply (run_kdata _ R)) A2) as (g & m & SV & S1 & S2 & _).
  eexists. split; [exact E0|]. split; [rewrite exec_app, X; exact SV|]. cbv zeta. unfold top. cbn [mem esp].
  rewrite Z.add_0_r, (sv_ptr _ _ _ _ _ _ S1), (sv_ebx _ _ _ _ _ _ S1), (sv_eax _ _ _ _ _ _ S1), A1.
  rewrite S2 by lia. rewrite (pu_cs _ _ _ A9). repeat split. intros L. symmetry. exact (pu_tss _ _ _ A9 L).
Qed.
Print Assumptions C83_frame.

(** A partition with segments 4 and 5 at 0x200000. *)
Definition table : Z -> option (Z * Z) := fun i =>
  if i =? 1 then Some (0, 0) else if i =? 2 then Some (0, 0) else if i =? 4 then Some (0x200000, 3)
  else if i =? 5 then Some (0x200000, 3) else None.
Definition user : cpu := mkCpu (mkGp 11 12 13 14 15 16 17) 0xfff0 0x1234 0x202
  (mkS 0x23 0x200000 3) (mkS 0x2b 0x200000 3) (mkS 0x2b 0x200000 3) (mkS 0x2b 0x200000 3) (mkS 0 0 3) (mkS 0 0 3)
  0 (fun _ => 0) 0x180000 table.
Lemma user_running : running user.
Proof.
  constructor; try reflexivity; unfold user; cbn; try (left; reflexivity); repeat split; try lia; reflexivity.
Qed.
Lemma id_c_function : forall n, c_function n (fun c => Some c).
Proof. intros n c. exists c. split; [reflexivity|]. unfold keeps. repeat split; reflexivity. Qed.

(** An error code is pushed by the exception, not by the instruction INT, to which the gate is open (C85): the stub
    of vector 13 then takes its frame to be one word lower than it is, and IRET takes cs for eip and the flags for cs. *)
Theorem C83_software_refuted : ~ (forall c hd h j, running c -> c_function 68 h ->
  exists c0 c', enter None false hd c = Some c0 /\ exec_all (stub_errorcode h j) c0 = Some c' /\ resumed c c').
Proof.
  intros H. destruct (H user 0x101000 (fun c => Some c) (0, 0, 0) user_running (id_c_function 68)) as (c0 & c' & E & X & _).
  vm_compute in E. injection E as <-. vm_compute in X. discriminate X.
Qed.
Print Assumptions C83_software_refuted.

(** The stub for IPIs calls pok_end_ipi after it has restored the registers: eax is lost, and the memory that is read
    and written is that of the partition. *)
Definition with_kernel_var : cpu := set_mem (fun a => if a =? 0x110000 then 0xfee00000 else if a =? 0x310000 then 0x5000 else 0) user.
Theorem C83_ipi_refuted : ~ (forall c hd h j v, running c -> c_function 68 h ->
  exists c0 c', enter None true hd c = Some c0 /\ exec_all (stub_ipi h j (end_ipi v)) c0 = Some c' /\ resumed c c').
Proof.
  intros H.
  assert (R : running with_kernel_var).
  { destruct user_running. constructor; assumption. }
  destruct (H with_kernel_var 0x101000 (fun c => Some c) (0, 0, 0) 0x110000 R (id_c_function 68)) as (c0 & c' & E & X & RS).
  vm_compute in E. injection E as <-. vm_compute in X. injection X as <-. destruct RS as [G _]. vm_compute in G. discriminate G.
Qed.
Print Assumptions C83_ipi_refuted.
(** The local APIC is not told: the word is written into the partition instead. *)
Theorem C83_eoi_refuted : exists c0 c',
  enter None true 0x101000 with_kernel_var = Some c0 /\
  exec_all (stub_ipi (fun c => Some c) (0, 0, 0) (end_ipi 0x110000)) c0 = Some c' /\
  mem with_kernel_var 0x110000 = 0xfee00000 /\ mem c' (0xfee00000 + 0xb0) = 0 /\
  0x200000 <= 0x2050b0 < 0x300000 /\ mem with_kernel_var 0x2050b0 = 0 /\ mem c' 0x2050b0 = 1.
Proof.
  do 2 eexists. split; [vm_compute; reflexivity|]. split; [vm_compute; reflexivity|].
  split; [reflexivity|]. split; [vm_compute; reflexivity|]. split; [lia|]. split; vm_compute; reflexivity.
Qed.
Print Assumptions C83_eoi_refuted.

(** Hypotheses can be met: a system call that returns 77. *)
Example C83_example : running user /\
  c_function 68 (fun c => Some (set_gp (set_eax 77 (gp c)) c)) /\
  exists c0 c', enter None false 0x101000 user = Some c0 /\
    exec_all (stub_syscall (fun c => Some (set_gp (set_eax 77 (gp c)) c)) (1, 2, 3)) c0 = Some c' /\
    eax (gp c') = 77 /\ ecx (gp c') = 12 /\ eip c' = 0x1234 /\ esp0 c' = 0x180000.
Proof.
  split; [exact user_running|]. split.
  - intros c. eexists. split; [reflexivity|]. unfold keeps. cbn. repeat split; reflexivity.
  - do 2 eexists. split; [vm_compute; reflexivity|]. split; [vm_compute; reflexivity|]. repeat split; reflexivity.
Qed.

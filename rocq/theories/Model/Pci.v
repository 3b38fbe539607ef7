(** kernel/arch/x86/pci.c and the system calls for ports and PCI of kernel/core/syscall.c. *)
From Verif Require Import Model.Base Spec.Pci.

(** pci.c:23-33, pci_read. *)
Definition pci_read (c : space) (bus dev fn reg : Z) : Z :=
  let addr := u32 (Z.lor (Z.lor (Z.lor (Z.lor (Z.shiftl 1 31) (Z.shiftl bus 16)) (Z.shiftl dev 11)) (Z.shiftl fn 8)) (Z.land reg 0xfc)) in
  Z.shiftr (data c addr) (Z.shiftl (Z.land reg 3) 3).
(** The loops of pci.c:44-46 with the limits of pci.h:42-44, in order. *)
Definition slots : list (Z * Z * Z) :=
  flat_map (fun bus => flat_map (fun dev => map (fun fn => (bus, dev, fn)) (map Z.of_nat (seq 0 8))) (map Z.of_nat (seq 0 32))) (map Z.of_nat (seq 0 8)).
(** pci.c:39-65, pci_open for a vendor and a device: where it is, bar[0] and irq_line. [None]: -1. *)
Definition fits (c : space) (v d : Z) (s : Z * Z * Z) : bool :=
  let '(bus, dev, fn) := s in
  (u16 (pci_read c bus dev fn 0x00) =? v) && (u16 (pci_read c bus dev fn 0x02) =? d) && (pci_read c bus dev fn 0x0e =? 0).
Definition pci_open (c : space) (v d : Z) : option (Z * Z * Z * Z * Z) :=
  match find (fits c v d) slots with
  | Some (bus, dev, fn) => Some (bus, dev, fn, pci_read c bus dev fn 0x10, u8 (pci_read c bus dev fn 0x3c))
  | None => None
  end.

(** io_min and io_max of each partition (partition.h:115-119, zero at boot), and the accesses to ports: partition, port, value written if any. *)
Record io := { lo : Z -> Z; hi : Z -> Z; seen : list (Z * Z * option Z) }.
Definition boot : io := {| lo := fun _ => 0; hi := fun _ => 0; seen := [] |}.
(** pci.c:87-100, pci_register; [range] is dev->io_range, from the partition. The gate is in C85. *)
Definition pci_register (c : space) (p v d range : Z) (s : io) : Z * io :=
  match pci_open c v d with
  | None => (u32 (-1), s)
  | Some (_, _, _, bar, _) =>
      let base := Z.land bar (u32 (Z.lnot 0x1f)) in
      (0, {| lo := upd (lo s) p (u16 base); hi := upd (hi s) p (u16 (u32 (base + range))); seen := seen s |})
  end.
(** syscall.c:382-398, POK_SYSCALL_INB and POK_SYSCALL_OUTB. [input]: what the ports give. *)
Definition sys_inb (input : Z -> Z) (p arg1 : Z) (s : io) : Z * io :=
  if (arg1 <? lo s p) || (hi s p <? arg1) then (u32 (- ERR_EPERM), s)
  else (input (u16 arg1), {| lo := lo s; hi := hi s; seen := seen s ++ [(p, u16 arg1, None)] |}).
Definition sys_outb (p arg1 arg2 : Z) (s : io) : Z * io :=
  if (arg1 <? lo s p) || (hi s p <? arg1) then (u32 (- ERR_EPERM), s)
  else (ERR_OK, {| lo := lo s; hi := hi s; seen := seen s ++ [(p, u16 arg1, Some (u8 arg2))] |}).

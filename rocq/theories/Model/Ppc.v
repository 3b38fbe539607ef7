(** Memory of the PowerPC port: kernel/arch/ppc/space.c, kernel/arch/ppc/prep/bsp.c, and the allocation of partitions in
    kernel/core/partition.c.

    The memory is a function from byte addresses (multiples of 4) to 32-bit words; only the page table is looked at.
    Not modelled: the vectors of entry.S around the two fault handlers, BAT registers (taken as invalid). *)
From Verif Require Import Model.Base.

(** struct pok_space, space.c:31-36. *)
Record pspace := mkSpace { sp_base : Z; sp_size : Z }.

(** spaces, pok_current_partition, the segment registers, the memory. *)
Record ppc := mkPpc { pp_spaces : list pspace; pp_cur : Z; pp_sr : Z -> Z; pp_mem : Z -> Z }.
Definition space_of (s : ppc) (p : Z) : pspace := nth (Z.to_nat p) (pp_spaces s) (mkSpace 0 0).

(** pok_bsp_mem_alloc, prep/bsp.c:29-35: the address and the new heap_end. *)
Definition ppc_alloc (heap sz : Z) : Z * Z :=
  let res := Z.land (u32 (heap + 4095)) 0xfffff000 in (res, u32 (res + sz)).

(** What boot allocates, in this order: partitions (core/partition.c:146-173, pok_create_space) and kernel stacks
    (space.c:72, thread.c:28). *)
Inductive request := RPartition (size : Z) | RStack (size : Z).
Fixpoint ppc_boot_spaces (l : list request) (heap : Z) : list pspace :=
  match l with
  | [] => []
  | RPartition sz :: r => let '(a, h) := ppc_alloc heap sz in mkSpace a sz :: ppc_boot_spaces r h
  | RStack sz :: r => let '(_, h) := ppc_alloc heap sz in ppc_boot_spaces r h
  end.

(** pok_arch_space_init, space.c:119-127: pt_base, pt_mask, SDR1. The page table is not cleared. *)
Definition pt_base := 0.
Definition pt_mask := 0x3ff.
Definition sdr1 := Z.lor pt_base (Z.shiftr pt_mask 10).

(** PPC_SR_KP, space.c:27. *)
Definition SR_KP := Z.shiftl 1 29.
(** pok_space_switch, space.c:48-53, with the assignment to pok_current_partition of core/sched.c. The first operand of
    mtsr is taken as segment register 0, which is what the source means; its constraint "r" lets the compiler put a
    register number there. *)
Definition ppc_switch (new : Z) (s : ppc) : ppc :=
  mkPpc (pp_spaces s) new (upd (pp_sr s) 0 (Z.lor SR_KP new)) (pp_mem s).

(** The loop of pok_insert_pte, space.c:134-140; [None]: lines 147-148, for ever. *)
Fixpoint insert_loop (n : nat) (i pteg w0 w1 : Z) (m : Z -> Z) : option (Z -> Z) :=
  match n with
  | O => None
  | S n =>
    if Z.land (m (pteg + 8 * i)) 0x80000000 =? 0
    then Some (upd (upd m (pteg + 8 * i + 4) w1) (pteg + 8 * i) w0)
    else insert_loop n (i + 1) pteg w0 w1 m
  end.

(** pok_insert_pte, space.c:129-149. *)
Definition insert_pte (vsid vaddr pte : Z) (m : Z -> Z) : option (Z -> Z) :=
  let hash := Z.lxor (Z.land vsid 0x7ffff) (Z.land (Z.shiftr vaddr 12) 0xffff) in
  let pteg := u32 (pt_base + u32 (Z.shiftl (Z.land hash pt_mask) 6)) in
  insert_loop 8 0 pteg
    (Z.lor (Z.lor 0x80000000 (u32 (Z.shiftl vsid 7))) (Z.land (Z.shiftr vaddr 22) 0x3f)) pte m.

(** pok_arch_isi_int, space.c:151-178, and pok_arch_dsi_int, space.c:180-203: the two do the same. [cause] is msr or
    dsisr. [None]: an endless loop in the kernel. *)
Definition page_fault (addr cause : Z) (s : ppc) : option ppc :=
  if Z.land cause (Z.shiftl 1 30) =? 0 then None
  else
    let sp := space_of s (pp_cur s) in
    if addr <? sp_size sp then
      let vaddr := Z.land addr 0xfffff000 in
      let v := Z.land (u32 (sp_base sp + vaddr)) 0xfffff000 in
      let v := Z.lor v 0x182 in
      match insert_pte (pp_cur s) vaddr v (pp_mem s) with
      | None => None
      | Some m => Some (mkPpc (pp_spaces s) (pp_cur s) (pp_sr s) m)
      end
    else None.

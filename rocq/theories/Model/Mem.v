(** Memory protection on x86: segment descriptors (kernel/arch/x86/gdt.c, gdt.h, space.c), selectors
    (gdt.h, syscalls.c) and the check of user pointers (kernel/include/core/partition.h).
    Integers are [Z]; every C expression of type uint32_t is reduced explicitly. *)
From Verif Require Import Model.Base.

(** ** Pointers *)

(** pok_check_ptr_in_partition, include/core/partition.h:142-156. [psize] is
    pok_partitions[pid].size. *)
Definition ptr_in_partition (nparts : Z) (psize : Z -> Z) (pid ptr size : Z) : bool :=
  if nparts <=? pid then false
  else if psize pid <? size then false
  else u32 ptr <=? u32 (psize pid - size).

(** ** Descriptors *)

(** gdt_entry_t, arch/x86/gdt.h:28-40. *)
Record desc := mkDesc {
  d_limit_low : Z;
  d_base_low : Z;
  d_type : Z;
  d_s : Z;
  d_dpl : Z;
  d_present : Z;
  d_limit_high : Z;
  d_available : Z;
  d_op_size : Z;
  d_granularity : Z;
  d_base_high : Z
}.

(** Consecutive bit-fields (width, value), first one in the low bits; a value is truncated to the width
    of its field when it is stored. *)
Fixpoint pack (l : list (Z * Z)) : Z :=
  match l with
  | [] => 0
  | (n, v) :: l' => v mod 2 ^ n + 2 ^ n * pack l'
  end.

(** The 64 bits of an entry, arch/x86/gdt.h:28-40 (packed attribute, little endian). *)
Definition desc_bits (d : desc) : Z :=
  pack [(16, d_limit_low d); (24, d_base_low d); (4, d_type d); (1, d_s d); (2, d_dpl d);
        (1, d_present d); (4, d_limit_high d); (2, d_available d); (1, d_op_size d);
        (1, d_granularity d); (8, d_base_high d)].

(** e_gdte_type, arch/x86/gdt.h:20-24. *)
Definition GDTE_CODE := 11.
Definition GDTE_DATA := 3.
Definition GDTE_TSS := 9.

(** gdt_set_segment, arch/x86/gdt.c:82-106. *)
Definition set_segment (base limit type dpl : Z) : desc :=
  let big := 2 ^ 20 <? limit in
  mkDesc
    (if big then Z.land (Z.shiftr limit 12) 65535 else Z.land limit 65535)
    (Z.land base 16777215)
    (Z.land type 15)
    1
    (Z.land dpl 3)
    1
    (if big then Z.land (Z.shiftr limit 28) 15 else Z.land (Z.shiftr limit 16) 255)
    0
    1
    (if big then 1 else 0)
    (Z.land (Z.shiftr base 24) 255).

(** gdt_set_system, arch/x86/gdt.c:108-123. The granularity bit keeps its old value. *)
Definition set_system (old : desc) (base limit type dpl : Z) : desc :=
  mkDesc (Z.land limit 65535) (Z.land base 16777215) (Z.land type 15) 0 (Z.land dpl 3) 1
    (Z.land (Z.shiftr limit 16) 255) 0 0 (d_granularity old) (Z.land (Z.shiftr base 24) 255).

(** An entry of the zero-initialised table, arch/x86/gdt.c:26. *)
Definition null_desc := mkDesc 0 0 0 0 0 0 0 0 0 0 0.
(** gdt_enable, gdt_disable, arch/x86/gdt.c:125-127. *)
Definition with_present (v : Z) (d : desc) : desc :=
  mkDesc (d_limit_low d) (d_base_low d) (d_type d) (d_s d) (d_dpl d) v (d_limit_high d)
    (d_available d) (d_op_size d) (d_granularity d) (d_base_high d).

(** ** The table *)

(** arch/x86/gdt.h:52-60. [np] is POK_CONFIG_NB_PROCESSORS. *)
Definition GDT_CORE_CODE := 1.
Definition GDT_CORE_DATA := 2.
Definition gdt_tss (proc : Z) := 3 + proc.
Definition gdt_code (np p : Z) := 3 + np + 2 * p.
Definition gdt_data (np p : Z) := 3 + np + 2 * p + 1.
(** GDT_SIZE, arch/x86/gdt.c:24. *)
Definition GDT_SIZE := 256.

(** pok_gdt, arch/x86/gdt.c:26. *)
Definition gdt := Z -> desc.
(** Writing entry [i]: outside of the table is outside of the model. *)
Definition gdt_write (i : Z) (d : desc) (g : gdt) : option gdt :=
  if (0 <=? i) && (i <? GDT_SIZE) then Some (upd g i d) else None.

(** pok_gdt_init, arch/x86/gdt.c:29-62, on processor 0 without the TSS: ~0UL has 32 bits. *)
Definition gdt_init : gdt :=
  upd (upd (fun _ => null_desc) GDT_CORE_CODE (set_segment 0 (2 ^ 32 - 1) GDTE_CODE 0))
    GDT_CORE_DATA (set_segment 0 (2 ^ 32 - 1) GDTE_DATA 0).
(** pok_tss_init, arch/x86/gdt.c:64-78: the descriptor. [addr] is the address of pok_tss[proc],
    [size] is sizeof(tss_t). *)
Definition tss_init (proc addr size : Z) (g : gdt) : option gdt :=
  gdt_write (gdt_tss proc) (set_system (g (gdt_tss proc)) addr size GDTE_TSS 0) g.

(** pok_create_space, arch/x86/space.c:37-45. *)
Definition create_space (np p addr size : Z) (g : gdt) : option gdt :=
  match gdt_write (gdt_code np p) (set_segment addr size GDTE_CODE 3) g with
  | None => None
  | Some g1 => gdt_write (gdt_data np p) (set_segment addr size GDTE_DATA 3) g1
  end.

(** pok_space_switch, arch/x86/space.c:47-54. *)
Definition gdt_present (v i : Z) (g : gdt) : option gdt := gdt_write i (with_present v (g i)) g.
Definition gdt_switch (np old new : Z) (g : gdt) : option gdt :=
  match gdt_present 0 (gdt_code np old) g with
  | None => None
  | Some g1 =>
      match gdt_present 0 (gdt_data np old) g1 with
      | None => None
      | Some g2 =>
          match gdt_present 1 (gdt_code np new) g2 with
          | None => None
          | Some g3 => gdt_present 1 (gdt_data np new) g3
          end
      end
  end.

(** ** Selectors *)

(** GDT_BUILD_SELECTOR, arch/x86/gdt.h:62-63. *)
Definition build_selector (seg tbl rpl : Z) : Z :=
  Z.lor (Z.lor (Z.shiftl seg 3) (Z.shiftl (Z.land tbl 1) 2)) (Z.land rpl 3).
(** pok_dispatch_space, arch/x86/space.c:124-125: selectors with which a thread enters user mode. *)
Definition code_selector (np p : Z) : Z := build_selector (gdt_code np p) 0 3.
Definition data_selector (np p : Z) : Z := build_selector (gdt_data np p) 0 3.
(** PARTITION_ID, arch/x86/syscalls.c:31, stored in a uint8_t (include/core/syscall.h:113, types.h:41; line 43 of
    syscalls.c). The subtraction and the division are those of uint32_t. *)
Definition partition_of (np cs : Z) : Z := u8 (u32 (Z.shiftr cs 3 - 3 - np) / 2).

(** Memory of the SPARC port: kernel/arch/sparc/space.c, space.h, leon3/sparc_conf.h, leon3/bsp.c.

    The memory is a function from byte addresses (multiples of 4) to 32-bit words. The addresses that the linker gives
    to the three tables are parameters. *)
From Verif Require Import Model.Base.

(** sparc_conf.h:24-37. *)
Definition RAM_ADDR := 0x40000000.
Definition PAGE := 256 * 1024.
Definition PARTITION_MAX := PAGE.
Definition BASE_VADDR := 0.
(** space.h:30-32, 40-48, 56. *)
Definition ET_INVALID := 0.
Definition ET_PTD := 1.
Definition ET_PTE := 2.
Definition ACC_RWE := Z.shiftl 3 2.
Definition ACC_S_RWE := Z.shiftl 7 2.
Definition CACHEABLE := Z.shiftl 1 7.
(** mm_index1, mm_index2, space.h:70, 78. *)
Definition index1 (addr : Z) : Z := Z.land (Z.shiftr addr 24) 0xff.
Definition index2 (addr : Z) : Z := Z.land (Z.shiftr addr 18) 0x3f.

(** Addresses of mmu_contexts_tab, mmu_level1_tab, mmu_level2_tab, space.c:49-64. *)
Record tables := mkTables { a_ctx : Z; a_l1 : Z; a_l2 : Z }.
Definition ctx_at (T : tables) (i : Z) : Z := a_ctx T + 4 * i.
Definition l1_at (T : tables) (p j : Z) : Z := a_l1 T + 1024 * p + 4 * j.
Definition l2_at (T : tables) (p j : Z) : Z := a_l2 T + 256 * p + 4 * j.

(** for (i = 0; i < n; i++) *)
Fixpoint loop {A : Type} (n : nat) (i : Z) (f : Z -> A -> A) (x : A) : A :=
  match n with O => x | S n => loop n (i + 1) f (f i x) end.

(** pok_arch_space_init, space.c:148-178: the tables. *)
Definition space_init (T : tables) (nb : nat) (m : Z -> Z) : Z -> Z :=
  let m := loop nb 0 (fun i m => upd m (ctx_at T i) ET_INVALID) m in
  let m := loop nb 0 (fun i m =>
    let m := upd m (ctx_at T i) (Z.lor (Z.shiftr (u32 (l1_at T i 0)) 4) ET_PTD) in
    let m := loop 256 0 (fun j m => upd m (l1_at T i j) ET_INVALID) m in
    loop 64 0 (fun j m => upd m (l2_at T i j) ET_INVALID) m) m in
  loop nb 0 (fun i m =>
    upd m (l1_at T i (index1 RAM_ADDR))
      (Z.lor (Z.lor (Z.lor (Z.shiftr RAM_ADDR 4) ACC_S_RWE) ET_PTE) CACHEABLE)) m.
(** The context table pointer register, space.c:181-185. *)
Definition ctpr (T : tables) : Z := Z.shiftr (u32 (a_ctx T)) 4.

(** pok_create_space, space.c:69-101; the code that is returned and the new memory. POK_ERRNO_EFAULT is 11
    (kernel/include/errno.h). *)
Definition create_space (T : tables) (pid addr size : Z) (m : Z -> Z) : (Z -> Z) * Z :=
  if PARTITION_MAX <? size then (m, ERR_SIZE)
  else if negb (Z.land addr (PAGE - 1) =? 0) then (m, 11)
  else
    let m := upd m (l1_at T pid (index1 BASE_VADDR)) (Z.lor (Z.shiftr (u32 (l2_at T pid 0)) 4) ET_PTD) in
    (upd m (l2_at T pid (index2 BASE_VADDR))
       (Z.lor (Z.lor (Z.lor (Z.shiftr addr 4) ACC_RWE) ET_PTE) CACHEABLE), ERR_OK).

(** pok_bsp_mem_alloc, leon3/bsp.c:41-49: the address and the new heap_end. *)
Definition sparc_alloc (heap sz : Z) : Z * Z :=
  let res := Z.land (u32 (heap + PAGE)) (u32 (Z.lnot (PAGE - 1))) in (res, u32 (res + sz)).

(** pok_partition_init, core/partition.c:150-173: for every partition its memory is allocated and its space created;
    the code of pok_create_space is not looked at. [sizes]: the partitions from number [i] on. The addresses given. *)
Fixpoint sparc_bases (sizes : list Z) (heap : Z) : list Z :=
  match sizes with
  | [] => []
  | sz :: r => let '(a, h) := sparc_alloc heap sz in a :: sparc_bases r h
  end.
Fixpoint create_spaces (T : tables) (i : Z) (parts : list (Z * Z)) (m : Z -> Z) : Z -> Z :=
  match parts with
  | [] => m
  | (a, sz) :: r => create_spaces T (i + 1) r (fst (create_space T i a sz m))
  end.
Definition sparc_boot (T : tables) (sizes : list Z) (heap : Z) (m : Z -> Z) : Z -> Z :=
  create_spaces T 0 (combine (sparc_bases sizes heap) sizes) (space_init T (length sizes) m).

(** The allocator of a partition: libpok/core/allocator.c, libpok/libc/stdlib/malloc.c, calloc.c and free.c.

    Pointers into pok_allocator_memspace are offsets in it. The first call of any function initialises the table; the
    model starts from the initialised one. *)
From Verif Require Import Model.Base.

(** pok_allocator_space_t, allocator.c:60-64. *)
Record space := mkSpace { sp_start : Z; sp_size : Z; sp_alloc : Z }.

(** POK_CONFIG_ALLOCATOR_NB_SPACES and POK_CONFIG_ALLOCATOR_MEMORY_SIZE, allocator.c:32-38; [a_beyond] is whatever lies
    behind the table: pok_allocator_delete_space reads it. *)
Record acfg := mkAcfg { a_nb : Z; a_mem : Z; a_beyond : space }.

(** pok_allocator_spaces and pok_allocator_used_spaces, allocator.c:67-68. *)
Record table := mkTable { sps : Z -> space; used : Z }.

(** POK_ALLOCATOR_CHECK_INIT, allocator.c:40-53. *)
Definition table_start (c : acfg) : table := mkTable (upd (fun _ => mkSpace 0 0 0) 0 (mkSpace 0 (a_mem c) 0)) 1.

(** The loop of pok_allocator_allocate, allocator.c:103-110: the first space that is free and large enough. *)
Fixpoint first_fit (n : nat) (i : Z) (t : table) (needed : Z) : option Z :=
  match n with
  | O => None
  | S n => if (sp_alloc (sps t i) =? 0) && (needed <=? sp_size (sps t i)) then Some i else first_fit n (i + 1) t needed
  end.

(** pok_allocator_allocate, allocator.c:84-156; malloc, malloc.c:25. *)
Definition allocate (c : acfg) (needed : Z) (t : table) : table * option Z :=
  if a_nb c - 1 <=? used t then (t, None)
  else match first_fit (Z.to_nat (used t)) 0 t needed with
  | None => (t, None)
  | Some i =>
      let s := sps t i in
      if sp_size s =? needed then (mkTable (upd (sps t) i (mkSpace (sp_start s) (sp_size s) 1)) (used t), Some (sp_start s))
      else
        let new := mkSpace (u32 (sp_start s + needed)) (u32 (sp_size s - needed)) 0 in
        (mkTable (upd (upd (sps t) (used t) new) i (mkSpace (sp_start s) needed 1)) (u32 (used t + 1)), Some (sp_start s))
  end.

(** calloc, calloc.c:25-27. *)
Definition calloc (c : acfg) (count size : Z) (t : table) : table * option Z := allocate c (u32 (count * size)) t.

(** pok_allocator_delete_space, allocator.c:161-176. *)
Definition delete_space (c : acfg) (i : Z) (t : table) : table :=
  mkTable (fun k => if (i <=? k) && (k <? a_nb c) then (if k =? a_nb c - 1 then a_beyond c else sps t (k + 1)) else sps t k)
          (u32 (used t - 1)).

(** The loop of pok_allocator_merge_space, allocator.c:185-222: the first space that is free and adjacent to space [i];
    [inl] if it ends where [i] starts, [inr] if it starts where [i] ends. *)
Fixpoint adjacent (n : nat) (j i : Z) (t : table) : option (Z + Z) :=
  match n with
  | O => None
  | S n =>
      if (j =? i) || (sp_alloc (sps t j) =? 1) then adjacent n (j + 1) i t
      else if sp_start (sps t i) =? u32 (sp_start (sps t j) + sp_size (sps t j)) then Some (inl j)
      else if sp_start (sps t j) =? u32 (sp_start (sps t i) + sp_size (sps t i)) then Some (inr j)
      else adjacent n (j + 1) i t
  end.

Definition grow (t : table) (i by_ : Z) : table :=
  mkTable (upd (sps t) i (mkSpace (sp_start (sps t i)) (u32 (sp_size (sps t i) + by_)) (sp_alloc (sps t i)))) (used t).

(** pok_allocator_merge_space, allocator.c:178-223. Every call of itself follows a deletion and none happens with one
    space, so that [fuel] spaces suffice. *)
Fixpoint merge_space (fuel : nat) (c : acfg) (i : Z) (t : table) : table :=
  match fuel with
  | O => t
  | S fuel =>
      if used t =? 1 then t
      else match adjacent (Z.to_nat (used t)) 0 i t with
      | None => t
      | Some (inl j) => merge_space fuel c j (delete_space c i (grow t j (sp_size (sps t i))))
      | Some (inr j) => merge_space fuel c j (delete_space c j (grow t i (sp_size (sps t j))))
      end
  end.

(** The loop of pok_allocator_free, allocator.c:230-231. *)
Fixpoint find_space (n : nat) (i : Z) (t : table) (p : Z) : option Z :=
  match n with
  | O => None
  | S n => if p =? sp_start (sps t i) then Some i else find_space n (i + 1) t p
  end.

(** pok_allocator_free, allocator.c:225-247; free, free.c:24-28. *)
Definition free_block (c : acfg) (p : Z) (t : table) : table :=
  match find_space (Z.to_nat (used t)) 0 t p with
  | None => t
  | Some i =>
      let s := sps t i in
      merge_space (Z.to_nat (used t)) c i (mkTable (upd (sps t) i (mkSpace (sp_start s) (sp_size s) 0)) (used t))
  end.

Inductive alloc_op := OAlloc (n : Z) | OFree (p : Z).

Definition alloc_step (c : acfg) (o : alloc_op) (t : table) : table * option Z :=
  match o with
  | OAlloc n => allocate c n t
  | OFree p => (free_block c p t, None)
  end.

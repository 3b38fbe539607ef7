(** The loader of partitions: kernel/core/loader.c and the formats in kernel/include/elf.h. Memory is the physical
    memory seen by the kernel; pointers are 32-bit numbers. *)
From Verif Require Import Model.Base Model.Libc.

(** A 16-bit load, little endian. *)
Definition load16 (m : mem) (a : Z) : Z := m a + 256 * m (u32 (a + 1)).

(** Fields of Elf32_Ehdr, elf.h:26-41. *)
Definition e_entry (m : mem) (file : Z) : Z := load32 m (u32 (file + 24)).
Definition e_phoff (m : mem) (file : Z) : Z := load32 m (u32 (file + 28)).
Definition e_phnum (m : mem) (file : Z) : Z := load16 m (u32 (file + 44)).

(** Fields of Elf32_Phdr, elf.h:45-54. *)
Definition p_offset (m : mem) (ph : Z) : Z := load32 m (u32 (ph + 4)).
Definition p_vaddr (m : mem) (ph : Z) : Z := load32 m (u32 (ph + 8)).
Definition p_filesz (m : mem) (ph : Z) : Z := load32 m (u32 (ph + 16)).
Definition p_memsz (m : mem) (ph : Z) : Z := load32 m (u32 (ph + 20)).

(** The magic number, loader.c:51-54. *)
Definition elf_magic (m : mem) (file : Z) : bool :=
  (m file =? 127) && (m (u32 (file + 1)) =? 69) && (m (u32 (file + 2)) =? 76) && (m (u32 (file + 3)) =? 70).

(** The body of the loop, loader.c:61-65. The headers are read from memory each time. *)
Definition load_segment (m : mem) (file offset ph : Z) : mem :=
  let dest := u32 (p_vaddr m ph + offset) in
  let n := p_filesz m ph in
  let m1 := memcpy_i386 m dest (u32 (p_offset m ph + file)) n in
  memset m1 (u32 (dest + p_filesz m1 ph)) 0 (u32 (p_memsz m1 ph - p_filesz m1 ph)).

(** The loop, loader.c:60-66: [n] headers are left. The bound is read from memory each time; [fuel] counts the iterations:
    the counter is below e_phnum, which has 16 bits. *)
Fixpoint load_loop (fuel : nat) (i : Z) (m : mem) (file offset phdrs : Z) : mem :=
  match fuel with
  | O => m
  | S fuel =>
      if i <? e_phnum m file
      then load_loop fuel (i + 1) (load_segment m file offset (u32 (phdrs + 32 * i))) file offset phdrs
      else m
  end.

(** pok_loader_elf_load, loader.c:42-69: memory and entry point; nothing if the magic number is wrong. *)
Definition elf_load (m : mem) (file offset : Z) : option (mem * Z) :=
  if elf_magic m file
  then Some (load_loop (Z.to_nat 65536) 0 m file offset (u32 (file + e_phoff m file)), e_entry m file)
  else None.

(** The position of a file in the archive, loader.c:81-84. *)
Fixpoint archive_offset (n : nat) (t size : Z) (part_sizes : Z -> Z) : Z :=
  match n with O => size | S n => archive_offset n (t + 1) (u32 (size + part_sizes t)) part_sizes end.

(** pok_loader_load_partition, loader.c:71-96: whether a configuration error is reported (loader.c:86-88; loading goes
    on unless the handler stops the partition), memory and entry point. *)
Definition load_partition (m : mem) (archive : Z) (part_sizes : Z -> Z) (id psize offset : Z) : bool * mem * Z :=
  let file := u32 (archive + archive_offset (Z.to_nat id) 0 0 part_sizes) in
  let err := psize <? part_sizes id in
  match elf_load m file offset with
  | Some (m', entry) => (err, m', entry)
  | None => (err, m, 0)
  end.

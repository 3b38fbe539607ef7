(** ELF files as the standard describes them. *)
From Verif Require Import Model.Base Spec.LibcSpec.

(** Little-endian numbers in memory. *)
Definition word (m : Z -> Z) (a : Z) : Z := m a + 256 * m (a + 1) + 256 ^ 2 * m (a + 2) + 256 ^ 3 * m (a + 3).
Definition half (m : Z -> Z) (a : Z) : Z := m a + 256 * m (a + 1).

(** Segment [i] of the file at address [f]. *)
Record segment := mkSegment { sg_type : Z; sg_offset : Z; sg_vaddr : Z; sg_filesz : Z; sg_memsz : Z }.
Definition seg_count (m : Z -> Z) (f : Z) : Z := half m (f + 44).
Definition seg_table (m : Z -> Z) (f : Z) : Z := word m (f + 28).
Definition seg (m : Z -> Z) (f i : Z) : segment :=
  let h := f + seg_table m f + 32 * i in
  mkSegment (word m h) (word m (h + 4)) (word m (h + 8)) (word m (h + 16)) (word m (h + 20)).
Definition PT_LOAD := 1.

Definition has_magic (m : Z -> Z) (f : Z) : Prop := bytes_at m f [127; 69; 76; 70].

(** The file of [fsize] bytes at [f] is an ELF file whose loadable segments fit into a partition of [psize] bytes at
    [base] without overlapping; other segments are empty. *)
Definition well_formed (m : Z -> Z) (f fsize base psize : Z) : Prop :=
  (forall x, is_byte (m x)) /\ fits f fsize /\ fits base psize /\ base + psize < 2 ^ 32 /\ f + fsize < 2 ^ 32 /\
  (f + fsize <= base \/ base + psize <= f) /\
  has_magic m f /\ 52 <= fsize /\ seg_table m f + 32 * seg_count m f <= fsize /\
  (forall i, 0 <= i < seg_count m f -> let s := seg m f i in
     sg_filesz s <= sg_memsz s /\ sg_vaddr s + sg_memsz s <= psize /\ sg_offset s + sg_filesz s <= fsize /\
     (sg_type s <> PT_LOAD -> sg_memsz s = 0)) /\
  (forall i j x, 0 <= i < seg_count m f -> 0 <= j < seg_count m f -> i <> j ->
     sg_vaddr (seg m f i) <= x < sg_vaddr (seg m f i) + sg_memsz (seg m f i) ->
     sg_vaddr (seg m f j) <= x < sg_vaddr (seg m f j) + sg_memsz (seg m f j) -> False).

(** [m'] is [m] with exactly the loadable segments in place. *)
Definition loaded (m m' : Z -> Z) (f base : Z) : Prop :=
  (forall i k, 0 <= i < seg_count m f -> sg_type (seg m f i) = PT_LOAD -> let s := seg m f i in
     (0 <= k < sg_filesz s -> m' (base + sg_vaddr s + k) = m (f + sg_offset s + k)) /\
     (sg_filesz s <= k < sg_memsz s -> m' (base + sg_vaddr s + k) = 0)) /\
  (forall x, (forall i, 0 <= i < seg_count m f -> sg_type (seg m f i) = PT_LOAD ->
      ~ (base + sg_vaddr (seg m f i) <= x < base + sg_vaddr (seg m f i) + sg_memsz (seg m f i))) -> m' x = m x).

(** Position of file [n] in the archive. *)
Fixpoint file_pos (sizes : Z -> Z) (n : nat) : Z :=
  match n with O => 0 | S k => file_pos sizes k + sizes (Z.of_nat k) end.

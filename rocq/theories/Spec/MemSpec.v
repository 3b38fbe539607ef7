(** What memory protection is about, independently of the kernel: segment descriptors as the processor
    reads them (Intel SDM volume 3, 3.4.5), and address ranges. *)
From Verif Require Import Model.Base.

(** [n] bits of [w] from bit [lo] on. *)
Definition bits (w lo n : Z) : Z := (w / 2 ^ lo) mod 2 ^ n.

(** Highest offset that the descriptor [w] allows. *)
Definition seg_limit (w : Z) : Z :=
  let raw := bits w 0 16 + 2 ^ 16 * bits w 48 4 in
  if bits w 55 1 =? 1 then raw * 4096 + 4095 else raw.
Definition seg_base (w : Z) : Z := bits w 16 24 + 2 ^ 24 * bits w 56 8.
Definition seg_present (w : Z) : Prop := bits w 47 1 = 1.
(** Code or data segment, accessible from user mode. *)
Definition seg_user (w : Z) : Prop := bits w 44 1 = 1 /\ bits w 45 2 = 3.
Definition seg_executable (w : Z) : Prop := bits w 43 1 = 1.
(** Data segment that grows upwards and can be written. *)
Definition seg_writable (w : Z) : Prop := bits w 43 1 = 0 /\ bits w 42 1 = 0 /\ bits w 41 1 = 1.
(** A user program that uses the segment can access offset [o]. *)
Definition seg_allows (w o : Z) : Prop := seg_present w /\ seg_user w /\ 0 <= o <= seg_limit w.

(** All bytes of [[start, start+len)] lie in [[low, high)]. *)
Definition inside (start len low high : Z) : Prop :=
  forall k, 0 <= k < len -> low <= start + k < high.
(** No byte in common. *)
Definition apart (start1 len1 start2 len2 : Z) : Prop :=
  forall a, start1 <= a < start1 + len1 -> start2 <= a < start2 + len2 -> False.

(** Values of C types. *)
Definition is_u32 (x : Z) : Prop := 0 <= x < 2 ^ 32.

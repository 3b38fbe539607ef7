(** What the data-protection protocols are expected to do. *)
From Verif Require Import Model.Base Spec.LibcSpec.

(** Every address holds a byte. *)
Definition byte_memory (m : Z -> Z) : Prop := forall a, is_byte (m a).

(** A 64-bit block as two 32-bit words. *)
Definition is_block (p : Z * Z) : Prop := 0 <= fst p < 2 ^ 32 /\ 0 <= snd p < 2 ^ 32.

(** [n] bytes at [b] in [m'] are the [n] bytes at [a] in [m]. *)
Definition same_bytes (m : Z -> Z) (a : Z) (m' : Z -> Z) (b n : Z) : Prop :=
  forall k, 0 <= k < n -> m' (b + k) = m (a + k).

(** [m'] and [m] agree outside the [n] bytes at [a]. *)
Definition only_changes (m m' : Z -> Z) (a n : Z) : Prop := forall x, ~ (a <= x < a + n) -> m' x = m x.

(** Two ranges of different lengths have no address in common. *)
Definition apart (a n b k : Z) : Prop := a + n <= b \/ b + k <= a.

(** The [k] bytes at [out] are written in order while the [n] bytes at [inp] are read: the same buffer is allowed,
    and so is an output that starts before the input. *)
Definition safe_overlap (inp n out k : Z) : Prop := out <= inp \/ apart inp n out k.

(** The length of [n] bytes in whole blocks of eight. *)
Definition padded (n : Z) : Z := 8 * ((n + 7) / 8).

(** The number of one bits of a byte. *)
Fixpoint ones_of (n : nat) (x : Z) : nat :=
  match n with O => O | S k => ((if Z.testbit x (Z.of_nat k) then 1 else 0) + ones_of k x)%nat end.

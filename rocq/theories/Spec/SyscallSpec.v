(** Memory a system call may touch, stated without the handlers. *)
From Coq Require Import ZArith List.
From Verif Require Import Model.Base Model.Syscall Spec.MemSpec.
Open Scope Z_scope.

(** Every byte accessed lies in the memory of the partition. *)
Definition stays_inside (low size : Z) (o : outcome) : Prop := forall a n, In (a, n) (touched o) -> inside a n low (low + size).

(** A partition placed in memory. *)
Definition placed (psize pbase : Z -> Z) (pid : Z) : Prop :=
  0 < psize pid < 2 ^ 32 /\ 0 <= pbase pid /\ pbase pid + psize pid <= 2 ^ 32.

Definition byte_memory (m : Z -> Z) : Prop := forall x, 0 <= m x < 2 ^ 8.

(** Port names no longer than announced; values of the C types; the message size
    of the last error is at most 250, because core/error.c:58, 130-139 and
    core/partition.c:102, 229 store no other. *)
Definition sound_env (e : env) : Prop :=
  0 <= e_maxlen e < 2 ^ 32 - 1 /\ (forall s, In s (e_names e) -> Z.of_nat (length s) <= e_maxlen e) /\
  (forall i, is_u32 (e_psize e i)) /\ (forall i, 0 <= e_consumed e i) /\ 0 <= e_msgsize e <= 250 /\ (forall i, is_u32 (e_qlen e i)).

(** The calls whose tests do not cover their accesses. *)
Definition undertested (c : call) : Prop :=
  match c with
  | ConsWrite | GetChar | NodeMacAddr | SamplingRead | LockobjOperation | NetRead | NetPollAndRead | NetWrite => True
  | _ => False
  end.

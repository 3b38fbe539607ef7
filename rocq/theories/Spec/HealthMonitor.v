(** What health monitoring shall do, after ARINC 653 part 1 (sections 2.4 and 3.8). *)
From Coq Require Import ZArith List.
Import ListNotations.
Open Scope Z_scope.

(** Error codes of processes. *)
Inductive error_code := Deadline_missed | Application_error | Numeric_error | Illegal_request | Stack_overflow
  | Memory_violation | Hardware_fault | Power_fail.

(** What happens to a process on the processor that has a code of its own in the standard: overflow, division by zero and
    floating-point errors; accesses to memory the partition may not use; defects of the hardware. *)
Inductive event := Division_by_zero | Integer_overflow | Float_error | Vector_float_error | Outside_segment
  | Outside_stack_segment | Segment_absent | Page_fault | Machine_check.

(** The vector the processor gives to it (Intel SDM volume 3, table 6-1). *)
Definition vector (e : event) : Z :=
  match e with
  | Division_by_zero => 0 | Integer_overflow => 4 | Segment_absent => 11 | Outside_stack_segment => 12
  | Outside_segment => 13 | Page_fault => 14 | Float_error => 16 | Machine_check => 18 | Vector_float_error => 19
  end.

(** The code the standard gives to it. *)
Definition code_of (e : event) : error_code :=
  match e with
  | Division_by_zero | Integer_overflow | Float_error | Vector_float_error => Numeric_error
  | Outside_segment | Outside_stack_segment | Segment_absent | Page_fault => Memory_violation
  | Machine_check => Hardware_fault
  end.

(** The numbers of the codes: in the order of the standard, from 0 for the application and from 10 for the kernel. *)
Definition rank (c : error_code) : Z :=
  match c with
  | Deadline_missed => 0 | Application_error => 1 | Numeric_error => 2 | Illegal_request => 3 | Stack_overflow => 4
  | Memory_violation => 5 | Hardware_fault => 6 | Power_fail => 7
  end.
Definition kernel_number (c : error_code) : Z := 10 + rank c.

(** A 32-bit number in memory, lowest byte first. *)
Definition number (m : Z -> Z) (a : Z) : Z := m a + 256 * (m (a + 1) + 256 * (m (a + 2) + 256 * m (a + 3))).

(** The list of [n] bytes at [a]. *)
Definition bytes (m : Z -> Z) (a : Z) (n : nat) : list Z := map (fun i => m (a + Z.of_nat i)) (seq 0 n).

(** An error as the handler sees it. *)
Record report := mkReport { r_code : error_code; r_thread : Z; r_message : list Z }.

(** The report is in the structure of the kernel at [a]: kind, thread, length at its end, message in between. *)
Definition in_kernel_structure (m : Z -> Z) (a : Z) (r : report) : Prop :=
  m a = kernel_number (r_code r) /\ number m (a + 4) = r_thread r /\
  number m (a + 264) = Z.of_nat (length (r_message r)) /\ bytes m (a + 12) (length (r_message r)) = r_message r.

(** The report is in ARINC's ERROR_STATUS_TYPE at [a]. *)
Definition in_arinc_structure (m : Z -> Z) (a : Z) (r : report) : Prop :=
  number m a = rank (r_code r) /\ number m (a + 4) = Z.of_nat (length (r_message r)) /\ number m (a + 8) = r_thread r /\
  bytes m (a + 16) (length (r_message r)) = r_message r.

(** Nothing but the [n] bytes at [a] has changed. *)
Definition only (m m' : Z -> Z) (a n : Z) : Prop := forall x, x < a \/ a + n <= x -> m' x = m x.

(** Of the kernel's structure at [a] only kind, thread, address, [n] characters of the message and its length are
    written: nothing else of the kernel's memory is shown, and no padding is touched. *)
Definition only_report (m m' : Z -> Z) (a n : Z) : Prop :=
  forall x, ~ (x = a \/ a + 4 <= x < a + 12 + n \/ a + 264 <= x < a + 268) -> m' x = m x.

(** Two objects that do not overlap. *)
Definition apart (a n b k : Z) : Prop := a + n <= b \/ b + k <= a.

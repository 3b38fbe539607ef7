(** C30: the check of user pointers accepts exactly the ranges inside the partition.

    The empty range is accepted when its start is at most the size of the partition: that is the
    exact behaviour for length zero, where "every byte" says nothing. *)
From Verif Require Import Model.Base Model.Mem Model.Port Spec.MemSpec Proof.Tac Proof.MemProof.

(** Non-empty ranges, for all values of the types involved: accepted if and only if the partition exists
    and each byte is inside. *)
Theorem C30_exact : forall nparts psize pid ptr size,
  is_u32 ptr -> is_u32 size -> is_u32 (psize pid) -> 0 < size ->
  (ptr_in_partition nparts psize pid ptr size = true <-> pid < nparts /\ inside ptr size 0 (psize pid)).
Proof.
  intros nparts psize pid ptr size H1 H2 H3 H4. rewrite ptr_accept by assumption.
  rewrite inside_iff by (unfold is_u32 in *; lia). reflexivity.
Qed.
Print Assumptions C30_exact.

(** The empty range. *)
Theorem C30_empty : forall nparts psize pid ptr, is_u32 ptr -> is_u32 (psize pid) ->
  (ptr_in_partition nparts psize pid ptr 0 = true <-> pid < nparts /\ ptr <= psize pid).
Proof.
  intros nparts psize pid ptr H1 H2. rewrite ptr_accept; [|assumption|split; lia|assumption].
  rewrite Z.add_0_r. reflexivity.
Qed.
Print Assumptions C30_empty.

(** The bytes that the kernel then accesses, at base + ptr modulo 2^32, lie in the physical memory of the
    partition. *)
Theorem C30_physical : forall nparts psize pid ptr size base k,
  is_u32 ptr -> is_u32 size -> is_u32 (psize pid) -> is_u32 base -> base + psize pid <= 2 ^ 32 ->
  ptr_in_partition nparts psize pid ptr size = true -> 0 <= k < size ->
  base <= u32 (u32 (base + ptr) + k) < base + psize pid.
Proof.
  intros nparts psize pid ptr size base k H1 H2 H3 H4 H5 H Hk. rewrite ptr_accept in H by assumption.
  unfold is_u32, u32 in *. rewrite !Z.mod_small by lia. lia.
Qed.
Print Assumptions C30_physical.

(** The check used by the port services is the same one. *)
Theorem C30_ports : forall cfg part ptr size,
  is_u32 ptr -> is_u32 size -> is_u32 (q_psize cfg part) ->
  check_ptr cfg part ptr size = ptr_in_partition (q_nparts cfg) (q_psize cfg) part ptr size.
Proof.
  intros cfg part ptr size H1 H2 H3. unfold check_ptr, ptr_in_partition. destruct (_ <=? part); [reflexivity|].
  destruct (Z.ltb_spec (q_psize cfg part) size); [reflexivity|]. unfold is_u32, u32 in *.
  rewrite !Z.mod_small by lia. reflexivity.
Qed.
Print Assumptions C30_ports.

(** A range that ends with the partition passes, one byte more does not, nor does a range whose end
    wraps around. *)
Example C30_demo :
  ptr_in_partition 2 (fun _ => 65536) 1 65532 4 = true /\
  ptr_in_partition 2 (fun _ => 65536) 1 65533 4 = false /\
  ptr_in_partition 2 (fun _ => 65536) 1 (2 ^ 32 - 2) 4 = false /\
  ptr_in_partition 2 (fun _ => 65536) 1 4 (2 ^ 32 - 2) = false /\
  ptr_in_partition 2 (fun _ => 65536) 2 0 4 = false.
Proof. vm_compute. repeat split; reflexivity. Qed.

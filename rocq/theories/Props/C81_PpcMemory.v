(** C81: On PowerPC a running partition reaches its own memory and nothing else, and page faults are served. *)
From Verif Require Import Model.Base Model.Ppc Spec.PpcMmu Proof.PpcProof.

(** [_partial]: the segment registers 1 to 15, which the kernel never writes, must not hold the number of a partition
    (nor must the page table, which the kernel never clears, hold valid entries). *)
Theorem C81_isolation_partial : forall reqs heap sr m es s write ea pa,
  fits reqs heap -> table_empty m -> 0 < Z.of_nat (length (ppc_boot_spaces reqs heap)) <= 256 ->
  Forall (legal (Z.of_nat (length (ppc_boot_spaces reqs heap)))) es ->
  (forall i, 1 <= i < 16 -> direct_store (sr i) = true \/
     Z.of_nat (length (ppc_boot_spaces reqs heap)) <= sr i mod 2 ^ 24) ->
  prun es (ppc_boot reqs heap sr m) = Some s ->
  reaches s write ea pa -> owned s (pp_cur s) pa.
Proof.
  intros reqs heap sr m es s write ea pa Hf He Hn Hl SR HR R.
  destruct (boot_inv reqs heap sr m Hf He Hn) as [I _].
  destruct (inv_run sr es _ _ I Hl HR) as (I' & Es & _).
  apply (reach_own sr s write ea pa I'); [|exact R]. unfold nb_spaces. rewrite Es. exact SR.
Qed.
Print Assumptions C81_isolation_partial.

(** The memories of two partitions have no address in common, and none of them contains the page table or the kernel
    data below the heap. *)
Theorem C81_disjoint : forall reqs heap sr m es s p q pa,
  fits reqs heap -> table_empty m -> 0 < Z.of_nat (length (ppc_boot_spaces reqs heap)) <= 256 ->
  Forall (legal (Z.of_nat (length (ppc_boot_spaces reqs heap)))) es ->
  prun es (ppc_boot reqs heap sr m) = Some s ->
  0 <= p < nb_spaces s -> 0 <= q < nb_spaces s -> owned s p pa ->
  heap <= pa < 2 ^ 32 /\ (owned s q pa -> p = q).
Proof.
  intros reqs heap sr m es s p q pa Hf He Hn Hl HR Hp Hq O.
  destruct (boot_inv reqs heap sr m Hf He Hn) as [I _].
  destruct (inv_run sr es _ _ I Hl HR) as (I' & Es & _).
  split.
  - destruct Hf as (F1 & F2 & F3). destruct (boot_spaces_ok reqs heap ltac:(lia) F2 F3) as [G _].
    change (pp_spaces s = ppc_boot_spaces reqs heap) in Es.
    unfold owned, nb_spaces, space_of in *. rewrite Es in *.
    assert (L : (Z.to_nat p < length (ppc_boot_spaces reqs heap))%nat) by (clear - Hp; lia).
    pose proof (proj1 (Forall_forall _ _) G (nth (Z.to_nat p) (ppc_boot_spaces reqs heap) (mkSpace 0 0))
      (nth_In _ _ L)) as (_ & Q2 & _ & Q4). unfold ceil_page in Q4. lia.
  - exact (owned_disjoint reqs heap s p q pa Hf Es Hp Hq O).
Qed.
Print Assumptions C81_disjoint.

(** Every access of a partition inside its memory is served and reaches the byte at that offset.
    [_partial]: partitions of at most 256 MB that together need no more than eight blocks of 4 MB. *)
Theorem C81_service_partial : forall reqs heap sr m es s write ea,
  fits reqs heap -> table_empty m -> 0 < Z.of_nat (length (ppc_boot_spaces reqs heap)) <= 256 ->
  Forall (legal (Z.of_nat (length (ppc_boot_spaces reqs heap)))) es ->
  Forall (fun sp => sp_size sp <= 2 ^ 28) (ppc_boot_spaces reqs heap) ->
  fold_right (fun sp n => (sp_size sp + 2 ^ 22 - 1) / 2 ^ 22 + n) 0 (ppc_boot_spaces reqs heap) <= 8 ->
  prun es (ppc_boot reqs heap sr m) = Some s ->
  0 <= ea < sp_size (space_of s (pp_cur s)) ->
  exists s', pstep (EAccess write ea) s = Some s' /\
    pp_cur s' = pp_cur s /\ reaches s' write ea (sp_base (space_of s (pp_cur s)) + ea) /\
    forall pa, reaches s' write ea pa -> pa = sp_base (space_of s (pp_cur s)) + ea.
Proof.
  intros reqs heap sr m es s write ea Hf He Hn Hl Sm Cn HR Hea.
  destruct (boot_inv reqs heap sr m Hf He Hn) as [I ND].
  destruct (inv_run sr es _ _ I Hl HR) as (I' & Es & ND').
  change (pp_spaces s = ppc_boot_spaces reqs heap) in Es.
  assert (Sm' : small s) by (unfold small; rewrite Es; exact Sm).
  specialize (ND' ND Sm).
  destruct (access_served sr s write ea I' ND' Sm') as (s' & E & R); [unfold count; rewrite Es; exact Cn|exact Hea|].
  exists s'. split; [exact E|].
  assert (Lg : legal (nb_spaces s) (EAccess write ea)).
  { cbn [legal]. pose proof (small_size s (pp_cur s) Sm'). lia. }
  destruct (inv_step _ _ _ _ I' Lg E) as [I2 E2].
  assert (Cur : pp_cur s' = pp_cur s).
  { cbn [pstep] in E. destruct (direct_store _); [discriminate|].
    destruct (page_hits _ _ _ _) eqn:PH.
    - destruct (fault_serve _ _ _ _ I' Lg E) as (i & _ & _ & _ & ->). reflexivity.
    - destruct (forallb _ _); [|discriminate]. now injection E as <-. }
  split; [exact Cur|]. split; [exact R|]. intros pa R'.
  assert (Sm2 : small s') by (unfold small; rewrite E2; exact Sm').
  pose proof (small_size s (pp_cur s) Sm') as Z28.
  rewrite (reach_exact sr s' write ea pa I2 Sm2 ltac:(lia) R'), Cur. unfold space_of. now rewrite E2.
Qed.
Print Assumptions C81_service_partial.

(** With the segment registers as an emulated processor has them after reset, partition 1 reads and writes the
    memory of partition 0 through segment 1. *)
Definition two : list request := [RPartition 8192; RStack 8192; RPartition 8192].
Definition zero : Z -> Z := fun _ => 0.
Theorem C81_isolation_refuted : exists reqs heap sr m es s write ea pa,
  fits reqs heap /\ table_empty m /\ (forall i, sr i = 0) /\
  Forall (legal (Z.of_nat (length (ppc_boot_spaces reqs heap)))) es /\
  prun es (ppc_boot reqs heap sr m) = Some s /\ pp_cur s = 1 /\
  reaches s write ea pa /\ owned s 0 pa /\ ~ owned s (pp_cur s) pa.
Proof.
  exists two, 0x20000, zero, zero, [EAccess true 0x1008; ESwitch 1].
  eexists. exists true, 0x10001008, 0x21008.
  split; [unfold fits, two; cbn; repeat split; [lia| |lia]; repeat constructor; cbn; lia|].
  split; [intros a _ _; reflexivity|]. split; [reflexivity|].
  split; [repeat constructor; cbn; lia|].
  split; [vm_compute; reflexivity|]. split; [reflexivity|].
  split; [|split].
  - unfold reaches. split; [lia|]. split; [reflexivity|]. exists 0x21182. split; [|split; reflexivity].
    vm_compute. now left.
  - unfold owned. cbn. lia.
  - intros [A _]. vm_compute in A. apply A. reflexivity.
Qed.
Print Assumptions C81_isolation_refuted.

(** A partition of 36 MB stops the kernel for ever by touching nine pages of its own. *)
Theorem C81_service_refuted : exists reqs heap sr m es s ea,
  fits reqs heap /\ table_empty m /\ 
  prun es (ppc_boot reqs heap sr m) = Some s /\ 0 <= ea < sp_size (space_of s (pp_cur s)) /\
  pstep (EAccess true ea) s = None.
Proof.
  exists [RPartition 37748736], 0x20000, zero, zero.
  exists (map (fun i => EAccess true (i * 4194304)) [0; 1; 2; 3; 4; 5; 6; 7]).
  eexists. exists (8 * 4194304).
  split; [unfold fits; cbn; repeat split; [lia| |lia]; repeat constructor; cbn; lia|].
  split; [intros a _ _; reflexivity|].
  split; [vm_compute; reflexivity|]. split; [cbn; lia|]. vm_compute. reflexivity.
Qed.
Print Assumptions C81_service_refuted.

(** An access outside of the memory of the partition should be an error of that partition: it stops the kernel. *)
Theorem C81_fault_refuted : forall reqs heap sr m es s write ea,
  fits reqs heap -> table_empty m -> 0 < Z.of_nat (length (ppc_boot_spaces reqs heap)) <= 256 ->
  Forall (legal (Z.of_nat (length (ppc_boot_spaces reqs heap)))) es ->
  Forall (fun sp => sp_size sp <= 2 ^ 28) (ppc_boot_spaces reqs heap) ->
  prun es (ppc_boot reqs heap sr m) = Some s ->
  (sp_size (space_of s (pp_cur s)) + 4095) / 4096 * 4096 <= ea < 2 ^ 28 ->
  pstep (EAccess write ea) s = None.
Proof.
  intros reqs heap sr m es s write ea Hf He Hn Hl Sm HR Hea.
  destruct (boot_inv reqs heap sr m Hf He Hn) as [I _].
  destruct (inv_run sr es _ _ I Hl HR) as (I' & Es & _).
  change (pp_spaces s = ppc_boot_spaces reqs heap) in Es.
  assert (Sm' : small s) by (unfold small; rewrite Es; exact Sm).
  destruct (inv_sp _ _ I' _ (inv_cur _ _ I')) as (S1 & S2 & S3 & S4).
  assert (Z0 : sp_size (space_of s (pp_cur s)) <= ea).
  { set (z := sp_size (space_of s (pp_cur s))) in *. clearbody z. clear - Hea.
    pose proof (Z.div_mod (z + 4095) 4096 ltac:(lia)). pose proof (Z.mod_pos_bound (z + 4095) 4096 ltac:(lia)). lia. }
  assert (P0 : 0 <= ea) by lia.
  assert (E0 : ea / 2 ^ 28 = 0) by (apply Z.div_small; lia).
  destruct (sr_cur _ _ _ I' E0) as [Ec Ed]. cbn [pstep]. rewrite Ed.
  destruct (page_hits _ _ _ ea) as [|w l] eqn:PH.
  - unfold page_fault. cbv zeta. change (Z.land (2 ^ 30) (Z.shiftl 1 30) =? 0) with false. cbv iota.
    destruct (Z.ltb_spec ea (sp_size (space_of s (pp_cur s)))); [lia|reflexivity].
  - exfalso. assert (In w (page_hits (pp_mem s) sdr1 (pp_sr s (ea / 2 ^ 28)) ea)) as Hin by (rewrite PH; now left).
    assert (L32 : 0 <= ea < 2 ^ 32) by (clear - Hea P0; lia).
    destruct (hits_inv _ _ _ _ _ I' L32 Hin) as (va & _ & Hva & Ha & _ & Hpg). cbv zeta in *.
    rewrite Ec in Hva. pose proof (small_size s (pp_cur s) Sm') as Z28.
    set (z := sp_size (space_of s (pp_cur s))) in *. clearbody z. unfold page_index in Hpg.
    change (2 ^ 12) with 4096 in Hpg. change (2 ^ 16) with 65536 in Hpg. change (2 ^ 28) with 268435456 in *.
    rewrite !Z.mod_small in Hpg; [|clear - Hea P0|clear - Hva Z28].
    + assert (ea / 4096 < (z + 4095) / 4096).
      { rewrite <- Hpg. clear - Hva Ha.
        pose proof (Z.div_mod va 4096 ltac:(lia)). pose proof (Z.div_mod (z + 4095) 4096 ltac:(lia)).
        pose proof (Z.mod_pos_bound (z + 4095) 4096 ltac:(lia)). lia. }
      clear - H Hea P0. pose proof (Z.div_mod ea 4096 ltac:(lia)). pose proof (Z.mod_pos_bound ea 4096 ltac:(lia)). lia.
    + split; [apply Z.div_pos; lia|]. apply Z.div_lt_upper_bound; lia.
    + split; [apply Z.div_pos; lia|]. apply Z.div_lt_upper_bound; lia.
Qed.
Print Assumptions C81_fault_refuted.

(** Hypotheses can be met: two partitions, segment registers 1 to 15 of type T; the second one writes into its page 1,
    then the first one into its last page. *)
Definition closed : Z -> Z := fun _ => 2 ^ 31.
Definition story : list pevent := [ESwitch 1; EAccess true 0x1ffc; ESwitch 0; EAccess false 0x10].
Example C81_example :
  fits two 0x20000 /\ table_empty zero /\ Forall (legal 2) story /\
  (forall i, direct_store (closed i) = true) /\
  exists s, prun story (ppc_boot two 0x20000 closed zero) = Some s /\ reaches s true 0x20 0x20020.
Proof.
  split; [unfold fits, two; cbn; repeat split; [lia| |lia]; repeat constructor; cbn; lia|].
  split; [intros a _ _; reflexivity|]. split; [repeat constructor; cbn; lia|]. split; [reflexivity|].
  eexists. split; [vm_compute; reflexivity|]. split; [lia|]. split; [reflexivity|].
  exists 0x20182. split; [vm_compute; now left|]. split; reflexivity.
Qed.
Example C81_example_full : exists s,
  prun [EAccess true 0x10; ESwitch 1; EAccess true 0] (ppc_boot two 0x20000 closed zero) = Some s /\
  pstep (EAccess true 0x2000) s = None /\ count (pp_spaces s) = 2.
Proof. eexists. split; [vm_compute; reflexivity|]. split; vm_compute; reflexivity. Qed.

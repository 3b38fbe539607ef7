(** C39: blocks returned by malloc and calloc that have not been freed are disjoint, inside the heap and as large as
    requested, along every sequence of allocations and frees of live blocks.

    False: after merging a space with its upper neighbour, pok_allocator_merge_space continues with the index of the
    space it deleted, which may now be that of a live block; that block is then merged with free memory and given out
    again. It is true if no merging happens, and, unless the memory behind the table looks like a space, if blocks are
    freed in the reverse order of allocation. *)
From Verif Require Import Model.Base Model.Alloc Spec.AllocSpec Proof.Tac Proof.AllocProof.

(** The default configuration, allocator.c:32-38, with zeros behind the table. *)
Definition plain : acfg := mkAcfg 100 16384 (mkSpace 0 0 0).
Lemma plain_good : good_acfg plain /\ harmless plain (a_beyond plain).
Proof. split; [split; cbn; lia|]. unfold harmless. cbn. split; [discriminate|]. unfold u32. cbn. lia. Qed.

(** Three blocks; the second is freed, then the first; the third is live and belongs to the next block all the same. *)
Theorem C39_disjoint_refuted : ~ forall c t l, good_acfg c -> harmless c (a_beyond c) -> alloc_history c any_use t l -> well_placed c l.
Proof.
  intros H.
  destruct (run_reached plain any_use any_useb any_useb_ok [OAlloc 10; OAlloc 10; OAlloc 10; OFree 10; OFree 0; OAlloc 30] [(0, 30); (20, 10)]
    [Some 0; Some 10; Some 20; None; None; Some 0] ltac:(vm_compute; reflexivity)) as [t X].
  destruct (H plain t _ (proj1 plain_good) (proj2 plain_good) X) as [_ P].
  inversion P as [|a l F O]; subst. inversion F as [|b l Y _]; subst. apply (Y 25); unfold inside; cbn; lia.
Qed.
Print Assumptions C39_disjoint_refuted.

(** No merging: every freed block lies between live blocks or ends of the heap; memory behind the table arbitrary. *)
Theorem C39_isolated_partial : forall c t l, good_acfg c -> alloc_history c (isolated_use c) t l -> well_placed c l.
Proof. intros c t l G H. eapply heap_placed, isolated_ok; eauto. Qed.
Print Assumptions C39_isolated_partial.

Example C39_isolated_example : good_acfg plain /\ exists t, alloc_history plain (isolated_use plain) t [(10, 4); (20, 16364); (0, 10)].
Proof.
  split; [apply plain_good|].
  apply (run_reached plain _ (isolated_useb plain) (isolated_useb_ok plain) [OAlloc 10; OAlloc 10; OAlloc 16364; OFree 10; OAlloc 4] _
    [Some 0; Some 10; Some 20; None; Some 10]). vm_compute. reflexivity.
Qed.

(** Stack discipline. *)
Theorem C39_stack_partial : forall c t l, good_acfg c -> harmless c (a_beyond c) -> alloc_history c stack_use t l -> well_placed c l.
Proof. intros c t l G B H. pose proof (stack_hist_ok c t l G B H) as K. apply stacked_placed; [apply (so_stacked _ _ _ K)|apply (so_top _ _ _ K)]. Qed.
Print Assumptions C39_stack_partial.

Example C39_stack_example : good_acfg plain /\ harmless plain (a_beyond plain) /\ exists t, alloc_history plain stack_use t [(10, 30); (0, 10)].
Proof.
  split; [apply plain_good|]. split; [apply plain_good|].
  apply (run_reached plain _ stack_useb stack_useb_ok [OAlloc 10; OAlloc 20; OFree 10; OAlloc 30] _ [Some 0; Some 10; None; Some 10]). vm_compute. reflexivity.
Qed.

(** calloc multiplies in 32 bits: 65536 elements of 65537 bytes are granted a block of 65536 bytes. *)
Theorem C39_calloc_refuted : ~ forall c t count size p, good_acfg c -> alloc_history c any_use t [] -> 0 < count -> 0 < size ->
  snd (calloc c count size t) = Some p -> p + count * size <= a_mem c.
Proof.
  intros H. specialize (H (mkAcfg 100 100000 (mkSpace 0 0 0)) _ 65536 65537 0 ltac:(split; cbn; lia) (ah_start _ _) ltac:(lia) ltac:(lia) eq_refl).
  cbn in H. lia.
Qed.
Print Assumptions C39_calloc_refuted.

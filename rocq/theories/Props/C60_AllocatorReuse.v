(** C60: memory that has been freed can be allocated again; in particular, when nothing is live the whole heap can be
    allocated.

    Under stack discipline, yes. In general memory is lost for good, and even under stack discipline if the bytes behind
    the table of spaces look like a space. *)
From Verif Require Import Model.Base Model.Alloc Spec.AllocSpec Proof.Tac Proof.AllocProof.

(** Under stack discipline a request is granted exactly if the memory not taken by live blocks suffices, as long as the
    table has room: it holds one entry for each live block and one for the rest. *)
Theorem C60_stack_partial : forall c t l n, good_acfg c -> harmless c (a_beyond c) -> alloc_history c stack_use t l ->
  0 < n < 2 ^ 32 -> Z.of_nat (length l) + 1 < a_nb c - 1 ->
  (exists p, snd (allocate c n t) = Some p) <-> fold_right Z.add 0 (map snd l) + n <= a_mem c.
Proof.
  intros c t l n G B H Hn Hl. pose proof (stack_hist_ok c t l G B H) as K.
  destruct (stack_alloc c t l n G K Hn) as [E _]. rewrite E, <- top_sum.
  assert (U : used t <= Z.of_nat (length l) + 1) by (destruct (so_rest _ _ _ K) as [(X & _)|(X & _)]; lia).
  destruct (Z.ltb_spec (used t) (a_nb c - 1)); [|lia]. cbn [andb]. destruct (Z.leb_spec (top l + n) (a_mem c)).
  - split; [intros _; assumption|eauto].
  - split; [intros [p X]; discriminate X|lia].
Qed.
Print Assumptions C60_stack_partial.

Definition plain : acfg := mkAcfg 100 16384 (mkSpace 0 0 0).
Lemma plain_good : good_acfg plain /\ harmless plain (a_beyond plain).
Proof. split; [split; cbn; lia|]. unfold harmless. cbn. split; [discriminate|]. unfold u32. cbn. lia. Qed.

Example C60_example : good_acfg plain /\ harmless plain (a_beyond plain) /\ exists t, alloc_history plain stack_use t [(0, 16384)].
Proof.
  split; [apply plain_good|]. split; [apply plain_good|].
  apply (run_reached plain _ stack_useb stack_useb_ok [OAlloc 10; OAlloc 20; OFree 10; OFree 0; OAlloc 16384] _ [Some 0; Some 10; None; None; Some 0]).
  vm_compute. reflexivity.
Qed.

Lemma run_ops : forall c (rule : alloc_op -> blocks -> Prop) check, (forall o l, check o l = true -> rule o l) ->
  forall ops n, match alloc_run c check ops (table_start c) [] with Some (t, [], _) => snd (allocate c n t) = None | _ => False end ->
  exists t, alloc_history c rule t [] /\ snd (allocate c n t) = None.
Proof.
  intros c rule check CH ops n E. destruct (alloc_run c check ops (table_start c) []) as [[[t l] rs]|] eqn:R; [|destruct E].
  destruct l; [|destruct E]. exists t. split; [|exact E]. eapply (run_history c rule check CH ops); [apply ah_start|exact R].
Qed.

(** Everything is freed again, but part of the heap is lost for good. *)
Theorem C60_leak_refuted : ~ forall c t n, good_acfg c -> harmless c (a_beyond c) -> alloc_history c any_use t [] ->
  0 < n <= a_mem c -> exists p, snd (allocate c n t) = Some p.
Proof.
  intros H.
  destruct (run_ops plain any_use any_useb any_useb_ok
    [OAlloc 10; OAlloc 10; OAlloc 10; OFree 20; OFree 0; OAlloc 5; OFree 0; OFree 10] 16384 ltac:(vm_compute; reflexivity)) as (t & X & Y).
  destruct (H plain t 16384 (proj1 plain_good) (proj2 plain_good) X ltac:(cbn; lia)) as [p Z]. congruence.
Qed.
Print Assumptions C60_leak_refuted.

(** The bytes behind the table are read, and after a few frees they are taken for a space. *)
Theorem C60_beyond_refuted : ~ forall c t n, good_acfg c -> alloc_history c stack_use t [] -> 0 < n <= a_mem c ->
  exists p, snd (allocate c n t) = Some p.
Proof.
  intros H. set (c := mkAcfg 4 100 (mkSpace 100 0 0)).
  destruct (run_ops c stack_use stack_useb stack_useb_ok
    [OAlloc 10; OFree 0; OAlloc 10; OFree 0; OAlloc 10; OAlloc 10; OFree 10; OFree 0] 11 ltac:(vm_compute; reflexivity)) as (t & X & Y).
  destruct (H c t 11 ltac:(split; cbn; lia) X ltac:(cbn; lia)) as [p Z]. congruence.
Qed.
Print Assumptions C60_beyond_refuted.

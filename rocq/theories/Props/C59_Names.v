(** C59: the name of a buffer or blackboard finds the object configured under that name, and no other.

    The comparison stops at the end of the shorter name and counts in eight bits: a name that begins with another, or
    whose length is a multiple of 256, is taken for that other. *)
From Verif Require Import Model.Base Model.Middleware Spec.MiddlewareSpec Proof.Tac Proof.MiddlewareProof.

(** Exactly what is taken for equal, for names of fewer than 256 characters. *)
Theorem C59_streq_partial : forall a b, Z.of_nat (length a) < 256 \/ Z.of_nat (length b) < 256 ->
  streq a b = true <-> (exists t, b = a ++ t) \/ (exists t, a = b ++ t).
Proof. exact streq_spec. Qed.
Print Assumptions C59_streq_partial.

(** A configured name is found where it stands if no configured name begins another. *)
Theorem C59_found_partial : forall names i name, good_names names -> nth_error names i = Some name ->
  find_name names name 0 = Some (Z.of_nat i).
Proof.
  intros names i name G E.
  assert (P : position names name 0 = Some (Z.of_nat i)).
  { destruct G as [_ D].
    assert (X : forall l k j, nth_error l j = Some name -> (forall j', nth_error l j' = Some name -> j' = j) -> position l name k = Some (k + Z.of_nat j)).
    { induction l as [|x t IH]; intros k j Hj U; [destruct j; discriminate|]. cbn [position].
      destruct (list_eq_dec Z.eq_dec name x) as [Ex|N].
      - specialize (U 0%nat ltac:(cbn; congruence)). subst j. f_equal. lia.
      - destruct j as [|j]; [cbn in Hj; congruence|]. rewrite (IH (k + 1) j Hj); [f_equal; lia|].
        intros j' Hj'. specialize (U (S j') Hj'). lia. }
    rewrite (X names 0 i E); [reflexivity|]. intros j Hj. apply (D j i name name Hj E). exists []. now rewrite app_nil_r. }
  rewrite <- P. apply find_position; [exact G|congruence].
Qed.
Print Assumptions C59_found_partial.

Example C59_example : good_names [[98; 49]; [98; 50]; [97]] /\ find_name [[98; 49]; [98; 50]; [97]] [98; 50] 0 = Some 1.
Proof.
  split; [|reflexivity]. split; [repeat constructor; cbn; lia|]. intros i j a b Hi Hj [t E].
  destruct i as [|[|[|[|i]]]]; cbn in Hi; inversion Hi; subst; destruct j as [|[|[|[|j]]]]; cbn in Hj; inversion Hj; subst; try reflexivity; discriminate E.
Qed.

(** The claim itself: different names are told apart, a configured name finds its object. *)
Theorem C59_equal_refuted : ~ forall a b, streq a b = true <-> a = b.
Proof. intros H. destruct (H [98; 49] [98; 49; 48]) as [H1 _]. specialize (H1 eq_refl). discriminate H1. Qed.
Print Assumptions C59_equal_refuted.

(** Two configured names, all different, the second finds the object of the first ("b1" and "b10"). *)
Theorem C59_found_refuted : ~ forall names i name, NoDup names -> nth_error names i = Some name ->
  find_name names name 0 = Some (Z.of_nat i).
Proof.
  intros H. specialize (H [[98; 49]; [98; 49; 48]] 1%nat [98; 49; 48]). cbn in H.
  specialize (H ltac:(repeat constructor; cbn; intuition discriminate) eq_refl). discriminate H.
Qed.
Print Assumptions C59_found_refuted.

(** Names of 256 characters are all taken for equal. *)
Theorem C59_long_refuted : ~ forall a b, length a = length b -> streq a b = true -> a = b.
Proof.
  intros H. specialize (H (repeat 97 256) (repeat 98 256) eq_refl). vm_compute in H. specialize (H eq_refl). discriminate H.
Qed.
Print Assumptions C59_long_refuted.

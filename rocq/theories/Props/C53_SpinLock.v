(** C53: at most one processor at a time is between acquiring and releasing a spin lock; along every interleaving of
    the memory accesses of any processors on any locks, with one processor releasing only what it acquired. *)
From Verif Require Import Model.Base Model.Smp Spec.SmpSpec Proof.Tac Proof.SpinProof.

Theorem C53_exclusion : forall nl tr s l p q, 0 <= nl < 2 ^ 31 -> spin_reach nl own_only tr s ->
  inside p l tr = true -> inside q l tr = true -> p = q.
Proof. intros nl tr s l p q N H. destruct (spin_reach_ok nl tr s N H) as [hl K]. apply (so_one _ _ _ _ K). Qed.
Print Assumptions C53_exclusion.

(** The assertions of SPIN_UNLOCK never fail. *)
Theorem C53_assertions : forall nl tr s a, 0 <= nl < 2 ^ 31 -> spin_reach nl own_only tr s -> spin_step a s <> SpAssertFails.
Proof.
  intros nl tr s a N H E. destruct (spin_reach_ok nl tr s N H) as [hl K]. unfold spin_step in E.
  destruct a as [p l|p l|p]; [destruct (sp_pc s p); discriminate..|].
  pose proof (so_own _ _ _ _ K p) as O. pose proof (so_cnt _ _ _ _ K p) as C.
  destruct (sp_pc s p) eqn:P; try discriminate; cbn [owner_pc uncounted] in *; specialize (O l eq_refl).
  - destruct (Z.eqb_spec (sp_lock s l) 0) as [F|]; [|discriminate]. rewrite (proj1 (so_free _ _ _ _ K l) F p) in O. discriminate O.
  - destruct (Z.eqb_spec (sp_cnt s p) 0) as [F|]; [|discriminate]. pose proof (held_pos _ _ _ _ _ _ K O). lia.
Qed.
Print Assumptions C53_assertions.

(** An attempt to acquire succeeds exactly if nobody is inside, so that a lock is never lost: if [p] is at its
    exchange and nobody holds the lock, its next access acquires it. *)
Theorem C53_acquire : forall nl tr s p l, 0 <= nl < 2 ^ 31 -> spin_reach nl own_only tr s -> sp_pc s p = SpXchg l ->
  exists s' ev, spin_step (SpNext p) s = SpGo s' ev /\
    (In (Acquired p l) ev <-> forall q, inside q l tr = false).
Proof.
  intros nl tr s p l N H P. destruct (spin_reach_ok nl tr s N H) as [hl K]. unfold spin_step. rewrite P.
  do 2 eexists. split; [reflexivity|]. rewrite <- (so_free _ _ _ _ K l).
  destruct (Z.eqb_spec (sp_lock s l) 0) as [F|F]; cbn [In]; [tauto|tauto].
Qed.
Print Assumptions C53_acquire.

(** spinlocks[p] is zero when [p] is outside the macros and holds nothing, which is what the scheduler asserts before
    it changes the context (sched.c:363, sched.c:394), and not zero when it holds something. *)
Theorem C53_count : forall nl tr s p, 0 <= nl < 2 ^ 31 -> spin_reach nl own_only tr s -> sp_pc s p = SpOut ->
  sp_cnt s p = 0 <-> forall l, inside p l tr = false.
Proof.
  intros nl tr s p N H P. destruct (spin_reach_ok nl tr s N H) as [hl K].
  pose proof (so_cnt _ _ _ _ K p) as C. rewrite P in C. cbn [uncounted] in C. split.
  - intros Z l. destruct (inside p l tr) eqn:I; [|reflexivity]. pose proof (held_pos _ _ _ _ _ _ K I). lia.
  - intros A. assert (E : hl p = []); [|rewrite E in C; cbn in C; lia].
    destruct (hl p) as [|l t] eqn:E; [reflexivity|]. assert (I : In l (hl p)) by (rewrite E; now left).
    apply (so_in _ _ _ _ K) in I. rewrite A in I. discriminate I.
Qed.
Print Assumptions C53_count.

Definition play (ls : list spin_label) : option (list spin_event * spin_state) :=
  fold_left (fun acc a => match acc with
    | None => None
    | Some (tr, s) => match spin_step a s with SpGo s' ev => Some (ev ++ tr, s') | _ => None end
    end) ls (Some ([], spin_start)).

Definition any_release (p l : Z) (tr : list spin_event) : Prop := True.

Lemma play_reach : forall nl (rule : Z -> Z -> list spin_event -> Prop) ls tr s,
  play ls = Some (tr, s) ->
  (forall pre a post tr' s', ls = pre ++ a :: post -> play pre = Some (tr', s') ->
     match a with SpLock p l => 0 <= l < nl | SpUnlock p l => 0 <= l < nl /\ rule p l tr' | SpNext p => True end) ->
  spin_reach nl rule tr s.
Proof.
  intros nl rule ls. induction ls as [|a t IH] using rev_ind; intros tr s E A.
  - unfold play in E. cbn in E. inversion E; subst. constructor.
  - unfold play in E. rewrite fold_left_app in E. cbn [fold_left] in E. fold (play t) in E.
    destruct (play t) as [[tr0 s0]|] eqn:P; [|discriminate].
    destruct (spin_step a s0) as [s1 ev| |] eqn:S; try discriminate. inversion E; subst.
    eapply sr_step; [|exact (A t a [] tr0 s0 eq_refl P)|exact S].
    apply IH; [reflexivity|]. intros pre b post tr' s' Ht Hp. apply (A pre b (post ++ [a]) tr' s'); [|exact Hp].
    rewrite Ht, <- app_assoc. reflexivity.
Qed.

(** Processors 1 and 2 compete for lock 0; 1 gets it, 2 spins, 1 releases, 2 acquires. *)
Example C53_example : exists tr s, spin_reach 1 own_only tr s /\ inside 2 0 tr = true /\ inside 1 0 tr = false /\
  tr = [Acquired 2 0; Released 1 0; Acquired 1 0].
Proof.
  set (ls := [SpLock 1 0; SpLock 2 0; SpNext 1; SpNext 2; SpNext 1; SpNext 1; SpNext 2; SpNext 1; SpNext 2; SpUnlock 1 0;
              SpNext 1; SpNext 1; SpNext 2; SpNext 1; SpNext 1; SpNext 1; SpNext 2]).
  destruct (play ls) as [[tr s]|] eqn:E; [|vm_compute in E; discriminate E].
  assert (T : tr = [Acquired 2 0; Released 1 0; Acquired 1 0]) by (vm_compute in E; inversion E; reflexivity).
  exists tr, s. split; [|rewrite T; repeat split; reflexivity].
  apply (play_reach _ _ ls); [exact E|]. intros pre a post tr' s' H P.
  assert (L : (length pre < 17)%nat) by (apply (f_equal (@length spin_label)) in H; rewrite app_length in H; cbn in H; lia).
  assert (Pre : pre = firstn (length pre) ls) by (rewrite H, firstn_app, firstn_all, Nat.sub_diag; cbn; now rewrite app_nil_r).
  assert (An : nth_error ls (length pre) = Some a) by (rewrite H, nth_error_app2, Nat.sub_diag by lia; reflexivity).
  rewrite Pre in P. clear - P An L. set (k := length pre) in *. clearbody k.
  do 17 (destruct k as [|k]; [cbn in An; inversion An; subst a; first [exact I | lia | (split; [lia|]; vm_compute in P; inversion P; reflexivity)]|]).
  lia.
Qed.

(** The restriction is needed: a processor that holds some lock can release another one that it does not hold, without
    any assertion failing, and then two are inside. *)
Theorem C53_foreign_release_refuted : ~ forall nl tr s l p q, 0 <= nl < 2 ^ 31 -> spin_reach nl any_release tr s ->
  inside p l tr = true -> inside q l tr = true -> p = q.
Proof.
  intros H.
  set (acq := fun p l => [SpLock p l; SpNext p; SpNext p; SpNext p; SpNext p]).
  set (rel := fun p l => [SpUnlock p l; SpNext p; SpNext p; SpNext p; SpNext p; SpNext p]).
  set (ls := acq 1 0 ++ acq 2 1 ++ rel 2 0 ++ acq 3 0).
  destruct (play ls) as [[tr s]|] eqn:E; [|vm_compute in E; discriminate E].
  assert (T : inside 1 0 tr = true /\ inside 3 0 tr = true) by (vm_compute in E; inversion E; split; reflexivity).
  assert (R : spin_reach 2 any_release tr s).
  { apply (play_reach _ _ ls); [exact E|]. intros pre a post tr' s' Hl _.
    assert (F : Forall (fun a => match a with SpLock p l => 0 <= l < 2 | SpUnlock p l => 0 <= l < 2 | SpNext p => True end) ls)
      by (unfold ls, acq, rel; repeat constructor; lia).
    rewrite Hl in F. apply Forall_app in F as [_ F]. inversion F; subst. destruct a; [assumption|split; [assumption|exact I]|exact I]. }
  specialize (H 2 tr s 0 1 3 ltac:(lia) R (proj1 T) (proj2 T)). discriminate H.
Qed.
Print Assumptions C53_foreign_release_refuted.

(** What the functions of the kernel machine change. *)
From Verif Require Import Model.Base Model.State Model.LockFifo Model.LockObj Model.LockSys Model.Sched
  Model.Kernel Spec.SchedSpec Spec.KernelSpec Proof.Tac Proof.SchedProof.

(** ** Sums *)
Lemma sum_to_0 : forall f, sum_to f 0 = 0.
Proof. reflexivity. Qed.
Lemma sum_to_succ : forall f i, 0 <= i -> sum_to f (i + 1) = sum_to f i + f i.
Proof.
  intros f i H. unfold sum_to. replace (Z.to_nat (i + 1)) with (S (Z.to_nat i)) by lia.
  cbn [psum]. rewrite Z2Nat.id by lia. reflexivity.
Qed.
Lemma sum_to_mono : forall f n i j, (forall k, 0 <= k < n -> 0 <= f k) ->
  0 <= i -> i <= j -> j <= n -> sum_to f i <= sum_to f j.
Proof.
  intros f n i j Hf Hi Hij Hj.
  replace j with (i + Z.of_nat (Z.to_nat (j - i))) by lia.
  assert (Hb : i + Z.of_nat (Z.to_nat (j - i)) <= n) by lia.
  revert Hb. generalize (Z.to_nat (j - i)) as k. clear j Hij Hj.
  induction k as [|k IH]; intro Hb.
  - rewrite Z.add_0_r. lia.
  - rewrite Nat2Z.inj_succ, <- Z.add_1_r, Z.add_assoc. rewrite sum_to_succ by lia.
    pose proof (Hf (i + Z.of_nat k) ltac:(lia)). specialize (IH ltac:(lia)). lia.
Qed.
Lemma sum_to_nonneg : forall f n i, (forall k, 0 <= k < n -> 0 <= f k) -> 0 <= i <= n -> 0 <= sum_to f i.
Proof. intros f n i Hf Hi. pose proof (sum_to_mono f n 0 i Hf ltac:(lia) ltac:(lia) ltac:(lia)). rewrite sum_to_0 in H. lia. Qed.

Section Layout.
Variable cfg : config.
Hypothesis W : supported cfg.

Lemma threads_nonneg : forall k, 0 <= k < c_nparts cfg -> 0 <= c_threads cfg k.
Proof. intros k Hk. pose proof (sp_threads cfg W k Hk). lia. Qed.
Lemma objs_nonneg : forall k, 0 <= k < c_nparts cfg -> 0 <= c_lockobjs cfg k.
Proof. intros k Hk. exact (sp_objs cfg W k Hk). Qed.

Lemma low_nonneg : forall i, is_part cfg i -> 0 <= low_of cfg i.
Proof. intros i Hi. unfold low_of. apply sum_to_nonneg with (c_nparts cfg); [exact threads_nonneg|]. unfold is_part in Hi. lia. Qed.
Lemma high_is_next : forall i, is_part cfg i -> high_of cfg i = low_of cfg (i + 1).
Proof. intros i Hi. unfold high_of, low_of. rewrite sum_to_succ; [reflexivity|]. unfold is_part in Hi; lia. Qed.
Lemma high_bound : forall i, is_part cfg i ->
  high_of cfg i + c_nprocs cfg + 1 <= c_nthreads cfg.
Proof.
  intros i Hi. rewrite high_is_next by assumption. unfold low_of, is_part in *.
  pose proof (sum_to_mono (c_threads cfg) (c_nparts cfg) (i + 1) (c_nparts cfg) threads_nonneg
                ltac:(lia) ltac:(lia) ltac:(lia)). pose proof (sp_total cfg W). lia.
Qed.
Lemma low_lt_high : forall i, is_part cfg i -> low_of cfg i < high_of cfg i.
Proof. intros i Hi. unfold high_of. pose proof (sp_threads cfg W i Hi). lia. Qed.
Lemma ranges_ordered : forall i j, is_part cfg i -> is_part cfg j -> i < j -> high_of cfg i <= low_of cfg j.
Proof.
  intros i j Hi Hj H. rewrite high_is_next by assumption. unfold low_of, is_part in *.
  apply sum_to_mono with (c_nparts cfg); try lia. exact threads_nonneg.
Qed.
Lemma ranges_disjoint : forall i j t, is_part cfg i -> is_part cfg j -> thread_of cfg i t -> thread_of cfg j t -> i = j.
Proof.
  intros i j t Hi Hj Hti Htj. unfold thread_of, in_range in *.
  destruct (Z.lt_trichotomy i j) as [H|[H|H]]; [|assumption|].
  - pose proof (ranges_ordered i j Hi Hj H). lia.
  - pose proof (ranges_ordered j i Hj Hi H). lia.
Qed.
Lemma lo_low_nonneg : forall i, 0 <= i <= c_nparts cfg -> 0 <= lo_low_of cfg i.
Proof. intros i Hi. unfold lo_low_of. apply sum_to_nonneg with (c_nparts cfg); [exact objs_nonneg|assumption]. Qed.
Lemma lo_high_is_next : forall i, is_part cfg i -> lo_high_of cfg i = lo_low_of cfg (i + 1).
Proof. intros i Hi. unfold lo_high_of, lo_low_of. rewrite sum_to_succ; [reflexivity|]. unfold is_part in Hi; lia. Qed.
Lemma lo_high_bound : forall i, is_part cfg i -> lo_high_of cfg i <= 255.
Proof.
  intros i Hi. rewrite lo_high_is_next by assumption. unfold lo_low_of, is_part in *.
  pose proof (sum_to_mono (c_lockobjs cfg) (c_nparts cfg) (i + 1) (c_nparts cfg) objs_nonneg
                ltac:(lia) ltac:(lia) ltac:(lia)). pose proof (sp_objs_total cfg W). lia.
Qed.
Lemma lo_ranges_ordered : forall i j, is_part cfg i -> is_part cfg j -> i < j -> lo_high_of cfg i <= lo_low_of cfg j.
Proof.
  intros i j Hi Hj H. rewrite lo_high_is_next by assumption. unfold lo_low_of, is_part in *.
  apply sum_to_mono with (c_nparts cfg); try lia. exact objs_nonneg.
Qed.
Lemma lo_ranges_disjoint : forall i j t, is_part cfg i -> is_part cfg j ->
  lockobj_of cfg i t -> lockobj_of cfg j t -> i = j.
Proof.
  intros i j t Hi Hj Hti Htj. unfold lockobj_of, in_range in *.
  destruct (Z.lt_trichotomy i j) as [H|[H|H]]; [|assumption|].
  - pose proof (lo_ranges_ordered i j Hi Hj H). lia.
  - pose proof (lo_ranges_ordered j i Hj Hi H). lia.
Qed.
Lemma idle_outside : forall i c, is_part cfg i -> is_proc cfg c -> ~ thread_of cfg i (idle cfg c).
Proof. intros i c Hi Hc H. unfold thread_of, in_range, idle, is_proc in *. pose proof (high_bound i Hi). lia. Qed.
Lemma idle_bound : forall c, is_proc cfg c -> 0 <= idle cfg c < 256.
Proof.
  intros c Hc. unfold idle, is_proc in *. pose proof (sp_total cfg W). pose proof (sp_parts cfg W).
  pose proof (sum_to_nonneg (c_threads cfg) (c_nparts cfg) (c_nparts cfg) threads_nonneg ltac:(lia)). lia.
Qed.
Lemma thread_bound : forall i t, is_part cfg i -> thread_of cfg i t -> 0 <= t < 256.
Proof.
  intros i t Hi Ht. unfold thread_of, in_range in Ht. pose proof (high_bound i Hi).
  pose proof (low_nonneg i Hi). pose proof (sp_total cfg W). pose proof (sp_procs cfg W). lia.
Qed.
Lemma u8_small : forall x, 0 <= x < 256 -> u8 x = x.
Proof. intros x H. unfold u8. apply Z.mod_small. exact H. Qed.
End Layout.

(** ** Frames *)

Lemma consume_frame : forall cfg c s, exists th, consume cfg c s = set_k_th th s.
Proof.
  intros cfg c s. unfold consume.
  destruct (_ && _); [|exists (k_th s); now destruct s].
  destruct (_ <? _); [now eexists|]. destruct (_ <? _); [now eexists|]. exists (k_th s); now destruct s.
Qed.

Lemma elect_frame : forall cfg c np s s' e, elect cfg c np s = Some (s', e) -> exists th, s' = set_k_th th s.
Proof.
  intros cfg c np s s' e H. unfold elect in H.
  destruct (_ || _). { injection H as <- _. exists (k_th s). now destruct s. }
  destruct (_ =? PM_NORMAL).
  2:{ injection H as <- _. exists (k_th s). now destruct s. }
  destruct (_ && _). { injection H as <- _. exists (k_th s). now destruct s. }
  destruct (sched_func _ _ _ _ _ _ _ _); [|discriminate]. injection H as <- _. apply consume_frame.
Qed.

Lemma elect_thread_frame : forall cfg c np s s' e,
  elect_thread cfg c np s = Some (s', e) -> exists th, s' = set_k_th th s.
Proof.
  intros cfg c np s s' e H. unfold elect_thread in H.
  destruct (_ <? _); [discriminate|].
  destruct (wake_loop _ _ _ _ _ _) as [th|]; [|discriminate].
  destruct (elect cfg c np (set_k_th th s)) as [[s2 e2]|] eqn:E; [|discriminate].
  apply elect_frame in E. destruct E as (th2 & ->). injection H as <- _.
  destruct (_ <? _); now eexists.
Qed.

(** The parts of the state in which partitions and the executing threads are recorded. *)
Lemma record_thread_fields : forall cfg c e s,
  let s' := record_thread cfg c e s in
  k_th s' = k_th s /\ k_obj s' = k_obj s /\ k_cur s' = k_cur s /\ k_cp s' = k_cp s /\ k_slot s' = k_slot s /\
  k_deadline s' = k_deadline s /\ k_major s' = k_major s /\ k_flush s' = k_flush s /\ k_now s' = k_now s /\
  k_present s' = k_present s /\ k_brk s' = k_brk s /\ k_k s' = k_k s.
Proof. intros. unfold s', record_thread. destruct (_ =? e); repeat split. Qed.

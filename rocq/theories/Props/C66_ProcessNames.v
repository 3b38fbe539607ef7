(** C66: a process is found under its name and no two processes share a name; GET_PROCESS_STATUS is refuted. *)
From Verif Require Import Model.Base Model.Arinc Spec.ArincNameSpec Proof.Tac Proof.ArincNameProof.

(** No two processes of a partition have the same name. *)
Theorem C66_distinct : forall nbt ops p outs, history nbt ops p outs -> named ops ->
  NoDup (map p_name (processes ops outs)).
Proof. intros nbt ops p outs H N. apply (history_table _ _ _ _ H N). Qed.
Print Assumptions C66_distinct.

(** GET_PROCESS_ID finds exactly the processes that have been created: the n-th created process has the identifier n. *)
Theorem C66_found : forall nbt ops p outs, history nbt ops p outs -> named ops ->
  forall name, name <> [] ->
  (forall n x, nth_error (processes ops outs) n = Some x -> p_name x = name ->
     get_process_id nbt name p = PProcess (Z.of_nat n + 1) NO_ERROR) /\
  (~ In name (map p_name (processes ops outs)) -> get_process_id nbt name p = PProcess 0 INVALID_CONFIG).
Proof.
  intros nbt ops p outs H N name NE. destruct (history_table _ _ _ _ H N) as (T & U & M).
  destruct H as (B & _ & _). split.
  - intros n x E <-. unfold get_process_id. rewrite (exist_hit nbt B _ _ _ _ T U M E).
    assert (Z.of_nat n + 1 =? 0 = false) as -> by (apply Z.eqb_neq; lia). reflexivity.
  - intros I. unfold get_process_id. rewrite (exist_miss nbt B _ _ _ T NE I). reflexivity.
Qed.
Print Assumptions C66_found.

(** The outcome of CREATE_PROCESS: a taken name, then a bad priority, then a refusal of the kernel; otherwise the
    process gets the next number and its entry names the kernel thread. *)
Theorem C66_created : forall nbt ops p outs, history nbt ops p outs -> named ops ->
  forall name prio r id r2 p' o, name <> [] -> proc_step nbt (OCreate name prio r id r2) p = (p', o) -> o <> POutside ->
  let l := processes ops outs in
  (p' = p /\ In name (map p_name l) /\ o = PReturns NO_ACTION) \/
  (p' = p /\ ~ In name (map p_name l) /\ ~ 1 <= prio <= 63 /\ o = PReturns INVALID_PARAM) \/
  (p' = p /\ ~ In name (map p_name l) /\ 1 <= prio <= 63 /\ r <> 0 /\ o = PReturns r) \/
  (~ In name (map p_name l) /\ 1 <= prio <= 63 /\ r = 0 /\ o = PProcess (Z.of_nat (length l) + 1) r2 /\
   pr_core p' (Z.of_nat (length l) + 1) = id /\
   (forall i, 1 <= i <= Z.of_nat (length l) -> pr_core p' i = pr_core p i /\ pr_name p' i = pr_name p i)).
Proof.
  intros nbt ops p outs H N name prio r id r2 p' o NE E O l.
  pose proof (history_table _ _ _ _ H N) as T. pose proof (proj1 T) as T0. destruct H as (B & _ & _).
  destruct (create_cases nbt B _ _ _ _ _ _ _ _ _ T NE E)
    as [(_ & X)|[(-> & e & -> & [(I & ->)|[(I & P & ->)|(I & P & R & ->)]])|(-> & I & P & R & T1)]].
  - contradiction.
  - left. auto.
  - right. left. auto.
  - right. right. left. auto.
  - right. right. right. split; [exact I|]. split; [exact P|]. split; [exact R|]. split; [reflexivity|].
    destruct T1 as ((_ & _ & C & _) & _). destruct T0 as (_ & _ & C0 & _).
    split.
    + assert (K : nth_error (l ++ [(name, id, prio)]) (length l) = Some (name, id, prio)).
      { rewrite nth_error_app2 by lia. rewrite Nat.sub_diag. reflexivity. }
      apply (C _ _ K).
    + intros i Hi.
      assert (Q : exists y, nth_error l (Z.to_nat (i - 1)) = Some y).
      { destruct (nth_error l (Z.to_nat (i - 1))) eqn:F; [eauto|]. apply nth_error_None in F. lia. }
      destruct Q as (y & Q). pose proof (C0 _ _ Q) as (X1 & X2 & _).
      assert (Q1 : nth_error (l ++ [(name, id, prio)]) (Z.to_nat (i - 1)) = Some y).
      { rewrite nth_error_app1; [exact Q|]. lia. }
      pose proof (C _ _ Q1) as (Y1 & Y2 & _).
      replace (Z.of_nat (Z.to_nat (i - 1)) + 1) with i in X1, X2, Y1, Y2 by lia. split; congruence.
Qed.
Print Assumptions C66_created.

(** Nothing is written behind the tables if the kernel grants fewer threads than they have entries, as it does
    (C23) when POK_CONFIG_NB_THREADS of the partition is its quota in the kernel. *)
Theorem C66_inside : forall nbt ops p outs, 0 < nbt < 2 ^ 31 -> named ops ->
  proc_run nbt ops procs_start = (p, outs) -> granted ops < nbt -> ~ In POutside outs.
Proof.
  intros nbt ops p outs B N R G. exact (run_inside nbt B ops procs_start [] p outs (start_shows nbt B) N R G).
Qed.
Print Assumptions C66_inside.

(** The full claim about GET_PROCESS_STATUS: it reports the name and priority given when the process was created. *)
Definition status_claim : Prop :=
  forall nbt ops p outs, history nbt ops p outs -> named ops ->
  forall n x, nth_error (processes ops outs) n = Some x ->
  status_name (Z.of_nat n + 1) p = p_name x /\ status_base_prio (Z.of_nat n + 1) p = p_prio x.

(** It holds where the number of the process and of its kernel thread agree; that every deployment in which they
    differ (any partition but the first) is served too is missing, and false. *)
Theorem C66_status_partial : forall nbt ops p outs, history nbt ops p outs -> named ops ->
  forall n x, nth_error (processes ops outs) n = Some x -> p_thread x = Z.of_nat n + 1 ->
  status_name (Z.of_nat n + 1) p = p_name x /\ status_base_prio (Z.of_nat n + 1) p = p_prio x.
Proof.
  intros nbt ops p outs H N n x E K. destruct (history_table _ _ _ _ H N) as ((_ & _ & C & _) & _).
  destruct (C _ _ E) as (A1 & A2 & A3). unfold status_name, status_base_prio. rewrite A2, K. auto.
Qed.
Print Assumptions C66_status_partial.

(** Two processes of a partition whose threads are 4, 5 and 6: main, "A" and "B". *)
Definition c66_ops : list proc_op :=
  [OCreate [65] 10 0 5 0; OCreate [66] 20 0 6 0; OCreate [65] 30 0 7 0; OCreate [67] 64 0 7 0; OGetId [66]; OGetId [67]].
Definition c66_end := fst (proc_run 3 c66_ops procs_start).
Definition c66_outs := snd (proc_run 3 c66_ops procs_start).
Example c66_case : history 3 c66_ops c66_end c66_outs /\ named c66_ops /\
  processes c66_ops c66_outs = [([65], 5, 10); ([66], 6, 20)] /\
  c66_outs = [PProcess 1 0; PProcess 2 0; PReturns NO_ACTION; PReturns INVALID_PARAM; PProcess 2 NO_ERROR;
              PProcess 0 INVALID_CONFIG].
Proof.
  split; [|split; [|split; reflexivity]].
  - split; [lia|]. split; [reflexivity|]. vm_compute. intuition discriminate.
  - intros name prio r id r2 I. cbn in I.
    repeat (destruct I as [I|I]; [try discriminate I; injection I as <- _ _ _ _; discriminate|]). destruct I.
Qed.

Example c66_granted : granted c66_ops = 4 /\ granted [OCreate [65] 1 0 1 0; OCreate [65] 1 50 1 0] < 2.
Proof. split; reflexivity. Qed.

Theorem C66_status_refuted : ~ status_claim.
Proof.
  intros H. destruct c66_case as (A & B & C & _).
  specialize (H 3 c66_ops c66_end c66_outs A B 0%nat ([65], 5, 10)). rewrite C in H.
  specialize (H eq_refl). destruct H as (H & _). vm_compute in H. discriminate H.
Qed.
Print Assumptions C66_status_refuted.

(** Without the premise on empty names two processes may share one. *)
Theorem C66_empty_refuted :
  ~ (forall nbt ops p outs, history nbt ops p outs -> NoDup (map p_name (processes ops outs))).
Proof.
  intros H. set (ops := [OCreate [] 1 0 1 0; OCreate [] 1 0 2 0]).
  specialize (H 4 ops (fst (proc_run 4 ops procs_start)) (snd (proc_run 4 ops procs_start))).
  assert (X : history 4 ops (fst (proc_run 4 ops procs_start)) (snd (proc_run 4 ops procs_start))).
  { split; [lia|]. split; [reflexivity|]. vm_compute. intuition discriminate. }
  specialize (H X). vm_compute in H. inversion H as [|? ? A B]; subst. apply A. left. reflexivity.
Qed.
Print Assumptions C66_empty_refuted.

(** GET_MY_ID gives the number of the kernel thread, not the identifier that CREATE_PROCESS has given. *)
Theorem C66_my_id_refuted :
  ~ (forall nbt ops p outs, history nbt ops p outs -> named ops ->
     forall n x, nth_error (processes ops outs) n = Some x -> get_my_id (p_thread x) = PProcess (Z.of_nat n + 1) NO_ERROR).
Proof.
  intros H. destruct c66_case as (A & B & C & _).
  specialize (H 3 c66_ops c66_end c66_outs A B 0%nat ([65], 5, 10)). rewrite C in H.
  specialize (H eq_refl). discriminate H.
Qed.
Print Assumptions C66_my_id_refuted.

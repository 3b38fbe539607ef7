(** C70: names and identifiers of ARINC 653 semaphores and events.

    Created objects have identifiers of their own, and requests go to the kernel object that was created for them.
    Names are compared up to the length of the given one: a name finds any declared name that starts with it, created
    or not. Requests on events that were not created are refused, unless the identifier is negative; requests on
    semaphores that were not created go to kernel object 0. *)
From Verif Require Import Model.Base Model.State Model.LockObj Model.LockSys Model.Kernel Model.Arinc Model.ArincSync
  Model.Libc Spec.LibcSpec Spec.ApexNameSpec Proof.Tac Props.C41_MemoryStrings.

Lemma has_prefix_spec : forall name d, has_prefix name d = true <-> starts_with d name.
Proof.
  induction name as [|a name IH]; intros d.
  - split; [intros _; now exists d|reflexivity].
  - destruct d as [|b d]; cbn [has_prefix].
    + split; [discriminate|]. intros (rest & E). discriminate E.
    + rewrite andb_true_iff, Z.eqb_eq, IH. split.
      * intros (-> & rest & ->). now exists rest.
      * intros (rest & E). inversion E. split; [reflexivity|]. now exists rest.
Qed.
Lemma find_spec : forall name names i, match find_from name names i with
  | Some k => i <= k < i + Z.of_nat (length names) /\ starts_with (nth (Z.to_nat (k - i)) names []) name /\
      (forall j, i <= j < k -> ~ starts_with (nth (Z.to_nat (j - i)) names []) name)
  | None => forall d, In d names -> ~ starts_with d name
  end.
Proof.
  intros name. induction names as [|d names IH]; intros i; cbn [find_from].
  - intros d [].
  - destruct (has_prefix name d) eqn:P.
    + apply has_prefix_spec in P. cbn [length]. split; [lia|]. rewrite Z.sub_diag. split; [exact P|]. intros j Hj. lia.
    + assert (N : ~ starts_with d name) by (intros X; apply has_prefix_spec in X; congruence).
      specialize (IH (i + 1)). destruct (find_from name names (i + 1)) as [k|].
      * cbn [length]. destruct IH as (A & B & C). split; [lia|].
        replace (Z.to_nat (k - i)) with (S (Z.to_nat (k - (i + 1)))) by lia. split; [exact B|].
        intros j Hj. destruct (Z.eq_dec j i) as [->|Nj]; [rewrite Z.sub_diag; exact N|].
        replace (Z.to_nat (j - i)) with (S (Z.to_nat (j - (i + 1)))) by lia. apply (C j). lia.
      * intros x [<-|I]; [exact N|now apply IH].
Qed.
Lemma find_first : forall names n name d i, nth_error names n = Some d -> starts_with d name ->
  (forall m e, (m < n)%nat -> nth_error names m = Some e -> ~ starts_with e name) ->
  find_from name names i = Some (i + Z.of_nat n).
Proof.
  induction names as [|x names IH]; intros n name d i N P B; [destruct n; discriminate N|]. cbn [find_from]. destruct n as [|n].
  - inversion N. subst x. apply has_prefix_spec in P. rewrite P. f_equal. lia.
  - destruct (has_prefix name x) eqn:Q.
    + apply has_prefix_spec in Q. exfalso. apply (B 0%nat x); [lia|reflexivity|exact Q].
    + rewrite (IH n name d (i + 1) N P); [f_equal; lia|]. intros m e Hm E. apply (B (S m) e); [lia|exact E].
Qed.

(** Invariant of a history. *)
Definition tracked (names : list (list Z)) (gs : list grant) (o : objs) : Prop :=
  ob_names o = names /\ NoDup (map g_id gs) /\
  (forall g, In g gs -> find_from (g_name g) names 0 = Some (g_id g) /\ ob_ready o (g_id g) = true /\ ob_core o (g_id g) = g_core g) /\
  (forall i, 0 <= i < Z.of_nat (length names) -> ~ In i (map g_id gs) -> ob_ready o i = false /\ ob_core o i = 0).
Lemma tracked_step : forall names gs o op o' out, tracked names gs o -> obj_step op o = (o', out) ->
  tracked names (gs ++ grants [op] [out]) o'.
Proof.
  intros names gs o op o' out T E. destruct op as [name r k|name]; cbn [obj_step] in E.
  2: { inversion E. cbn [grants]. rewrite app_nil_r. subst. exact T. }
  unfold create_obj in E. destruct T as (NM & ND & G & F). rewrite NM in E.
  pose proof (find_spec name names 0) as FS. destruct (find_from name names 0) as [i|] eqn:FF.
  2: { inversion E. cbn [grants]. rewrite app_nil_r. subst. now repeat split; try apply G; try apply F. }
  destruct (ob_ready o i) eqn:RD.
  { inversion E. cbn [grants]. change (NO_ACTION =? NO_ERROR) with false. rewrite app_nil_r. subst.
    now repeat split; try apply G; try apply F. }
  destruct (negb (r =? ERR_OK)).
  { inversion E. cbn [grants]. change (INVALID_PARAM =? NO_ERROR) with false. rewrite app_nil_r. subst.
    now repeat split; try apply G; try apply F. }
  inversion E. subst o' out. clear E. cbn [grants]. change (NO_ERROR =? NO_ERROR) with true. cbn [app].
  assert (NI : ~ In i (map g_id gs)).
  { intros I. apply in_map_iff in I. destruct I as (g & <- & I). destruct (G g I) as (_ & X & _). congruence. }
  split; [reflexivity|]. cbn [ob_names ob_ready ob_core]. split; [|split].
  - rewrite map_app. cbn [map g_id]. apply NoDup_rev in ND. rewrite <- (rev_involutive (map g_id gs ++ [i])).
    apply NoDup_rev. rewrite rev_app_distr. cbn. constructor; [|exact ND]. intros I. apply in_rev in I. contradiction.
  - intros g I. apply in_app_or in I. destruct I as [I|[<-|[]]].
    + destruct (G g I) as (A & B & C). assert (D : i <> g_id g) by (intros ->; apply NI; now apply in_map).
      rewrite !upd_other by congruence. auto.
    + cbn [g_name g_id g_core]. rewrite !upd_same. auto.
  - intros j Hj NJ. rewrite map_app in NJ. assert (D : i <> j) by (intros ->; apply NJ; apply in_or_app; right; now left).
    rewrite !upd_other by congruence. apply F; [exact Hj|]. intros I. apply NJ. apply in_or_app. now left.
Qed.
Lemma grants_cons : forall op ops out outs, grants (op :: ops) (out :: outs) = grants [op] [out] ++ grants ops outs.
Proof. intros [|] ops [|i e|] outs; cbn [grants]; try reflexivity. destruct (e =? NO_ERROR); reflexivity. Qed.
Lemma tracked_run : forall ops names gs o o' outs, tracked names gs o -> obj_run ops o = (o', outs) ->
  tracked names (gs ++ grants ops outs) o'.
Proof.
  induction ops as [|op ops IH]; intros names gs o o' outs T E; cbn [obj_run] in E.
  - inversion E. subst. cbn [grants]. now rewrite app_nil_r.
  - destruct (obj_step op o) as [o1 r] eqn:S1. destruct (obj_run ops o1) as [o2 rs] eqn:R. inversion E. subst o2 outs.
    rewrite grants_cons, app_assoc. apply (IH _ _ o1); [|exact R]. now apply (tracked_step _ _ o).
Qed.
Lemma history_tracked : forall names ops outs o, object_history names ops outs o -> tracked names (grants ops outs) o.
Proof.
  intros names ops outs o (r & c & E). apply (tracked_run ops names [] (objs_start names r c) o outs); [|exact E].
  split; [reflexivity|]. split; [constructor|]. split; [intros g []|]. intros i Hi _. cbn [ob_ready ob_core objs_start].
  replace ((0 <=? i) && (i <? Z.of_nat (length names))) with true by lia. auto.
Qed.

(** ** The comparison *)
(** The test of GET_SEMAPHORE_ID and, with the operands exchanged, of GET_EVENT_ID, for strings in memory. *)
Theorem C70_strncmp : forall m p1 p2 declared name, cstring m p1 declared -> cstring m p2 name -> Z.of_nat (length name) < 2 ^ 16 ->
  (strncmp m p1 p2 (Z.of_nat (length name)) = 0 <-> starts_with declared name) /\
  (strncmp m p2 p1 (Z.of_nat (length name)) = 0 <-> starts_with declared name).
Proof.
  intros m p1 p2 d name C1 C2 L. change (2 ^ 16) with 65536 in L.
  assert (B : 0 <= Z.of_nat (length name) < 2 ^ 32) by (change (2 ^ 32) with 4294967296; lia).
  destruct (C41_strncmp m p1 p2 d name _ C1 C2 B) as (X & _). destruct (C41_strncmp m p2 p1 name d _ C2 C1 B) as (Y & _).
  cbv zeta in X, Y. rewrite X, Y. rewrite Nat2Z.id. rewrite (firstn_app (length name) name), Nat.sub_diag, firstn_all, firstn_O, app_nil_r.
  assert (K : firstn (length name) (d ++ [0]) = name <-> starts_with d name).
  { destruct C2 as (_ & _ & NZ & _). clear - NZ. revert d. induction name as [|a name IH]; intros d.
    - split; [intros _; now exists d|reflexivity].
    - destruct d as [|b d]; cbn [length firstn app].
      + split; [|intros (rest & E); discriminate E]. intros E. inversion E. subst. exfalso. apply NZ. now left.
      + assert (NZ' : ~ In 0 name) by (intros I; apply NZ; now right). specialize (IH NZ' d). split.
        * intros E. inversion E as [[E1 E2]]. rewrite E2. apply IH in E2. destruct E2 as (rest & ->). now exists rest.
        * intros (rest & E). inversion E. subst. f_equal. apply IH. now exists rest. }
  split; [exact K|]. rewrite <- K. split; intros E; now symmetry.
Qed.
Print Assumptions C70_strncmp.

(** ** What holds *)
(** Every granted creation has given an identifier of its own. *)
Theorem C70_distinct : forall names ops outs o, object_history names ops outs o -> NoDup (map g_id (grants ops outs)).
Proof. intros names ops outs o H. apply (history_tracked _ _ _ _ H). Qed.
Print Assumptions C70_distinct.

(** Requests on a created object go to the kernel object that was made for it, for ever. *)
Theorem C70_requests : forall names ops outs o g T, object_history names ops outs o -> In g (grants ops outs) ->
  wait_semaphore o (g_id g) T = Passed (SLockOp (g_core g) LK_SEMAPHORE (Some (OpLock (sem_timeout T)))) /\
  signal_semaphore o (g_id g) = Passed (SLockOp (g_core g) LK_SEMAPHORE (Some OpUnlock)) /\
  wait_event o (g_id g) T = Passed (SLockOp (g_core g) LK_EVENT (Some (OpWait (event_timeout T)))) /\
  set_event o (g_id g) = Passed (SLockOp (g_core g) LK_EVENT (Some OpSignal)).
Proof.
  intros names ops outs o g T H I. destruct (history_tracked _ _ _ _ H) as (N & _ & G & _).
  destruct (G g I) as (F & R & C). pose proof (find_spec (g_name g) names 0) as FS. rewrite F in FS. destruct FS as (B & _).
  unfold wait_semaphore, signal_semaphore, wait_event, set_event, ob_nb. rewrite N, R, C.
  replace (Z.of_nat (length names) <? g_id g) with false by lia. replace (Z.of_nat (length names) <=? g_id g) with false by lia.
  repeat split; reflexivity.
Qed.
Print Assumptions C70_requests.

(** The name under which an object was created finds it. *)
Theorem C70_created_found : forall names ops outs o g, object_history names ops outs o -> In g (grants ops outs) ->
  get_obj_id (g_name g) o = PProcess (g_id g) NO_ERROR.
Proof.
  intros names ops outs o g H I. destruct (history_tracked _ _ _ _ H) as (N & _ & G & _).
  destruct (G g I) as (F & _). unfold get_obj_id. rewrite N, F. reflexivity.
Qed.
Print Assumptions C70_created_found.

(** What is missing: names that start an earlier one. *)
Theorem C70_found_partial : forall names ops outs o n name, object_history names ops outs o -> nth_error names n = Some name ->
  (forall m d, (m < n)%nat -> nth_error names m = Some d -> ~ starts_with d name) ->
  get_obj_id name o = PProcess (Z.of_nat n) NO_ERROR /\
  (forall k, ~ In (Z.of_nat n) (map g_id (grants ops outs)) -> snd (create_obj name ERR_OK k o) = PProcess (Z.of_nat n) NO_ERROR).
Proof.
  intros names ops outs o n name H E B. destruct (history_tracked _ _ _ _ H) as (N & _ & _ & F).
  assert (P : starts_with name name) by (exists []; now rewrite app_nil_r).
  pose proof (find_first names n name name 0 E P B) as X. rewrite Z.add_0_l in X.
  unfold get_obj_id, create_obj. rewrite N, X. split; [reflexivity|]. intros k NI.
  assert (n < length names)%nat by (apply nth_error_Some; congruence).
  destruct (F (Z.of_nat n)) as (R & _); [lia|exact NI|]. rewrite R. reflexivity.
Qed.
Print Assumptions C70_found_partial.

(** What is missing: names that start a declared one. *)
Theorem C70_unknown_partial : forall names ops outs o name, object_history names ops outs o ->
  (forall d, In d names -> ~ starts_with d name) ->
  get_obj_id name o = PReturns INVALID_CONFIG /\ forall r k, create_obj name r k o = (o, PReturns INVALID_CONFIG).
Proof.
  intros names ops outs o name H B. destruct (history_tracked _ _ _ _ H) as (N & _).
  unfold get_obj_id, create_obj. rewrite N. pose proof (find_spec name names 0) as FS.
  destruct (find_from name names 0) as [k|]; [|auto]. exfalso. destruct FS as (A & P & _). apply (B _) in P; [exact P|].
  apply nth_In. lia.
Qed.
Print Assumptions C70_unknown_partial.

(** What is missing: negative identifiers. *)
Theorem C70_event_refused_partial : forall names ops outs o id T, object_history names ops outs o ->
  0 <= id -> ~ In id (map g_id (grants ops outs)) ->
  (exists c, wait_event o id T = Refused c) /\ exists c, set_event o id = Refused c.
Proof.
  intros names ops outs o id T H B NI. destruct (history_tracked _ _ _ _ H) as (N & _ & _ & F).
  unfold wait_event, set_event, ob_nb. rewrite N. destruct (Z.of_nat (length names) <=? id) eqn:L; [split; eexists; reflexivity|].
  destruct (F id) as (R & _); [lia|exact NI|]. rewrite R. cbn [negb]. split; eexists; reflexivity.
Qed.
Print Assumptions C70_event_refused_partial.

(** ** What does not hold *)
(** The names "ab" and "a"; "ab" has been created, with the kernel object 0, and "c" has been refused. *)
Definition c70_names : list (list Z) := [[97; 98]; [97]].
Definition c70_ops : list obj_op := [BGetId [97]; BCreate [97; 98] 0 0; BCreate [99] 0 5].
Definition c70_outs : list pout := [PProcess 0 NO_ERROR; PProcess 0 NO_ERROR; PReturns INVALID_CONFIG].
Definition c70_objs : objs := fst (obj_run c70_ops (objs_start c70_names (fun _ => true) (fun _ => 7))).
Example c70_case : object_history c70_names c70_ops c70_outs c70_objs /\ grants c70_ops c70_outs = [mkGrant [97; 98] 0 0] /\
  get_obj_id [97; 98] c70_objs = PProcess 0 NO_ERROR /\ get_obj_id [98] c70_objs = PReturns INVALID_CONFIG /\
  set_event c70_objs 0 = Passed (SLockOp 0 LK_EVENT (Some OpSignal)) /\ set_event c70_objs 1 = Refused NOT_AVAILABLE.
Proof. split; [exists (fun _ => true), (fun _ => 7); reflexivity|]. repeat split; reflexivity. Qed.

Lemma c70_nodup : NoDup c70_names.
Proof. constructor; [intros [E|[]]; discriminate E|]. constructor; [intros []|constructor]. Qed.

(** A declared name finds its own object. *)
Theorem C70_found_refuted : ~ (forall names ops outs o n name, object_history names ops outs o -> NoDup names ->
  nth_error names n = Some name -> get_obj_id name o = PProcess (Z.of_nat n) NO_ERROR).
Proof.
  intros H. destruct c70_case as (C & _). specialize (H _ _ _ _ 1%nat [97] C). vm_compute in H.
  specialize (H c70_nodup eq_refl). discriminate H.
Qed.
Print Assumptions C70_found_refuted.

(** A declared object that has not been created can be created. *)
Theorem C70_create_refuted : ~ (forall names ops outs o n name k, object_history names ops outs o -> NoDup names ->
  nth_error names n = Some name -> ~ In (Z.of_nat n) (map g_id (grants ops outs)) -> ~ In name (map g_name (grants ops outs)) ->
  snd (create_obj name ERR_OK k o) = PProcess (Z.of_nat n) NO_ERROR).
Proof.
  intros H. destruct c70_case as (C & G & _). specialize (H _ _ _ _ 1%nat [97] 1 C). rewrite G in H. vm_compute in H.
  specialize (H c70_nodup eq_refl ltac:(intros [E|[]]; discriminate E) ltac:(intros [E|[]]; discriminate E)). discriminate H.
Qed.
Print Assumptions C70_create_refuted.

(** A name that is not declared is refused: the empty name is found. *)
Theorem C70_unknown_refuted : ~ (forall names ops outs o name, object_history names ops outs o -> ~ In name names ->
  get_obj_id name o = PReturns INVALID_CONFIG).
Proof.
  intros H. destruct c70_case as (C & _). specialize (H _ _ _ _ [] C). vm_compute in H.
  specialize (H ltac:(intros [E|[E|[]]]; discriminate E)). discriminate H.
Qed.
Print Assumptions C70_unknown_refuted.

(** A name under which nothing has been created is refused. *)
Theorem C70_uncreated_refuted : ~ (forall names ops outs o name, object_history names ops outs o ->
  ~ In name (map g_name (grants ops outs)) -> get_obj_id name o = PReturns INVALID_CONFIG).
Proof.
  intros H. specialize (H c70_names [] [] (objs_start c70_names (fun _ => false) (fun _ => 0)) [97; 98]
    ltac:(exists (fun _ => false), (fun _ => 0); reflexivity) ltac:(intros [])). vm_compute in H. discriminate H.
Qed.
Print Assumptions C70_uncreated_refuted.

(** An identifier of no created event is refused: a negative one reads memory in front of the table. *)
Theorem C70_event_refused_refuted : ~ (forall names ops outs o id, object_history names ops outs o ->
  ~ In id (map g_id (grants ops outs)) -> exists c, set_event o id = Refused c).
Proof.
  intros H. destruct c70_case as (C & G & _). specialize (H _ _ _ _ (-1) C). rewrite G in H. vm_compute in H.
  destruct (H ltac:(intros [E|[]]; discriminate E)) as (c & X). discriminate X.
Qed.
Print Assumptions C70_event_refused_refuted.

(** An identifier of no created semaphore is refused by one of the two services. *)
Theorem C70_sem_refused_refuted : ~ (forall names ops outs o id T, object_history names ops outs o ->
  0 <= id < Z.of_nat (length names) -> ~ In id (map g_id (grants ops outs)) ->
  exists c, signal_semaphore o id = Refused c \/ wait_semaphore o id T = Refused c).
Proof.
  intros H. destruct c70_case as (C & G & _). specialize (H _ _ _ _ 1 0 C ltac:(cbn; lia)). rewrite G in H. vm_compute in H.
  destruct (H ltac:(intros [E|[]]; discriminate E)) as (c & [X | X]); discriminate X.
Qed.
Print Assumptions C70_sem_refused_refuted.

(** An identifier outside the table is refused: the first one behind it is refused by neither service. *)
Theorem C70_sem_range_refuted : ~ (forall names ops outs o id T, object_history names ops outs o ->
  Z.of_nat (length names) <= id -> exists c, signal_semaphore o id = Refused c \/ wait_semaphore o id T = Refused c).
Proof.
  intros H. destruct c70_case as (C & _). specialize (H _ _ _ _ 2 0 C ltac:(cbn; lia)). vm_compute in H.
  destruct H as (c & [X | X]); discriminate X.
Qed.
Print Assumptions C70_sem_range_refuted.

(** The service on a semaphore that has not been created reaches a semaphore that has been created under another name. *)
Theorem C70_sem_apart_refuted : ~ (forall names ops outs o g id, object_history names ops outs o -> In g (grants ops outs) ->
  0 <= id < Z.of_nat (length names) -> id <> g_id g -> signal_semaphore o id <> signal_semaphore o (g_id g)).
Proof.
  intros H. destruct c70_case as (C & G & _). specialize (H _ _ _ _ (mkGrant [97; 98] 0 0) 1 C). rewrite G in H.
  apply (H ltac:(now left) ltac:(cbn; lia) ltac:(cbn; lia)). vm_compute. reflexivity.
Qed.
Print Assumptions C70_sem_apart_refuted.

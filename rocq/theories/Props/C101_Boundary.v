(** C101: what a partition puts into the structures and registers of a system call is what the kernel
    reads, and the other way round. *)
From Coq Require Import String.
From Verif Require Import Model.Base Proof.Tac Spec.CLayout Model.Abi Proof.AbiProof.
Local Open Scope string_scope.
Local Open Scope Z_scope.

Lemma fits_at : forall fs n o w v, where_is fs n = Some (o, w) -> 0 <= v < 2 ^ (8 * w) -> fits fs n v.
Proof. intros fs n o w v L H. unfold fits. rewrite L. exact H. Qed.

Ltac fit := eapply fits_at; [vm_compute; reflexivity | change (8 * 1) with 8; change (8 * 2) with 16; change (8 * 4) with 32; change (8 * 8) with 64; try lia].
Ltac rd := repeat first [ rewrite get_same by first [reflexivity | fit]
                        | rewrite get_other by first [reflexivity | discriminate] ].

(** ** Structures *)
(** The structures that both sides declare alike: for all contents, what one side writes field by field
    is what the other side finds in the field of the same name, nothing outside the structure as the
    other side declares it changes, and both count the same size. *)
Definition alike : list (list field * list field) :=
  [(k_thread_attr, l_thread_attr); (k_lockobj_attr, l_lockobj_attr); (k_lockattr, l_lockattr);
   (k_sampling, l_sampling); (k_args, l_args); (k_pci, l_pci)].

Theorem C101_exchange : forall k l, In (k, l) alike ->
  forall m a v, (forall n, In n (map fst l) -> fits l n (v n)) ->
  size_of k = size_of l /\ map fst k = map fst l /\
  (forall n, In n (map fst k) -> holds k (write_all l m a v) a n (v n)) /\
  (forall n, In n (map fst l) -> holds l (write_all k m a v) a n (v n)) /\
  (forall x, x < a \/ a + size_of k <= x -> write_all l m a v x = m x) /\
  (forall x, x < a \/ a + size_of l <= x -> write_all k m a v x = m x).
Proof.
  intros k l H.
  assert (E : k = l /\ sound l = true).
  { cbn [alike In] in H.
    repeat (destruct H as [H | H]; [injection H as <- <-; split; reflexivity|]). contradiction. }
  destruct E as [-> Hs]. intros m a v Hf.
  destruct (write_all_ok l m a v Hs Hf) as [H1 H2].
  split; [reflexivity|]. split; [reflexivity|]. split; [exact H1|]. split; [exact H1|]. split; exact H2.
Qed.
Print Assumptions C101_exchange.

(** ** Lock objects *)
Definition number (k : kind) : Z := match k with Mutex => 1 | Semaphore => 2 | Event => 3 end.

(** The object [o'] made out of the free object [o] is the one wanted. *)
Definition made (w : wanted) (o o' : lobj) : Prop :=
  b_kind o' = number (w_kind w) /\ b_policy o' = w_policy w /\ b_queue o' = w_queue w /\ b_init o' = true /\
  b_value o' = w_value w /\ b_max o' = match w_max w with Some x => x | None => b_max o end.

(** Whatever the stack of the caller contains, the object made is the one asked for: the fields that
    the library leaves unset are never used. *)
Theorem C101_created : forall m a o,
  (forall value maxv disc, 0 <= value < 2 ^ 16 -> 0 <= maxv < 2 ^ 16 -> 0 <= disc < 2 ^ 32 ->
     exists o', k_create (sem_create m a value maxv disc) a o = (ERR_OK, o') /\
       made {| w_kind := Semaphore; w_policy := 0; w_queue := disc; w_value := value; w_max := Some maxv |} o o') /\
  (forall disc policy, 0 <= disc < 2 ^ 32 -> 0 <= policy <= 2 ->
     exists o', k_create (mutex_create m a disc policy) a o = (ERR_OK, o') /\
       made {| w_kind := Mutex; w_policy := policy; w_queue := disc; w_value := 1; w_max := None |} o o') /\
  (forall disc policy, 0 <= disc < 2 ^ 32 -> 3 <= policy < 2 ^ 32 ->
     k_create (mutex_create m a disc policy) a o = (503, o)) /\
  (exists o', k_create (event_create m a) a o = (ERR_OK, o') /\
     made {| w_kind := Event; w_policy := 0; w_queue := 1; w_value := 1; w_max := None |} o o').
Proof.
  intros m a o.
  unfold sem_create, mutex_create, event_create, k_create. change l_lockobj_attr with k_lockobj_attr.
  unfold K_MUTEX, K_SEMAPHORE, K_EVENT. split; [|split; [|split]].
  - intros value maxv disc Hv Hm Hd. cbv zeta. rd. cbn [Z.eqb Pos.eqb negb andb].
    eexists. split; [reflexivity|]. repeat split.
  - intros disc policy Hd Hp. cbv zeta. rd. cbn [Z.eqb Pos.eqb negb andb].
    assert (E : policy = 0 \/ policy = 1 \/ policy = 2) by lia.
    destruct E as [-> | [-> | ->]]; (eexists; split; [reflexivity|]; repeat split).
  - intros disc policy Hd Hp. cbv zeta. rd.
    destruct (Z.eqb_spec policy 0); [lia|]. destruct (Z.eqb_spec policy 1); [lia|].
    destruct (Z.eqb_spec policy 2); [lia|]. reflexivity.
  - cbv zeta. rd. cbn [Z.eqb Pos.eqb negb andb]. eexists. split; [reflexivity|]. repeat split.
Qed.
Print Assumptions C101_created.

(** The operations: for all contents of the stack, all objects of the partition and all time-outs that
    do not overflow, the kernel calls the operation meant, on the object meant and with the time-out in
    nanoseconds. The number passed may have any bits above the lowest eight. *)
Theorem C101_operations : forall m a arg id lo hi kinds, arg mod 256 = id -> lo <= id < hi ->
  (kinds id = 3 ->
     k_wrapper (event_lock m a) a arg lo hi kinds = Some (Lock id 0) /\
     k_wrapper (event_unlock m a) a arg lo hi kinds = Some (Unlock id) /\
     (forall us, 0 <= us -> us * 1000 < 2 ^ 64 ->
        k_wrapper (event_wait m a us) a arg lo hi kinds = Some (Wait id (us * 1000))) /\
     k_wrapper (event_signal m a) a arg lo hi kinds = Some (Signal id) /\
     k_wrapper (event_broadcast m a) a arg lo hi kinds = Some (Broadcast id)) /\
  (kinds id = 1 ->
     k_wrapper (mutex_lock m a) a arg lo hi kinds = Some (Lock id 0) /\
     k_wrapper (mutex_unlock m a) a arg lo hi kinds = Some (Unlock id) /\
     (forall us, 0 <= us -> us * 1000 < 2 ^ 64 ->
        k_wrapper (mutex_trylock m a us) a arg lo hi kinds = Some (Lock id (us * 1000)))) /\
  (kinds id = 2 ->
     k_wrapper (sem_signal m a) a arg lo hi kinds = Some (Unlock id) /\
     (forall us, 0 <= us -> us * 1000 < 2 ^ 64 ->
        k_wrapper (sem_wait m a us) a arg lo hi kinds = Some (Lock id (us * 1000)))).
Proof.
  intros m a arg id lo hi kinds Ha Hr. unfold k_wrapper.
  change (u8 arg) with (arg mod 256). rewrite Ha.
  destruct (Z.ltb_spec id lo); [lia|]. destruct (Z.leb_spec hi id); [lia|].
  unfold event_lock, event_unlock, event_wait, event_signal, event_broadcast, mutex_lock, mutex_unlock,
    mutex_trylock, sem_signal, sem_wait.
  change l_lockattr with k_lockattr.
  unfold K_MUTEX, K_SEMAPHORE, K_EVENT, OP_LOCK, OP_UNLOCK, OP_WAIT, OP_SIGNAL, OP_BROADCAST.
  cbv zeta.
  split; [|split]; intros ->; repeat split; intros;
    try (match goal with |- context [u64 ?x] => replace (u64 x) with x by (unfold u64; symmetry; apply Z.mod_small; lia) end);
    rd; cbn [Z.eqb Pos.eqb negb]; reflexivity.
Qed.
Print Assumptions C101_operations.

(** An operation for another kind of object, or for an object of another partition, is refused. *)
Theorem C101_refused : forall m a arg lo hi kinds,
  let id := arg mod 256 in
  (kinds id <> 3 \/ id < lo \/ hi <= id ->
     k_wrapper (event_lock m a) a arg lo hi kinds = None /\
     k_wrapper (event_unlock m a) a arg lo hi kinds = None /\
     (forall us, 0 <= us < 2 ^ 64 -> k_wrapper (event_wait m a us) a arg lo hi kinds = None) /\
     k_wrapper (event_signal m a) a arg lo hi kinds = None /\
     k_wrapper (event_broadcast m a) a arg lo hi kinds = None) /\
  (kinds id <> 1 \/ id < lo \/ hi <= id ->
     k_wrapper (mutex_lock m a) a arg lo hi kinds = None /\
     k_wrapper (mutex_unlock m a) a arg lo hi kinds = None /\
     (forall us, 0 <= us < 2 ^ 64 -> k_wrapper (mutex_trylock m a us) a arg lo hi kinds = None)) /\
  (kinds id <> 2 \/ id < lo \/ hi <= id ->
     k_wrapper (sem_signal m a) a arg lo hi kinds = None /\
     (forall us, 0 <= us < 2 ^ 64 -> k_wrapper (sem_wait m a us) a arg lo hi kinds = None)).
Proof.
  intros m a arg lo hi kinds id. unfold k_wrapper. change (u8 arg) with id.
  unfold event_lock, event_unlock, event_wait, event_signal, event_broadcast, mutex_lock, mutex_unlock,
    mutex_trylock, sem_signal, sem_wait.
  change l_lockattr with k_lockattr.
  unfold K_MUTEX, K_SEMAPHORE, K_EVENT, OP_LOCK, OP_UNLOCK, OP_WAIT, OP_SIGNAL, OP_BROADCAST.
  cbv zeta. clearbody id.
  split; [|split]; intros Hc; repeat split; intros; rd;
    (destruct (Z.ltb_spec id lo); [reflexivity|]); (destruct (Z.leb_spec hi id); [reflexivity|]);
    (destruct Hc as [Hc | Hc]; [|lia]);
    match goal with |- context [kinds id =? ?c] => destruct (Z.eqb_spec (kinds id) c); [contradiction | reflexivity] end.
Qed.
Print Assumptions C101_refused.

(** The time-out is multiplied modulo 2^64: a time-out of 2^61 microseconds reaches the kernel as 0,
    which means "no time-out". *)
Theorem C101_timeout_refuted : exists us, 0 < us < 2 ^ 64 /\
  forall m a kinds, kinds 0 = 2 -> k_wrapper (sem_wait m a us) a 0 0 1 kinds = Some (Lock 0 0).
Proof.
  exists (2 ^ 61). split; [lia|]. intros m a kinds Hk. unfold k_wrapper, sem_wait.
  change (u8 0) with 0. change (u64 (2 ^ 61 * 1000)) with 0. change l_lockattr with k_lockattr.
  unfold K_SEMAPHORE, OP_LOCK. cbv zeta. rd. cbn [Z.ltb Z.compare Z.leb]. rewrite Hk. reflexivity.
Qed.
Print Assumptions C101_timeout_refuted.

(** The identifier: eight bits are written, nothing else changes, mutexes and semaphores get exactly
    the number; the number of an event is exact if and only if the second byte of the variable was 0,
    but its lowest eight bits, which are all the kernel looks at later, always are. *)
Theorem C101_identifier : forall m p mid, 0 <= mid < 256 ->
  l_other_id (k_put_id m p mid) p = mid /\
  l_event_id (k_put_id m p mid) p mod 256 = mid /\
  (l_event_id (k_put_id m p mid) p = mid <-> m (p + 1) = 0) /\
  (forall x, x <> p -> k_put_id m p mid x = m x).
Proof.
  intros m p mid Hm.
  assert (E0 : k_put_id m p mid p = mid).
  { unfold k_put_id. pose proof (store_in m p 1 mid 0 ltac:(lia)) as H. rewrite Z.add_0_r in H. rewrite H, byte_0.
    apply Z.mod_small. lia. }
  assert (E1 : forall x, x <> p -> k_put_id m p mid x = m x).
  { intros x Hx. unfold k_put_id. apply store_out. lia. }
  unfold l_other_id, l_event_id, load. change (Z.to_nat 1) with 1%nat. change (Z.to_nat 2) with 2%nat.
  cbn [loadn]. rewrite E0. rewrite (E1 (p + 1)) by lia.
  generalize (m (p + 1)). intros q. repeat split; try exact E1; lia.
Qed.
Print Assumptions C101_identifier.

Theorem C101_identifier_refuted : exists m p mid, 0 <= mid < 256 /\ (forall x, 0 <= m x < 256) /\
  l_event_id (k_put_id m p mid) p <> mid.
Proof.
  exists (fun _ => 255), 4096, 3. split; [lia|]. split; [intros; lia|]. vm_compute. discriminate.
Qed.
Print Assumptions C101_identifier_refuted.

(** ** Times in registers *)
(** The 64-bit times of the library reach the kernel if and only if they are below 2^32. *)
Theorem C101_times : forall t, 0 <= t < 2 ^ 64 ->
  (sleep_arg t = t <-> t < 2 ^ 32) /\ (until_arg t = t <-> t < 2 ^ 32) /\ (delayed_arg t = t <-> t < 2 ^ 32).
Proof.
  intros t Ht. unfold sleep_arg, until_arg, delayed_arg, u32.
  assert (H : t mod 2 ^ 32 = t <-> t < 2 ^ 32).
  { change (2 ^ 32) with 4294967296 in *. split; lia. }
  repeat split; apply H.
Qed.
Print Assumptions C101_times.

(** A time of 2^32 microseconds, that is about 72 minutes, becomes 0. *)
Theorem C101_times_refuted : exists t, 0 < t < 2 ^ 64 /\ sleep_arg t = 0 /\ until_arg t = 0 /\ delayed_arg t = 0.
Proof. exists (2 ^ 32). split; [lia|]. repeat split. Qed.
Print Assumptions C101_times_refuted.

(** ** Status of ports *)
(** The status of a sampling port reaches the application as it is; the message is valid if and only if
    the refresh period since the last one is not over. *)
Theorem C101_sampling : forall m a size dir refresh last now,
  0 <= size < 2 ^ 32 -> 0 <= dir < 256 -> 0 <= refresh < 2 ^ 64 -> 0 <= last -> last + refresh < 2 ^ 64 ->
  let m' := k_sampling_status m a size dir refresh last now in
  get l_sampling m' a "size" = size /\ get l_sampling m' a "direction" = dir /\
  get l_sampling m' a "refresh" = refresh /\
  (get l_sampling m' a "validity" = 1 /\ now <= last + refresh \/
   get l_sampling m' a "validity" = 0 /\ last + refresh < now) /\
  (forall x, x < a \/ a + 20 <= x -> m' x = m x).
Proof.
  intros m a size dir refresh last now Hs Hd Hr Hl Hw m'. subst m'. unfold k_sampling_status. cbv zeta.
  change l_sampling with k_sampling.
  assert (Eu : u64 (last + refresh) = last + refresh) by (unfold u64; apply Z.mod_small; lia).
  rewrite Eu.
  assert (Hv : 0 <= (if last + refresh <? now then 0 else 1) < 2 ^ 32) by (destruct (last + refresh <? now); lia).
  split; [rd; reflexivity|]. split; [rd; reflexivity|]. split; [rd; reflexivity|]. split.
  - rd. destruct (Z.ltb_spec (last + refresh) now); [right | left]; split; auto; lia.
  - intros x Hx. change 20 with (size_of k_sampling) in Hx.
    rewrite !set_out by first [reflexivity | exact Hx]. reflexivity.
Qed.
Print Assumptions C101_sampling.

(** Of the status of a queueing port the application sees the size and the direction; the number of
    messages it sees is 0 for every port, and as the number of waiting processes it sees the byte its
    variable contained before. *)
Theorem C101_queueing : forall m a size dir, 0 <= size < 2 ^ 32 -> 0 <= dir < 256 ->
  let m' := k_queueing_status m a size dir in
  get l_queueing m' a "size" = size /\ get l_queueing m' a "direction" = dir /\
  get l_queueing m' a "nb_messages" = 0 /\ get l_queueing m' a "waiting_processes" = m (a + 6) /\
  (forall x, x < a \/ a + size_of l_queueing <= x -> m' x = m x).
Proof.
  intros m a size dir Hs Hd m'. subst m'. unfold k_queueing_status. cbv zeta.
  assert (E1 : forall mm, get l_queueing mm a "size" = get k_queueing mm a "size") by reflexivity.
  assert (E2 : forall mm, get l_queueing mm a "direction" = get k_queueing mm a "direction") by reflexivity.
  assert (E3 : forall mm, get l_queueing mm a "nb_messages" = get k_queueing mm a "waiting_processes") by reflexivity.
  rewrite E1, E2, E3.
  split; [rd; reflexivity|]. split; [rd; reflexivity|]. split; [rd; reflexivity|]. split.
  - assert (E4 : forall mm, get l_queueing mm a "waiting_processes" = mm (a + 6) + 0) by reflexivity.
    rewrite E4, Z.add_0_r.
    assert (E5 : forall mm n v, n = "size" \/ n = "direction" \/ n = "waiting_processes" ->
               set k_queueing mm a n v (a + 6) = mm (a + 6)).
    { intros mm n v [-> | [-> | ->]]; unfold set.
      - change (where_is k_queueing "size") with (Some (0, 4)). cbv iota beta. apply store_out. lia.
      - change (where_is k_queueing "direction") with (Some (4, 1)). cbv iota beta. apply store_out. lia.
      - change (where_is k_queueing "waiting_processes") with (Some (5, 1)). cbv iota beta. apply store_out. lia. }
    rewrite !E5 by auto. reflexivity.
  - intros x Hx. change (size_of l_queueing) with (size_of k_queueing) in Hx.
    rewrite !set_out by first [reflexivity | exact Hx]. reflexivity.
Qed.
Print Assumptions C101_queueing.

(** So the library does not read what the kernel wrote. *)
Theorem C101_queueing_refuted : exists m a size dir, (forall x, 0 <= m x < 256) /\
  get k_queueing (k_queueing_status m a size dir) a "waiting_processes" = 0 /\
  get l_queueing (k_queueing_status m a size dir) a "waiting_processes" = 171.
Proof.
  exists (fun _ => 171), 4096, 16, 1. split; [intros; lia|]. split; vm_compute; reflexivity.
Qed.
Print Assumptions C101_queueing_refuted.

(** ** Errors *)
(** The kind, the thread and the address of an error are read as they were written. *)
Theorem C101_error_fields : forall m a knd thr addr msg len,
  0 <= knd < 256 -> 0 <= thr < 2 ^ 32 -> 0 <= addr < 2 ^ 32 -> 0 <= len <= 250 ->
  let m' := k_error_get m a knd thr addr msg len in
  get l_error m' a "error_kind" = knd /\ get l_error m' a "failed_thread" = thr /\
  get l_error m' a "failed_addr" = addr.
Proof.
  intros m a knd thr addr msg len Hk Ht Ha Hl m'. subst m'. unfold k_error_get. cbv zeta.
  change (where_is k_error "msg") with (Some (12, 250)). cbv iota beta.
  set (m1 := set k_error (set k_error (set k_error (set k_error m a "error_kind" knd) a "failed_thread" thr) a "failed_addr" addr) a "msg_size" len).
  assert (G : forall o w, 0 <= o -> o + w <= 12 ->
    load (fun x => if (a + 12 <=? x) && (x <? a + 12 + len) then msg (x - (a + 12)) else m1 x) (a + o) w = load m1 (a + o) w).
  { intros o w Ho Hw. apply load_ext. intros i Hi. destruct (a + 12 <=? a + o + i) eqn:E; [lia|reflexivity]. }
  unfold get at 1 2 3.
  change (where_is l_error "error_kind") with (Some (0, 1)).
  change (where_is l_error "failed_thread") with (Some (4, 4)).
  change (where_is l_error "failed_addr") with (Some (8, 4)). cbv iota beta.
  rewrite !G by lia.
  change (load m1 (a + 0) 1) with (get k_error m1 a "error_kind").
  change (load m1 (a + 4) 4) with (get k_error m1 a "failed_thread").
  change (load m1 (a + 8) 4) with (get k_error m1 a "failed_addr").
  subst m1. split; [rd; reflexivity|]. split; rd; reflexivity.
Qed.
Print Assumptions C101_error_fields.

(** But the kernel writes 268 bytes into a variable of 20, the length of the message to offset 264,
    and the library takes the text of the message for its address and length: the default error handler
    reads at an address made of the first eight characters. *)
Theorem C101_error_refuted :
  size_of k_error = 268 /\ size_of l_error = 20 /\
  (forall m a knd thr addr msg len, 0 <= len <= 250 ->
     k_error_get m a knd thr addr msg len (a + 264) = len) /\
  (exists m a knd thr addr msg len, (forall x, 0 <= m x < 256) /\ 0 <= len <= 250 /\
     (forall i, 0 <= i < len -> 32 <= msg i < 127) /\
     k_error_get m a knd thr addr msg len (a + 264) <> m (a + 264) /\
     worker_reads (k_error_get m a knd thr addr msg len) a = 2155905152 /\
     ~ (a <= worker_reads (k_error_get m a knd thr addr msg len) a < a + 268)).
Proof.
  split; [reflexivity|]. split; [reflexivity|]. split.
  - intros m a knd thr addr msg len Hl. unfold k_error_get. cbv zeta.
    change (where_is k_error "msg") with (Some (12, 250)). cbv iota beta.
    destruct (a + 264 <? a + 12 + len) eqn:E; [lia|]. rewrite andb_false_r.
    unfold set at 1. change (where_is k_error "msg_size") with (Some (264, 4)). cbv iota beta.
    pose proof (store_in (set k_error (set k_error (set k_error m a "error_kind" knd) a "failed_thread" thr) a "failed_addr" addr) (a + 264) 4 len 0 ltac:(lia)) as H.
    rewrite Z.add_0_r in H. rewrite H, byte_0. apply Z.mod_small. lia.
  - exists (fun _ => 0), 4096, 11, 1, 0, (fun _ => 64), 8.
    split; [intros; lia|]. split; [lia|]. split; [intros i Hi; lia|].
    split; [vm_compute; discriminate|]. split; [vm_compute; reflexivity|].
    replace (worker_reads _ _) with 2155905152 by (vm_compute; reflexivity). lia.
Qed.
Print Assumptions C101_error_refuted.

(** The numbers of the kinds of errors agree, ... *)
Theorem C101_kinds : forall n x, In (n, x) l_kinds -> n <> "PARTITION_PROCESS" ->
  In (n, x) k_kinds /\ forall y, In (n, y) k_kinds -> y = x.
Proof.
  intros n x H Hn.
  assert (C : forallb (fun p => String.eqb (fst p) "PARTITION_PROCESS" ||
      (existsb (fun q => String.eqb (fst q) (fst p) && (snd q =? snd p)) k_kinds &&
       forallb (fun q => negb (String.eqb (fst q) (fst p)) || (snd q =? snd p)) k_kinds)) l_kinds = true)
    by (vm_compute; reflexivity).
  rewrite forallb_forall in C. specialize (C _ H). cbn [fst snd] in C.
  destruct (String.eqb_spec n "PARTITION_PROCESS") as [E|_]; [contradiction|]. cbn [orb] in C.
  apply andb_prop in C. destruct C as [C1 C2]. split.
  - apply existsb_exists in C1. destruct C1 as ([n' x'] & Hin & Hq). cbn [fst snd] in Hq.
    apply andb_prop in Hq. destruct Hq as [Q1 Q2]. apply String.eqb_eq in Q1. apply Z.eqb_eq in Q2. subst. exact Hin.
  - intros y Hy. rewrite forallb_forall in C2. specialize (C2 _ Hy). cbn [fst snd] in C2.
    rewrite String.eqb_refl in C2. cbn [negb orb] in C2. apply Z.eqb_eq in C2. exact C2.
Qed.
Print Assumptions C101_kinds.

(** ... except one: what the library calls an error of a process of the partition is, in the kernel, an
    error of the handler of the partition. *)
Theorem C101_kinds_refuted : exists x y, In ("PARTITION_PROCESS", x) l_kinds /\ In ("PARTITION_PROCESS", y) k_kinds /\
  x <> y /\ In ("PARTITION_HANDLER", x) k_kinds.
Proof. exists 33, 34. unfold l_kinds, k_kinds. cbn [In]. repeat split; try tauto. discriminate. Qed.
Print Assumptions C101_kinds_refuted.

Section Examples.
(** The offsets of some fields, as a compiler for the Intel 386 gives them. *)
Example offsets :
  map (where_is l_thread_attr) ["priority"; "processor_affinity"; "entry"; "period"; "deadline"; "time_capacity"; "stack_size"; "state"] =
    [Some (0, 1); Some (1, 1); Some (4, 4); Some (8, 8); Some (16, 8); Some (24, 8); Some (32, 4); Some (36, 4)] /\
  where_is l_pci "bar" = Some (16, 24) /\ where_is l_pci "irq_handler" = Some (44, 4) /\ size_of l_pci = 48 /\
  where_is l_sampling "refresh" = Some (8, 8) /\ size_of l_lockattr = 20 /\ size_of l_lockobj_attr = 16.
Proof. vm_compute. repeat split. Qed.

(** A thread that asks for priority 7 at address 4096, period 10^10. *)
Example thread_values : forall n, In n (map fst l_thread_attr) ->
  fits l_thread_attr n (if String.eqb n "priority" then 7 else if String.eqb n "period" then 10000000000 else 1).
Proof.
  intros n Hn. cbn [l_thread_attr map fst In f8 f32 f64] in Hn.
  repeat (destruct Hn as [<- | Hn]; [vm_compute; split; [discriminate | reflexivity]|]). contradiction.
Qed.

(** A semaphore with 3 of 5 units, made on a stack full of 255; then a wait of two milliseconds. *)
Example semaphore :
  k_create (sem_create (fun _ => 255) 8000 3 5 0) 8000 (Build_lobj 9 9 9 false 9 9) = (0, Build_lobj 0 0 2 true 3 5) /\
  k_wrapper (sem_wait (fun _ => 255) 8000 2000) 8000 4 2 6 (fun _ => 2) = Some (Lock 4 2000000) /\
  k_wrapper (event_wait (fun _ => 255) 8000 2000) 8000 4 2 6 (fun _ => 2) = None.
Proof. vm_compute. repeat split. Qed.

Example sampling_status :
  let m' := k_sampling_status (fun _ => 90) 512 80 2 1000000 5000000 7000000 in
  get l_sampling m' 512 "refresh" = 1000000 /\ get l_sampling m' 512 "validity" = 0 /\ m' 517 = 90.
Proof. vm_compute. repeat split. Qed.

Example error_kind : In ("STACK_OVERFLOW", 14) l_kinds /\ "STACK_OVERFLOW" <> "PARTITION_PROCESS".
Proof. split; [unfold l_kinds; cbn [In]; tauto | discriminate]. Qed.
End Examples.

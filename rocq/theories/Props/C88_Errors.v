(** C88: An error reaches the error handler of its partition with its code, its process and its message. *)
From Verif Require Import Model.Base Model.Mem Model.Syscall Model.ErrorHm Spec.HealthMonitor Proof.Tac Proof.ErrorHmProof.

(** The events whose code is the one of the standard. *)
Definition rightly_coded (e : event) : Prop :=
  match e with
  | Division_by_zero | Outside_stack_segment | Segment_absent | Page_fault | Machine_check => True
  | Integer_overflow | Float_error | Vector_float_error | Outside_segment => False
  end.
(** The handler exists, the current thread is one of the partition's. *)
Definition handled (k : kernel) : Prop :=
  p_handler (cur k) <> 0 /\ 0 <= p_low (cur k) <= p_current (cur k) /\ p_current (cur k) < 2 ^ 32.
Definition inside (size a n : Z) : Prop := 0 <= a /\ a + n <= size /\ size < 2 ^ 32.

Lemma check_in : forall size a n, inside size a n -> 0 <= n -> ptr_in_partition 1 (fun _ => size) 0 a n = true.
Proof.
  intros size a n (A & B & C) Hn. unfold ptr_in_partition. destruct (Z.leb_spec 1 0); [lia|]. destruct (Z.ltb_spec size n); [lia|].
  unfold u32. change (2 ^ 32) with 4294967296 in *. rewrite !Z.mod_small by lia. apply Z.leb_le. lia.
Qed.

Lemma declared : forall k c m a size, handled k -> inside size a 268 ->
  exists k' m', error_declare k (kernel_number c) = (k', Switch (p_handler (cur k))) /\
    sys_get size k' m a = (m', ERR_OK) /\ in_kernel_structure m' a (mkReport c (p_current (cur k) - p_low (cur k)) []) /\
    only_report m m' a 0 /\ (forall i, i <> k_cur k -> k_parts k' i = k_parts k i).
Proof.
  intros k c m a size (H1 & H2 & H3) Hi. unfold error_declare, activate. destruct (Z.eqb_spec (p_handler (cur k)) 0); [contradiction|].
  rewrite !cur_set. cbn [p_handler]. destruct (Z.eqb_spec (p_handler (cur k)) 0); [contradiction|].
  assert (Hk : u8 (kernel_number c) = kernel_number c) by (destruct c; reflexivity). rewrite Hk.
  assert (Ht : u32 (p_current (cur k) - p_low (cur k)) = p_current (cur k) - p_low (cur k)).
  { unfold u32. apply Z.mod_small. lia. }
  rewrite Ht. set (s := mkStatus _ _ _ _ 0).
  destruct (get_writes (set_status k s) m a s) as (m' & E & K & T & N & B & _ & O & _).
  - now rewrite cur_set.
  - unfold s, KIND_INVALID. cbn [s_kind]. destruct c; discriminate.
  - unfold s. cbn [s_thread]. lia.
  - unfold s. cbn [s_size]. lia.
  - exists (set_status k s), m'. split; [reflexivity|]. split; [|split; [|split]].
    + unfold sys_get. rewrite check_in by (auto || lia). exact E.
    + unfold in_kernel_structure. cbn [r_code r_thread r_message length]. repeat split; try assumption; reflexivity.
    + exact O.
    + intros i Hd. now apply other_set.
Qed.

(** An exception of a partition with a handler: the handler runs next, and reads its code and the thread; other
    partitions have no part in it. *)
Theorem C88_fault : forall k e m a size, rightly_coded e -> handled k -> inside size a 268 ->
  exists k' m', exception k (vector e) = Some (k', Switch (p_handler (cur k))) /\
    sys_get size k' m a = (m', ERR_OK) /\
    in_kernel_structure m' a (mkReport (code_of e) (p_current (cur k) - p_low (cur k)) []) /\
    only_report m m' a 0 /\ (forall i, i <> k_cur k -> k_parts k' i = k_parts k i).
Proof.
  intros k e m a size He Hk Hi. destruct (declared k (code_of e) m a size Hk Hi) as (k' & m' & D & R). exists k', m'. split; [|exact R].
  destruct e; try contradiction; unfold exception; cbn [vector]; cbv [Z.eqb Pos.eqb exception_kind option_map]; f_equal; exact D.
Qed.
Print Assumptions C88_fault.

Definition one (handler : Z) : kernel :=
  mkKernel 0 (fun _ => mkPart 2 5 handler (no_error (mkStatus 0 0 0 (fun _ => 0) 0))).
Example C88_fault_example : rightly_coded Page_fault /\ handled (one 4) /\ inside 4096 1000 268.
Proof. vm_compute. repeat split; discriminate. Qed.

(** Of the other events the standard names, the code is wrong: an access outside the partition's segment is reported as an
    illegal request, an overflow as a stack overflow, a floating-point error as a hardware fault. *)
Theorem C88_code_refuted : ~ (forall k e, handled k -> exists k', exception k (vector e) = Some (k', Switch (p_handler (cur k))) /\
  s_kind (p_status (cur k')) = kernel_number (code_of e)).
Proof.
  intros H. destruct (H (one 4) Outside_segment) as (k' & E & K); [vm_compute; repeat split; discriminate|].
  injection E as <-. vm_compute in K. discriminate.
Qed.
Print Assumptions C88_code_refuted.
Theorem C88_code_wrong : forall k e, handled k -> ~ rightly_coded e -> exists k', exception k (vector e) = Some (k', Switch (p_handler (cur k))) /\
  s_kind (p_status (cur k')) <> kernel_number (code_of e).
Proof.
  intros k e (H1 & _) He. destruct e; cbn [rightly_coded] in He; try (exfalso; exact (He I));
    unfold exception; cbn [vector]; cbv [Z.eqb Pos.eqb exception_kind option_map]; unfold error_declare, activate;
    destruct (Z.eqb_spec (p_handler (cur k)) 0); try contradiction; rewrite !cur_set; cbn [p_handler];
    destruct (Z.eqb_spec (p_handler (cur k)) 0); try contradiction; eexists; (split; [reflexivity|]); rewrite cur_set;
    cbn [p_status s_kind]; vm_compute; discriminate.
Qed.
Print Assumptions C88_code_wrong.
Example C88_code_wrong_example : handled (one 4) /\ ~ rightly_coded Float_error.
Proof. split; [vm_compute; repeat split; discriminate|intros []]. Qed.

(** Without a handler an exception goes to the partition level, and nothing is recorded. *)
Theorem C88_unhandled : forall k v, 0 <= v <= 19 -> v <> 15 -> p_handler (cur k) = 0 ->
  exists c, exception k v = Some (k, Partition_level c).
Proof.
  intros k v Hv H15 H. unfold exception. destruct (Z.eqb_spec v 8); [eexists; reflexivity|].
  assert (exists c, exception_kind v = Some c) as [c E].
  { assert (v = 0 \/ v = 1 \/ v = 2 \/ v = 3 \/ v = 4 \/ v = 5 \/ v = 6 \/ v = 7 \/ v = 9 \/ v = 10 \/ v = 11 \/ v = 12 \/ v = 13 \/
            v = 14 \/ v = 16 \/ v = 17 \/ v = 18 \/ v = 19) as C by lia.
    repeat (destruct C as [-> | C]; [eexists; reflexivity|]). subst v. eexists. reflexivity. }
  rewrite E. cbn [option_map]. unfold error_declare. rewrite H. eexists. reflexivity.
Qed.
Print Assumptions C88_unhandled.
Example C88_unhandled_example : p_handler (cur (one 0)) = 0 /\ exception (one 0) 14 = Some (one 0, Partition_level KIND_MEMORY_VIOLATION).
Proof. split; reflexivity. Qed.

(** An application's message, of up to 250 bytes (longer ones are cut): the handler runs next and reads it, whatever
    became of the memory it was in. *)
Theorem C88_raised : forall k m m2 a n b size, handled k -> inside size a n -> 0 <= n -> inside size b 268 ->
  exists k' m', sys_raise size k m a n = ((k', Switch (p_handler (cur k))), ERR_OK) /\
    sys_get size k' m2 b = (m', ERR_OK) /\
    in_kernel_structure m' b (mkReport Application_error (p_current (cur k) - p_low (cur k)) (firstn 250 (bytes m a (Z.to_nat n)))) /\
    only_report m2 m' b (Z.min n 250) /\ (forall i, i <> k_cur k -> k_parts k' i = k_parts k i).
Proof.
  intros k m m2 a n b size (H1 & H2 & H3) Ha Hn Hb. unfold sys_raise. rewrite check_in by assumption.
  unfold raise_application_error, activate. rewrite !cur_set. cbn [p_handler]. destruct (Z.eqb_spec (p_handler (cur k)) 0); [contradiction|].
  assert (Ht : u32 (p_current (cur k) - p_low (cur k)) = p_current (cur k) - p_low (cur k)).
  { unfold u32. apply Z.mod_small. lia. }
  rewrite Ht. set (l := if MAX_MSG <? n then MAX_MSG else n).
  assert (Hl : l = Z.min n 250) by (unfold l, MAX_MSG; destruct (Z.ltb_spec 250 n); lia). clearbody l.
  set (s := mkStatus _ _ _ _ l).
  assert (F : firstn 250 (bytes m a (Z.to_nat n)) = bytes m a (Z.to_nat l)).
  { unfold bytes. rewrite firstn_map. f_equal. rewrite Hl. clear.
    replace (Z.to_nat (Z.min n 250)) with (Nat.min 250 (Z.to_nat n)) by lia. generalize (Z.to_nat n) as q. intros q.
    assert (G : forall i j st, firstn i (seq st j) = seq st (Nat.min i j)).
    { induction i as [|i IH]; intros [|j] st; try reflexivity. cbn [firstn seq Nat.min]. f_equal. apply IH. }
    apply G. }
  rewrite F. destruct (get_writes (set_status k s) m2 b s) as (m' & E & K & T & N & B & _ & O & _).
  - now rewrite cur_set.
  - unfold s. cbn [s_kind]. discriminate.
  - unfold s. cbn [s_thread]. lia.
  - unfold s. cbn [s_size]. lia.
  - exists (set_status k s), m'. split; [reflexivity|]. split; [|split; [|split]].
    + unfold sys_get. rewrite check_in by (auto || lia). exact E.
    + unfold in_kernel_structure. cbn [r_code r_thread r_message]. rewrite bytes_len. unfold s in K, T, N, B.
      cbn [s_kind s_thread s_size s_msg] in K, T, N, B. rewrite K, T, N. split; [reflexivity|]. split; [reflexivity|].
      split; [lia|]. rewrite B. rewrite <- (Z2Nat.id l) at 1 by lia. rewrite bytes_blit. apply bytes_shift.
    + rewrite <- Hl. exact O.
    + intros i Hd. now apply other_set.
Qed.
Print Assumptions C88_raised.
Example C88_raised_example : handled (one 4) /\ inside 4096 2000 10 /\ inside 4096 1000 268 /\
  snd (fst (sys_raise 4096 (one 4) (fun x => x mod 256) 2000 10)) = Switch 4.
Proof. vm_compute. repeat split; discriminate. Qed.

(** After the start and restart of a partition there is no error to be read. *)
Theorem C88_none : forall k s m a size, p_status (cur k) = no_error s -> inside size a 268 -> sys_get size k m a = (m, ERR_UNAVAILABLE).
Proof. intros k s m a size H Hi. unfold sys_get. rewrite check_in by (auto || lia). unfold error_get. rewrite H. reflexivity. Qed.
Print Assumptions C88_none.
Example C88_none_example : sys_get 4096 (one 4) (fun _ => 3) 1000 = (fun _ => 3, ERR_UNAVAILABLE).
Proof. reflexivity. Qed.

(** An error that has been read is read again and again: a handler that reads until there is none does not end. *)
Theorem C88_consumed_refuted : ~ (forall size k m a m', inside size a 268 -> sys_get size k m a = (m', ERR_OK) ->
  snd (sys_get size k m' a) = ERR_UNAVAILABLE).
Proof.
  intros H. set (k := fst (error_declare (one 4) 15)). specialize (H 4096 k (fun _ => 0) 1000).
  assert (E : ERR_OK = ERR_UNAVAILABLE); [|discriminate].
  refine (H _ _ eq_refl). vm_compute. repeat split; discriminate.
Qed.
Print Assumptions C88_consumed_refuted.

(** An error raised by the application without a handler does not reach the partition level. *)
Theorem C88_unhandled_raise_refuted : ~ (forall size k m a n, inside size a n -> 0 <= n -> p_handler (cur k) = 0 ->
  exists c, snd (fst (sys_raise size k m a n)) = Partition_level c).
Proof.
  intros H. destruct (H 4096 (one 0) (fun _ => 0) 100 10) as [c E]; [vm_compute; repeat split; discriminate|lia|reflexivity|].
  vm_compute in E. discriminate.
Qed.
Print Assumptions C88_unhandled_raise_refuted.

(** ** The services of the library *)

(** RAISE_APPLICATION_ERROR with a length from 0 to 64 and a message inside the partition. *)
Theorem C88_raise_service : forall k m m2 a n b size, handled k -> inside size a n -> 0 <= n <= 64 -> inside size b 268 ->
  exists k' m', raise_service size k m (rank Application_error) a n = ((k', Switch (p_handler (cur k))), NO_ERROR) /\
    sys_get size k' m2 b = (m', ERR_OK) /\
    in_kernel_structure m' b (mkReport Application_error (p_current (cur k) - p_low (cur k)) (bytes m a (Z.to_nat n))).
Proof.
  intros k m m2 a n b size Hk Ha Hn Hb. destruct (C88_raised k m m2 a n b size Hk Ha ltac:(lia) Hb) as (k' & m' & E & G & R & _).
  exists k', m'. unfold raise_service. destruct (Z.ltb_spec 64 n); [lia|]. cbn [rank Z.eqb Pos.eqb negb].
  assert (Hu : u32 n = n) by (unfold u32; change (2 ^ 32) with 4294967296; apply Z.mod_small; lia).
  rewrite Hu, E. split; [reflexivity|]. split; [exact G|].
  rewrite firstn_all2 in R; [exact R|]. rewrite bytes_len. lia.
Qed.
Print Assumptions C88_raise_service.
Example C88_raise_service_example : snd (raise_service 4096 (one 4) (fun x => x mod 256) 1 2000 10) = NO_ERROR.
Proof. reflexivity. Qed.

(** Lengths above 64 and other codes are refused, and nothing happens. *)
Theorem C88_raise_refused : forall k m code a n size, 64 < n \/ code <> rank Application_error ->
  raise_service size k m code a n = ((k, Go_on), INVALID_PARAM).
Proof.
  intros k m code a n size H. unfold raise_service. destruct (Z.ltb_spec 64 n); [reflexivity|].
  destruct H as [H | H]; [lia|]. cbn [rank] in H. apply Z.eqb_neq in H. now rewrite H.
Qed.
Print Assumptions C88_raise_refused.
Example C88_raise_refused_example : raise_service 4096 (one 4) (fun _ => 0) 2 100 8 = ((one 4, Go_on), INVALID_PARAM).
Proof. reflexivity. Qed.

(** The service says NO_ERROR though nothing was raised: for a negative length, or a message outside the partition. *)
Theorem C88_raise_service_refuted : ~ (forall size k m code a n k' x, handled k -> size < 2 ^ 32 ->
  raise_service size k m code a n = ((k', x), NO_ERROR) -> x = Switch (p_handler (cur k))).
Proof.
  intros H. assert (E : Go_on = Switch 4); [|discriminate].
  refine (H 4096 (one 4) (fun _ => 0) 1 2000 (-1) _ _ _ _ eq_refl); vm_compute; repeat split; discriminate.
Qed.
Print Assumptions C88_raise_service_refuted.

(** GET_ERROR_STATUS hands the kernel an object of 20 bytes; the kernel writes behind it. *)
Theorem C88_overrun : forall k m a size s, p_status (cur k) = s -> s_kind s <> 9 -> 0 <= s_thread s < 2 ^ 32 -> 0 <= s_size s <= 250 ->
  inside size a 268 -> number m (a + 264) <> s_size s -> exists m', sys_get size k m a = (m', ERR_OK) /\ ~ only m m' a 20.
Proof.
  intros k m a size s Hs Hk Ht Hn Hi Hne. destruct (get_writes k m a s Hs Hk Ht Hn) as (m' & E & _ & _ & N & _).
  exists m'. split; [unfold sys_get; rewrite check_in by (auto || lia); exact E|].
  intros O. apply Hne. rewrite <- N. symmetry. apply number_ext. intros i Hi4. apply O. lia.
Qed.
Print Assumptions C88_overrun.
Example C88_overrun_example : let k := fst (error_declare (one 4) 15) in s_kind (p_status (cur k)) <> 9 /\ s_size (p_status (cur k)) = 0 /\
  number (fun _ => 1) (1000 + 264) <> 0.
Proof. vm_compute. repeat split; discriminate. Qed.

(** It then takes the first four characters of the message for the address of the message: with any text of four or more
    printable characters, in a partition of up to 512 MB, the handler itself faults. *)
Theorem C88_text_faults : forall k m m2 a n k' x size loc es rc, handled k -> inside size a n -> 4 <= n <= 64 -> inside size loc 268 ->
  (forall i, 0 <= i < n -> 32 <= m (a + i) < 256) -> size <= 2 ^ 29 -> apart loc 20 es 80 ->
  raise_service size k m (rank Application_error) a n = ((k', x), NO_ERROR) -> get_error_status size k' m2 loc es rc = None.
Proof.
  intros k m m2 a n k' x size loc es rc (H1 & H2 & H3) Ha Hn Hl Hc Hs Hap E.
  unfold raise_service in E. destruct (Z.ltb_spec 64 n); [lia|]. cbn [rank Z.eqb Pos.eqb negb] in E.
  assert (Hu : u32 n = n) by (unfold u32; change (2 ^ 32) with 4294967296; apply Z.mod_small; lia).
  rewrite Hu in E. unfold sys_raise in E. rewrite check_in in E by (auto || lia). cbn [fst] in E.
  unfold raise_application_error in E. unfold MAX_MSG in E. destruct (Z.ltb_spec 250 n); [lia|].
  assert (Ht : u32 (p_current (cur k) - p_low (cur k)) = p_current (cur k) - p_low (cur k)).
  { unfold u32. apply Z.mod_small. lia. }
  rewrite Ht in E. revert E. set (s := mkStatus _ _ _ _ n). intros E.
  assert (E' : k' = set_status k s) by congruence. subst k'. clear E.
  destruct (get_writes (set_status k s) m2 loc s) as (m' & E & K & _ & _ & _ & _ & _ & B).
  - now rewrite cur_set.
  - unfold s. cbn [s_kind]. discriminate.
  - unfold s. cbn [s_thread]. lia.
  - unfold s. cbn [s_size]. lia.
  - unfold get_error_status, sys_get. rewrite check_in by (auto || lia). rewrite E. cbn [ERR_OK Z.eqb negb].
    rewrite K. unfold s at 1. cbn [s_kind to_arinc KIND_APPLICATION_ERROR KIND_DEADLINE_MISSED KIND_POWER_FAIL Z.leb Z.compare Pos.compare Pos.compare_cont andb].
    rewrite !number_word. unfold apart in Hap. rewrite !number_store_out by lia.
    assert (P : number m' (loc + 12) >= 32 * (1 + 256 + 65536 + 16777216)).
    { unfold number. unfold s in B. cbn [s_size s_msg] in B.
      assert (Q : forall i, 0 <= i < 4 -> 32 <= m' (loc + 12 + i)).
      { intros i Hi. rewrite B by lia. rewrite blit_in by lia. rewrite Z.sub_0_r. apply Hc. lia. }
      pose proof (Q 0 ltac:(lia)) as Q0. pose proof (Q 1 ltac:(lia)). pose proof (Q 2 ltac:(lia)). pose proof (Q 3 ltac:(lia)).
      rewrite Z.add_0_r in Q0. clear - Q0 H4 H5 H6. lia. }
    match goal with |- (if ?c then _ else _) = _ => destruct c eqn:C end; [|reflexivity].
    apply Z.leb_le in C. change (2 ^ 29) with 536870912 in Hs. exfalso. clear - P C Hs. lia.
Qed.
Print Assumptions C88_text_faults.
Example C88_text_faults_example : handled (one 4) /\ inside 4096 2000 10 /\ inside 4096 1000 268 /\ apart 1000 20 1500 80 /\
  snd (raise_service 4096 (one 4) (fun _ => 65) 1 2000 10) = NO_ERROR.
Proof. vm_compute. repeat split; try discriminate. left. discriminate. Qed.

(** It never says NO_ERROR: if there is an error, *RETURN_CODE is left as it was. *)
Theorem C88_return_code : forall k m m' size loc es rc s, p_status (cur k) = s -> s_kind s <> 9 -> 0 <= s_thread s < 2 ^ 32 ->
  0 <= s_size s <= 250 -> inside size loc 268 -> apart loc 268 rc 4 -> apart es 80 rc 4 ->
  get_error_status size k m loc es rc = Some m' -> number m' rc = number m rc.
Proof.
  intros k m m' size loc es rc s Hs Hk Ht Hn Hi A1 A2 H.
  destruct (get_writes k m loc s Hs Hk Ht Hn) as (m1 & E & _ & _ & _ & _ & O & _).
  unfold get_error_status, sys_get in H. rewrite check_in in H by (auto || lia). rewrite E in H. cbn [ERR_OK Z.eqb negb] in H.
  unfold apart in *.
  assert (N1 : number m1 rc = number m rc) by (apply number_ext; intros i Hi4; apply O; lia).
  revert H. set (m2 := match to_arinc (m1 loc) with Some c => store32 m1 es c | None => m1 end).
  assert (N2 : number m2 rc = number m rc).
  { unfold m2. destruct (to_arinc (m1 loc)); [rewrite number_store_out by lia|]; exact N1. }
  clearbody m2. match goal with |- (if ?c then _ else _) = _ -> _ => destruct c end; [|discriminate].
  intros H. injection H as <-. rewrite !number_store_out by lia. rewrite number_blit_out by lia. rewrite number_store_out by lia. exact N2.
Qed.
Print Assumptions C88_return_code.
Example C88_return_code_example : match get_error_status 4096 (fst (error_declare (one 4) 15)) (fun _ => 0) 1000 1500 1400 with
  Some m' => number m' 1500 = rank Memory_violation | None => False end.
Proof. vm_compute. reflexivity. Qed.

(** The service as the standard describes it. *)
Theorem C88_status_refuted : ~ (forall k m a n k' x size loc es rc, handled k -> inside size a n -> 0 <= n <= 64 ->
  inside size loc 268 -> inside size es 80 -> inside size rc 4 -> apart loc 268 es 80 -> apart loc 268 rc 4 -> apart es 80 rc 4 ->
  raise_service size k m (rank Application_error) a n = ((k', x), NO_ERROR) ->
  exists m', get_error_status size k' m loc es rc = Some m' /\
    in_arinc_structure m' es (mkReport Application_error (p_current (cur k) - p_low (cur k)) (bytes m a (Z.to_nat n)))).
Proof.
  intros H. set (m := fun _ : Z => 65).
  destruct (H (one 4) m 2000 10 (fst (fst (raise_service 4096 (one 4) m 1 2000 10))) (Switch 4) 4096 1000 1500 1400) as (m' & E & _);
    [..|vm_compute in E; discriminate]; vm_compute; repeat split; try (left; discriminate); try (right; discriminate); discriminate.
Qed.
Print Assumptions C88_status_refuted.

(** ** The number of the process *)

Lemma created_ok : forall l c, (forall i, 1 <= i <= c_nb c -> c_thread c i = i) -> c_next c = c_nb c + 1 -> 0 <= c_nb c -> ~ In Handler l ->
  let c' := fold_left create l c in c_next c' = c_nb c' + 1 /\ 0 <= c_nb c' /\ forall i, 1 <= i <= c_nb c' -> c_thread c' i = i.
Proof.
  induction l as [|x l IH]; intros c H N Z1 Hl; cbn [fold_left]; [auto|].
  destruct x; [|exfalso; apply Hl; now left].
  apply IH; cbn [create c_nb c_next c_thread]; try lia; [|intros Q; apply Hl; now right].
  intros i Hi. unfold upd. destruct (Z.eqb_spec i (c_nb c + 1)); [lia|]. apply H. lia.
Qed.
Lemma created_later : forall l c i, 1 <= i <= c_nb c -> c_thread (fold_left create l c) i = c_thread c i.
Proof.
  induction l as [|x l IH]; intros c i Hi; cbn [fold_left]; [reflexivity|]. rewrite IH by (destruct x; cbn [create c_nb]; lia).
  destruct x; cbn [create c_thread]; [|reflexivity]. unfold upd. destruct (Z.eqb_spec i (c_nb c + 1)); [lia|reflexivity].
Qed.
(** FAILED_PROCESS_ID is the number of the thread in its partition: that is the process identifier of all processes
    created before the handler. *)
Theorem C88_process_partial : forall l l' i, ~ In Handler l -> 1 <= i <= c_nb (fold_left create l nothing_created) ->
  c_thread (fold_left create (l ++ l') nothing_created) i = i.
Proof.
  intros l l' i Hl Hi. rewrite fold_left_app, created_later by exact Hi.
  apply (created_ok l nothing_created); auto; cbn [nothing_created c_nb c_next]; intros; lia.
Qed.
Print Assumptions C88_process_partial.
Example C88_process_example : c_nb (fold_left create [Process; Process] nothing_created) = 2.
Proof. reflexivity. Qed.
(** The processes created behind it are reported under the identifier of the next one. *)
Theorem C88_process_refuted : ~ (forall l i, 1 <= i <= c_nb (fold_left create l nothing_created) ->
  c_thread (fold_left create l nothing_created) i = i).
Proof. intros H. specialize (H [Process; Handler; Process] 2 ltac:(vm_compute; split; discriminate)). discriminate. Qed.
Print Assumptions C88_process_refuted.

(** ** The log *)

Lemma log_step : forall base m nb t e w, 0 <= nb < 65535 -> 0 <= t < 2 ^ 32 -> 0 <= e < 2 ^ 32 ->
  exists m', error_log base (m, nb) (t, e, w) = (m', nb + 1) /\ number m' (base + 16 * nb) = t /\ number m' (base + 16 * nb + 4) = e /\
    only m m' (base + 16 * nb) 16.
Proof.
  intros base m nb t e w Hn Ht He. unfold error_log. eexists. split; [|split; [|split]].
  - f_equal. unfold u16. apply Z.mod_small. change (2 ^ 16) with 65536. lia.
  - rewrite number_blit_out, number_store_out by lia. now apply number_store.
  - rewrite number_blit_out by lia. now apply number_store.
  - intros x Hx. rewrite blit_out, !store_out by lia. reflexivity.
Qed.
(** Up to 100 reports are in the log, in order, and no other memory has changed. *)
Theorem C88_log : forall l m base, (length l <= 100)%nat ->
  Forall (fun r => 0 <= fst (fst r) < 2 ^ 32 /\ 0 <= snd (fst r) < 2 ^ 32) l ->
  let (m', nb) := fold_left (error_log base) l (m, 0) in
  nb = Z.of_nat (length l) /\ only m m' base 1600 /\
  (forall i r, nth_error l i = Some r -> number m' (base + 16 * Z.of_nat i) = fst (fst r) /\ number m' (base + 16 * Z.of_nat i + 4) = snd (fst r)).
Proof.
  intros l m base. induction l as [|[[t e] w] l IH] using rev_ind; intros Hl Hf.
  - cbn [fold_left length]. split; [reflexivity|]. split; [intros x _; reflexivity|]. intros [|i] r Hr; discriminate.
  - rewrite app_length in Hl. cbn [length] in Hl. apply Forall_app in Hf. destruct Hf as [Hf1 Hf2]. inversion Hf2 as [|? ? [F1 F2] _]; subst.
    cbn [fst snd] in F1, F2. rewrite fold_left_app. cbn [fold_left].
    specialize (IH ltac:(lia) Hf1). destruct (fold_left (error_log base) l (m, 0)) as [m1 nb] eqn:E1. destruct IH as (-> & O & R).
    destruct (log_step base m1 (Z.of_nat (length l)) t e w) as (m2 & E2 & T2 & T3 & O2); [lia|lia|lia|].
    rewrite E2. split; [rewrite app_length; cbn [length]; lia|]. split.
    + intros x Hx. rewrite O2 by lia. apply O. lia.
    + intros i r Hr. destruct (Nat.lt_ge_cases i (length l)) as [Hi | Hi].
      * rewrite nth_error_app1 in Hr by exact Hi. destruct (R i r Hr) as [R1 R2]. rewrite <- R1, <- R2.
        split; apply number_ext; intros j Hj; apply O2; lia.
      * rewrite nth_error_app2 in Hr by exact Hi. destruct (i - length l)%nat as [|q] eqn:Q; [|destruct q; discriminate].
        cbn [nth_error] in Hr. injection Hr as <-. cbn [fst snd]. assert (i = length l) as -> by lia. split; assumption.
Qed.
Print Assumptions C88_log.
Example C88_log_example : snd (fold_left (error_log 5000) [(3, 12, 77); (4, 15, 99)] (fun _ => 0, 0)) = 2.
Proof. reflexivity. Qed.
(** The 101st is written behind the log. *)
Theorem C88_log_refuted : ~ (forall l m base, only m (fst (fold_left (error_log base) l (m, 0))) base 1600).
Proof.
  intros H. specialize (H (repeat (7, 0, 0) 101) (fun _ => 0) 5000 6600 ltac:(lia)). vm_compute in H. discriminate.
Qed.
Print Assumptions C88_log_refuted.

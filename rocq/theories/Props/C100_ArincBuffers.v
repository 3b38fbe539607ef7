(** C100: the buffer services of ARINC 653, and the status of buffers and blackboards. *)
From Verif Require Import Model.Base Model.Middleware Model.ArincBuffer Spec.MiddlewareSpec Spec.ArincBuffer Proof.Tac Proof.MiddlewareProof Proof.ArincBufferProof Props.C47_Buffers.

(** Over any history of requests that the standard grants or lets wait, with messages of the greatest length of their buffer, buffers that fit into the memory and names that can be told apart, the services
    answer as the standard says; and the status names the limits given at creation.
    Missing: requests to be refused, shorter messages, more than 255 messages in the status; see below. *)
Theorem C100_services_partial : forall names disc junk l st outs, good_names names -> Z.of_nat (length names) <= 256 -> (forall n, disc n = 0 \/ disc n = 1) -> Forall timed l -> room l <= 1024 ->
  services names l nothing = (st, outs) -> Forall success outs -> full names l nothing ->
  let '(s, rs) := calls names disc junk l buffers_start in
  Forall2 says outs rs /\ (forall x, ~ (0 <= x < 1024) -> bu_data s x = bu_data buffers_start x) /\
  forall id q, st id = Some q -> most q < 256 -> exists present waiting, buffer_status (Z.of_nat (length names)) id s = Status (present, most q, longest q, waiting).
Proof.
  intros names disc junk l st outs G Hn D T R H Su F. destruct (all_ok names disc junk l nothing queues_start buffers_start st outs G Hn D T (none_agree names (room l) R) H Su F) as (q' & s' & rs & C & S1 & A). rewrite C.
  split; [exact S1|]. split; [intros x Hx; apply (bs_outside _ _ _ (ag_ok _ _ _ _ _ A)); exact Hx|]. intros id q E M. pose proof (ag_in _ _ _ _ _ A id q E) as I. pose proof (ag_long _ _ _ _ _ A id q E) as (L & _).
  assert (Q : qs q' id = Some (mkQueue (most q) (longest q) (held q))) by (rewrite (ag_some _ _ _ _ _ A), E; reflexivity). destruct (bs_some _ _ _ (ag_ok _ _ _ _ _ A) id _ Q) as (h & B).
  pose proof (bk_size _ _ _ _ _ B) as B1. pose proof (bk_msgsize _ _ _ _ _ B) as B2. pose proof (bk_cap _ _ _ _ _ B) as B3. cbn [q_capacity q_msgsize] in *.
  exists 0, 0. unfold buffer_status. replace (Z.of_nat (length names) <? id) with false by (symmetry; apply Z.ltb_ge; lia). replace (id =? Z.of_nat (length names)) with false by (symmetry; apply Z.eqb_neq; lia).
  rewrite B1, B2. replace (longest q =? 0) with false by (symmetry; apply Z.eqb_neq; lia). rewrite Z.div_mul by lia. unfold u8. rewrite Z.mod_small by lia. reflexivity.
Qed.
Print Assumptions C100_services_partial.

(** A request that the standard refuses is refused, as far as the identifier of 8 bits is free, the buffer is not created, or a discipline is unknown; with what codes see below. *)
Theorem C100_refused : forall names name max nb disc junk event id m len t s, Z.of_nat (length names) < 256 ->
  (disc <> 0 -> disc <> 1 -> create_buffer names name max nb disc junk event s = (s, Ret (number Invalid_param))) /\
  (Z.of_nat (length names) < id < 256 \/ 0 <= id < Z.of_nat (length names) /\ b_ready (bu s id) = false ->
     (exists c, apex_send (Z.of_nat (length names)) id m len t s = (s, Ret c) /\ c <> number No_error) /\ (exists c, apex_receive (Z.of_nat (length names)) id t s = (s, Ret c) /\ c <> number No_error)).
Proof.
  intros names name max nb disc junk event id m len t s Hn. split.
  - intros N0 N1. unfold create_buffer. replace (disc =? 0) with false by (symmetry; apply Z.eqb_neq; exact N0). replace (disc =? 1) with false by (symmetry; apply Z.eqb_neq; exact N1). reflexivity.
  - intros H. assert (U : u8 id = id) by (unfold u8; apply Z.mod_small; lia). unfold apex_send, apex_receive, buffer_send, buffer_receive. rewrite U.
    destruct H as [H|(H & R)].
    + replace (Z.of_nat (length names) <? id) with true by (symmetry; apply Z.ltb_lt; lia). split; exists ERR_EINVAL; (split; [reflexivity|discriminate]).
    + replace (Z.of_nat (length names) <? id) with false by (symmetry; apply Z.ltb_ge; lia). replace (id =? Z.of_nat (length names)) with false by (symmetry; apply Z.eqb_neq; lia). rewrite R. cbn [negb].
      split; exists ERR_EINVAL; (split; [reflexivity|discriminate]).
Qed.
Print Assumptions C100_refused.

(** The size in the status of a blackboard is the one it was created with, over all histories. *)
Definition last_size (id : Z) : list (board_op * mw_out) -> Z := fix go h := match h with [] => 0 | (KCreate _ size _, Created n) :: t => if n =? id then size else go t | _ :: t => go t end.
Theorem C100_board_size : forall names h s id, board_history names h s -> 0 <= id < Z.of_nat (length names) -> exists e, board_status (Z.of_nat (length names)) id s = Status (0, last_size id h, e).
Proof.
  intros names h s id H I. assert (K : k_size (bo s id) = last_size id h).
  { clear I. induction H as [|h s o s' out H IH U E]; [reflexivity|]. destruct o as [name size r|i d len|i nl|i]; cbn [board_step] in E.
    - unfold board_create in E. destruct (find_name names name 0) as [n|]; [|injection E as <- <-; exact IH]. destruct (k_ready (bo s n)); [injection E as <- <-; exact IH|]. destruct (negb (r =? ERR_OK)); [injection E as <- <-; exact IH|].
      injection E as <- <-. cbn [last_size bo]. unfold upd. rewrite (Z.eqb_sym id n). destruct (Z.eqb_spec n id) as [-> |N]; [reflexivity|exact IH].
    - cbn [last_size]. unfold board_display in E. destruct (_ <? _); [injection E as <- <-; exact IH|]. destruct d; [|injection E as <- <-; exact IH]. destruct (_ =? _); [injection E as <- <-; exact IH|]. destruct (_ <? _); [injection E as <- <-; exact IH|].
      destruct (negb _); injection E as <- <-; exact IH.
    - cbn [last_size]. unfold board_read in E. destruct (_ <? _); [injection E as <- <-; exact IH|]. destruct nl; [injection E as <- <-; exact IH|]. destruct (_ =? _); [injection E as <- <-; exact IH|]. destruct (negb _); injection E as <- <-; exact IH.
    - cbn [last_size]. unfold board_clear in E. destruct (_ <? _); [injection E as <- <-; exact IH|]. destruct (_ =? _); [injection E as <- <-; exact IH|]. injection E as <- <-. cbn [bo]. unfold upd. destruct (Z.eqb_spec id i) as [-> |N]; exact IH. }
  exists (k_empty (bo s id)). unfold board_status. replace (Z.of_nat (length names) <? id) with false by (symmetry; apply Z.ltb_ge; lia). replace (id =? Z.of_nat (length names)) with false by (symmetry; apply Z.eqb_neq; lia). rewrite K. reflexivity.
Qed.
Print Assumptions C100_board_size.

(** ** Refutations *)
Definition is_number (k : Z) : Prop := exists c, number c = k.
Lemma not_number : forall k, 6 < k -> ~ is_number k.
Proof. intros k H [c E]. destruct c; cbn in E; lia. Qed.

(** The codes: a full buffer and a second creation are reported by numbers that are no code of the standard, a wait that timed out as well; unknown identifiers and names by NO_ACTION. *)
Theorem C100_codes_refuted : forall names s id m len t name max nb disc junk, 0 <= id < Z.of_nat (length names) -> id < 256 -> disc = 0 \/ disc = 1 ->
  (b_ready (bu s id) = true -> b_full (bu s id) = true -> 0 < len <= u32 (b_size (bu s id) * b_msgsize (bu s id)) -> len < 2 ^ 32 ->
     exists k, apex_send (Z.of_nat (length names)) id (Some m) len 0 s = (s, Ret k) /\ ~ is_number k) /\
  (find_name names name 0 = Some id -> b_ready (bu s id) = true -> exists k i, create_buffer names name max nb disc junk ERR_OK s = (s, RetId k i) /\ ~ is_number k) /\
  (find_name names name 0 = None -> exists i, create_buffer names name max nb disc junk ERR_OK s = (s, RetId (number No_action) i)) /\
  (forall j, Z.of_nat (length names) < j < 256 -> apex_send (Z.of_nat (length names)) j (Some m) len t s = (s, Ret (number No_action)) /\ apex_receive (Z.of_nat (length names)) j t s = (s, Ret (number No_action))) /\
  ~ is_number (apex_woken ERR_TIMEOUT).
Proof.
  intros names s id m len t name max nb disc junk I I2 D. assert (Dd : negb ((disc =? 0) || (disc =? 1)) = false) by (destruct D as [-> | ->]; reflexivity). split; [|split; [|split; [|split]]].
  - intros R Fu L L2. exists ERR_FULL. split; [|apply not_number; reflexivity]. unfold apex_send, buffer_send. assert (U : u8 id = id) by (unfold u8; apply Z.mod_small; lia). assert (V : u32 len = len) by (unfold u32; apply Z.mod_small; lia). rewrite U, V.
    replace (Z.of_nat (length names) <? id) with false by (symmetry; apply Z.ltb_ge; lia). replace (id =? Z.of_nat (length names)) with false by (symmetry; apply Z.eqb_neq; lia). rewrite R. cbn [negb].
    replace (len <=? 0) with false by (symmetry; apply Z.leb_gt; lia). replace (u32 (b_size (bu s id) * b_msgsize (bu s id)) <? len) with false by (symmetry; apply Z.ltb_ge; lia). rewrite Fu. reflexivity.
  - intros Fn R. exists ERR_READY, (u8 junk). split; [|apply not_number; reflexivity]. unfold create_buffer. rewrite Dd. unfold buffer_create. rewrite Fn, R. reflexivity.
  - intros Fn. exists (u8 junk). unfold create_buffer. rewrite Dd. unfold buffer_create. rewrite Fn. reflexivity.
  - intros j J. assert (U : u8 j = j) by (unfold u8; apply Z.mod_small; lia). unfold apex_send, apex_receive, buffer_send, buffer_receive. rewrite U. replace (Z.of_nat (length names) <? j) with true by (symmetry; apply Z.ltb_lt; lia). split; reflexivity.
  - apply not_number. reflexivity.
Qed.
Print Assumptions C100_codes_refuted.

(** The discipline makes no difference. *)
Theorem C100_discipline_refuted : forall names name max nb junk event s, create_buffer names name max nb 1 junk event s = create_buffer names name max nb 0 junk event s.
Proof. reflexivity. Qed.
Print Assumptions C100_discipline_refuted.

Definition mine : list (list Z) := [[97]].
(** Lengths that the standard does not allow, and more than the memory has, are accepted; a message to such a buffer changes memory that is not of the buffers. *)
Theorem C100_room_refuted :
  (exists s, create_buffer mine [97] 0 5 0 0 0 buffers_start = (s, RetId (number No_error) 0)) /\ (exists s, create_buffer mine [97] (-4) (-2) 0 0 0 buffers_start = (s, RetId (number No_error) 0)) /\
  exists s s' x, create_buffer mine [97] 2048 1 0 0 0 buffers_start = (s, RetId (number No_error) 0) /\ apex_send 1 0 (Some (fun _ => 7)) 2048 0 s = (s', Ret (number No_error)) /\ 1024 <= x /\ bu_data s' x <> bu_data s x.
Proof.
  split; [eexists; reflexivity|]. split; [eexists; reflexivity|]. eexists. eexists. exists 1500. split; [reflexivity|]. split; [reflexivity|]. split; [lia|]. cbn. discriminate.
Qed.
Print Assumptions C100_room_refuted.

(** Identifiers count modulo 256. *)
Theorem C100_identifier_refuted : forall count id m len t s, apex_send count (id + 256) m len t s = apex_send count id m len t s /\ apex_receive count (id + 256) t s = apex_receive count id t s.
Proof. intros count id m len t s. unfold apex_send, apex_receive. assert (U : u8 (id + 256) = u8 id) by (unfold u8; clear; lia). rewrite U. split; reflexivity. Qed.
Print Assumptions C100_identifier_refuted.

(** The number of messages in the status is 0 with messages in the buffer, the limit is 0 for 256, and the status of a buffer that is not created divides by zero. *)
Theorem C100_status_refuted :
  (exists l st q s rs, services mine l nothing = (st, [Id 0; Code No_error]) /\ st 0 = Some q /\ length (held q) = 1%nat /\ calls mine (fun _ => 0) 0 l buffers_start = (s, rs) /\ buffer_status 1 0 s = Status (0, 2, 4, 0)) /\
  (exists s, create_buffer mine [97] 4 256 0 0 0 buffers_start = (s, RetId (number No_error) 0) /\ buffer_status 1 0 s = Status (0, 0, 4, 0)) /\ buffer_status 1 0 buffers_start = Broken DivZero.
Proof.
  split; [|split; [eexists; split; reflexivity|reflexivity]]. exists [Create [97] 4 2; Send 0 [1; 2; 3; 4] 0]. do 4 eexists. split; [reflexivity|]. split; [reflexivity|]. split; [reflexivity|]. split; reflexivity.
Qed.
Print Assumptions C100_status_refuted.

(** The services of the standard for these do not exist behind their names: GET_BUFFER_ID and the like answer the same for a buffer that is there. *)
Theorem C100_get_refuted : exists s, create_buffer mine [97] 4 2 0 0 0 buffers_start = (s, RetId (number No_error) 0) /\ apex_other <> RetId (number No_error) 0 /\ apex_other = Ret (number Not_available).
Proof. eexists. split; [reflexivity|]. split; [discriminate|reflexivity]. Qed.
Print Assumptions C100_get_refuted.

(** A blackboard that displays a message has the status of an empty one. *)
Theorem C100_board_empty_refuted : exists names h s id m, board_history names h s /\ last_display id h = Some m /\ board_status (Z.of_nat (length names)) id s = Status (0, 4, true).
Proof.
  exists mine. eexists. eexists. exists 0, [1; 1; 1; 1]. split; [eapply (bh_step _ _ _ (KDisplay 0 (Some (fun _ => 1)) 4)); [eapply (bh_step _ _ _ (KCreate [97] 4 0)); [apply bh_start| |reflexivity]| |reflexivity]|]; [cbn; unfold DATA_SIZE; lia|cbn; lia|]. split; reflexivity.
Qed.
Print Assumptions C100_board_empty_refuted.

Section Examples.
Let l := [Create [97] 4 2; Create [98] 2 1; Send 0 [1; 2; 3; 4] 0; Send 1 [7; 8] 0; Send 0 [5; 6; 7; 8] 0; Send 0 [9; 9; 9; 9] 5; Receive 0 0; Receive 1 (-1); Receive 1 (-1)].
Example ex_services : good_names two_names /\ Forall timed l /\ room l <= 1024 /\ (exists st, services two_names l nothing = (st, [Id 0; Id 1; Code No_error; Code No_error; Code No_error; Waits; Message [1; 2; 3; 4]; Message [7; 8]; Waits])) /\ full two_names l nothing.
Proof.
  split; [exact two_names_good|]. split; [repeat constructor; cbn; lia|]. split; [vm_compute; discriminate|]. split; [eexists; reflexivity|]. vm_compute. repeat split; reflexivity.
Qed.
Example ex_calls : snd (calls two_names (fun _ => 1) 0 l buffers_start) = [RetId 0 0; RetId 0 1; Ret 0; Ret 0; Ret 0; Stuck Blocks; RetMsg 0 [1; 2; 3; 4] 4; RetMsg 0 [7; 8] 2; Stuck Blocks].
Proof. reflexivity. Qed.
Example ex_full : let s := fst (calls two_names (fun _ => 0) 0 [Create [97] 4 1; Send 0 [1; 2; 3; 4] 0] buffers_start) in b_ready (bu s 0) = true /\ b_full (bu s 0) = true /\ find_name two_names [97] 0 = Some 0 /\ find_name two_names [99] 0 = None /\ b_ready (bu s 1) = false.
Proof. vm_compute. repeat split; reflexivity. Qed.
End Examples.

(** C96: reception by the network driver. *)
From Verif Require Import Model.Base Spec.Ne2000 Spec.NetSpec Model.Rtl8029 Proof.Tac Proof.NicProof Proof.RtlWriteProof Proof.RtlReadProof Proof.RtlPollProof Props.C95_NetSend.

(** Between [init] and now. *)
Definition started (C : conf) (d : drv) : Prop := exists d0, Z.testbit (rg (card d0) CR) 2 = false /\ octet (rg (card d0) CR) /\ (forall a, octet (packet d0 a)) /\ d = init d0.
Definition empty : net := mkNet [] (fun _ => []).
Lemma started_inv : forall C d, 0 < buf_sz C -> started C d -> inv (ram (card d)) C d [] 0 empty /\ prx d 0.
Proof.
  intros C d HB (d0 & H2 & Hc & Hp & ->). destruct (init_ok d0 H2 Hc) as (A & B1 & B2 & B3 & B4 & B5 & B6 & B7 & B8).
  split; [|unfold prx; rewrite B3; split; intros; [discriminate|lia]].
  constructor; cbn [length waiting box empty]; try lia; try assumption; try (intros; reflexivity).
  - constructor.
  - constructor.
  - intros i Hi. rewrite B7. constructor; cbn [q_len q_off q_data]; unfold len; cbn [length]; try lia.
  - rewrite B4. split; [reflexivity|]. intros v Hv. cbn in Hv. unfold octet. intuition lia.
  - rewrite B8. exact Hp.
Qed.

(** Partial: in every history of frames that fit in one page, polls, reads and messages that are sent, in which never more than 55 frames wait and no poll happens when the next page of the ring is its first one, the
    readers get the bytes of the messages, whole and in order, of each port - except that each poll leaves the last message on the card. Missing: the delay ([late] should be 0), longer frames
    and the other polls, for which the statement is false (see below). *)
Theorem C96_history_partial : forall C d l fuel, 0 < buf_sz C -> started C d -> (55 <= fuel)%nat -> Forall (fair C) l -> calm 0 0 l = true ->
  exists d', run C fuel d l = Some (fst (history (buf_sz C) (g2l C) 1 empty l), d').
Proof.
  intros C d l fuel HB Hs Hf Hl Hc. destruct (started_inv C d HB Hs) as [V P]. destruct (run_ok (ram (card d)) C fuel l d [] 0 empty HB Hf V P Hl Hc) as (d' & _ & _ & R & _). exists d'. exact R.
Qed.
Print Assumptions C96_history_partial.

(** Refuted: a poll delivers the messages that have arrived. Every message that arrives alone stays on the card, although [history] with [late = 0] has it in the mailbox. *)
Theorem C96_late_refuted : forall C d f port m ln fuel, 0 < buf_sz C -> started C d -> (55 <= fuel)%nat -> fair C (Frame f port m) -> m <> [] -> len m <= buf_sz C -> len m <= ln ->
  exists d', run C fuel d [Frame f port m; Poll; Read (g2l C port) ln] = Some ([[]; []; []], d') /\
    fst (history (buf_sz C) (g2l C) 0 empty [Frame f port m; Poll; Read (g2l C port) ln]) = [[]; []; m].
Proof.
  intros C d f port m ln fuel HB Hs Hf Hg Hm Hb Hl.
  assert (Hq : 0 <= g2l C port < nb_queues C) by exact (proj1 (proj2 (proj2 (proj2 Hg)))). pose proof (len_nonneg m) as Nm.
  destruct (C96_history_partial C d [Frame f port m; Poll; Read (g2l C port) ln] fuel HB Hs Hf) as (d' & R).
  { constructor; [exact Hg|]. constructor; [exact I|]. constructor; [split; [exact Hq|lia]|constructor]. }
  { reflexivity. }
  exists d'. split; [rewrite R; unfold history, step, empty; cbn [waiting box app length Nat.sub skipn firstn fold_left fst]; rewrite firstn_nil; reflexivity|].
  unfold history, step, empty. cbn [waiting box app length Nat.sub skipn firstn fold_left fst]. unfold deliver. cbn [fst snd]. rewrite upd_same. unfold arrive. cbn [app].
  change (len [] + len m) with (0 + len m). destruct (Z.leb_spec (0 + len m) (buf_sz C)); [|lia]. rewrite firstn_all2 by (unfold len in *; lia). reflexivity.
Qed.
Print Assumptions C96_late_refuted.

(** Refuted: a poll ends. After any such history in which at least 56 frames have arrived, the last event is the arrival of a frame and the next page is the first of the ring, the loop goes round the ring for ever and
    delivers old frames again. *)
Theorem C96_endless_refuted : forall C d l f port m fuel, 0 < buf_sz C -> started C d -> (55 <= fuel)%nat -> Forall (fair C) (l ++ [Frame f port m]) -> calm 0 0 (l ++ [Frame f port m]) = true ->
  (56 <= arrivals (l ++ [Frame f port m]))%nat -> (1 + Z.of_nat (arrivals (l ++ [Frame f port m]))) mod 56 = 0 ->
  exists o d', run C fuel d (l ++ [Frame f port m]) = Some (o, d') /\ forall fuel', exists d2, poll C fuel' d' = More d2.
Proof.
  intros C d l f port m fuel HB Hs Hf Hl Hc Ha Hm. destruct (started_inv C d HB Hs) as [V P].
  destruct (run_ok (ram (card d)) C fuel _ d [] 0 empty HB Hf V P Hl Hc) as (d' & al & k & R & V' & P' & L & T). cbn [length plus] in L.
  exists (fst (history (buf_sz C) (g2l C) 1 empty (l ++ [Frame f port m]))), d'. split; [exact R|]. intros fuel'.
  rewrite last_last in T. specialize (T ltac:(discriminate) ltac:(destruct l; discriminate)).
  apply (poll_endless (ram (card d)) C d' al k _ fuel' HB V' T); rewrite L; assumption.
Qed.
Print Assumptions C96_endless_refuted.

(** Refuted: a poll does not write beyond its packet. When the ring is used for the first time up to its end, the loop goes on with what is in its first page; a size of 0 there makes it read 65532 bytes
    into a packet of 1514. *)
Theorem C96_wrap_refuted : forall C d l f port m fuel, 0 < buf_sz C -> started C d -> (55 < fuel)%nat -> Forall (fair C) (l ++ [Frame f port m]) -> calm 0 0 (l ++ [Frame f port m]) = true ->
  arrivals (l ++ [Frame f port m]) = 55%nat -> ram (card d) (72 * 256 + 2) = 0 -> ram (card d) (72 * 256 + 3) = 0 ->
  exists o d', run C fuel d (l ++ [Frame f port m]) = Some (o, d') /\ poll C fuel d' = Fault.
Proof.
  intros C d l f port m fuel HB Hs Hf Hl Hc Ha H2 H3. destruct (started_inv C d HB Hs) as [V P].
  destruct (run_ok (ram (card d)) C fuel _ d [] 0 empty HB ltac:(lia) V P Hl Hc) as (d' & al & k & R & V' & P' & L & T). cbn [length plus] in L.
  exists (fst (history (buf_sz C) (g2l C) 1 empty (l ++ [Frame f port m]))), d'. split; [exact R|].
  rewrite last_last in T. specialize (T ltac:(discriminate) ltac:(destruct l; discriminate)).
  apply (poll_wrap (ram (card d)) C d' al k _ fuel HB V' T); [rewrite L; exact Ha|exact Hf|]. rewrite H2, H3. reflexivity.
Qed.
Print Assumptions C96_wrap_refuted.

Section Examples.
Definition conf0 : conf := mkConf (fun g => g) 4 2 20.
Definition frame_of (port : Z) (m : list Z) : list Z :=
  [255; 255; 255; 255; 255; 255; 82; 84; 0; 18; 52; 86; 0x42; 0x42] ++ le16 9 ++ le16 port ++ le16 (len m) ++ [0; 0] ++ m ++ repeat 0 (38 - length m).
Definition msg (port : Z) (m : list Z) : event := Frame (frame_of port m) port m.
Definition observed (l : list event) : option (list (list Z)) := match run conf0 60 drv1 l with None => None | Some (o, _) => Some o end.
Definition outcome (l : list event) : option (Z * Z) :=
  match run conf0 60 drv1 l with None => None | Some (_, d) => match poll conf0 60 d with Done _ => Some (0, 0) | Fault => Some (1, 0) | More d' => Some (2, q_len (qs d' 0)) end end.
Lemma started0 : started conf0 drv1.
Proof. exists drv0. repeat split; try reflexivity; cbn; try lia; apply Z.mod_pos_bound; lia. Qed.

Definition msg_ok (port : Z) (m : list Z) : bool := (0 <=? port) && (port <? 2) && (length m <=? 200)%nat && forallb (fun v => (0 <=? v) && (v <? 256)) m.
Lemma le16_in : forall x, octets (le16 x).
Proof. apply le16_octets. Qed.
Lemma msg_fair : forall port m, msg_ok port m = true -> fair conf0 (msg port m).
Proof.
  intros port m H. unfold msg_ok in H. rewrite !andb_true_iff in H. destruct H as (((H1 & H2) & H3) & H4). apply Z.leb_le in H1. apply Z.ltb_lt in H2. apply Nat.leb_le in H3.
  rewrite forallb_forall in H4. assert (L : len (frame_of port m) = Z.max 60 (22 + len m)).
  { unfold frame_of, len. rewrite !app_length, repeat_length. cbn [length le16]. lia. }
  unfold fair, msg, good, fine. cbn [fst snd conf0 nb_global nb_queues g2l]. split; [|split; [lia|]; split; [lia|]; split; [lia|]; split; [rewrite L; unfold len; lia|]].
  - exists [255; 255; 255; 255; 255; 255], [82; 84; 0; 18; 52; 86], 9. split; [reflexivity|]. split; [reflexivity|]. constructor.
    + reflexivity.
    + change (skipn 22 (frame_of port m)) with (m ++ repeat 0 (38 - length m)). rewrite firstn_app, Nat.sub_diag, firstn_O, app_nil_r. apply firstn_all.
    + exact L.
    + unfold len. lia.
  - intros v Hv. unfold frame_of in Hv. rewrite !in_app_iff in Hv. destruct Hv as [Hv | [Hv | [Hv | [Hv | [Hv | [Hv | Hv]]]]]].
    + cbn in Hv. unfold octet. intuition lia.
    + apply (le16_in 9). exact Hv.
    + apply (le16_in port). exact Hv.
    + apply (le16_in (len m)). exact Hv.
    + cbn in Hv. unfold octet. intuition lia.
    + specialize (H4 v Hv). apply andb_true_iff in H4. destruct H4 as [A B]. apply Z.leb_le in A. apply Z.ltb_lt in B. split; assumption.
    + apply repeat_spec in Hv. subst v. unfold octet. lia.
Qed.

(** Three messages for two ports, a message is sent between; the third is there after one more message and one more poll. *)
Definition hist1 : list event := [msg 0 [1; 2; 3]; msg 1 [9]; msg 0 [4; 5]; Poll; Read 0 2; Send 3 [Some 5] [7; 7]; msg 1 [8]; Poll; Read 0 20; Read 1 20].
Example C96_hist_ex : Forall (fair conf0) hist1 /\ calm 0 0 hist1 = true /\ observed hist1 = Some [[]; []; []; []; [1; 2]; []; []; []; [3; 4; 5]; [9]].
Proof.
  split; [|split; [reflexivity|vm_compute; reflexivity]].
  assert (O : octets [7; 7]) by (intros v Hv; cbn in Hv; unfold octet; intuition lia).
  rewrite Forall_forall. unfold hist1. intros e He. repeat (destruct He as [<- | He]); try (apply msg_fair; reflexivity); try exact I; try exact O; try (cbn; lia). destruct He.
Qed.
(** 111 frames with two polls between. *)
Definition hist2 : list event := repeat (msg 0 [1]) 40 ++ [Poll] ++ repeat (msg 0 [2]) 30 ++ [Poll] ++ repeat (msg 1 [3]) 40.
Example C96_endless_ex : Forall (fair conf0) (hist2 ++ [msg 0 [4]]) /\ calm 0 0 (hist2 ++ [msg 0 [4]]) = true /\ arrivals (hist2 ++ [msg 0 [4]]) = 111%nat /\ (1 + Z.of_nat 111) mod 56 = 0.
Proof.
  split; [|repeat split; vm_compute; reflexivity]. unfold hist2. rewrite Forall_forall. intros e He. rewrite !in_app_iff in He.
  destruct He as [[He | [He | [He | [He | He]]]] | He]; try (apply repeat_spec in He; subst e; apply msg_fair; reflexivity); destruct He as [<- | []]; [exact I|exact I|apply msg_fair; reflexivity].
Qed.
(** 55 frames with a poll between. *)
Definition hist3 : list event := repeat (msg 0 [1]) 30 ++ [Poll] ++ repeat (msg 0 [2]) 24.
Example C96_wrap_ex : Forall (fair conf0) (hist3 ++ [msg 0 [4]]) /\ calm 0 0 (hist3 ++ [msg 0 [4]]) = true /\ arrivals (hist3 ++ [msg 0 [4]]) = 55%nat /\ ram (card drv1) (72 * 256 + 2) = 0 /\ ram (card drv1) (72 * 256 + 3) = 0.
Proof.
  split; [|repeat split; vm_compute; reflexivity]. unfold hist3. rewrite Forall_forall. intros e He. rewrite !in_app_iff in He.
  destruct He as [[He | [He | He]] | He]; try (apply repeat_spec in He; subst e; apply msg_fair; reflexivity); destruct He as [<- | []]; [exact I|apply msg_fair; reflexivity].
Qed.
End Examples.

(** Refuted: frames longer than one page. A frame with 300 bytes that POK itself sends is received, and the loop goes on behind it. *)
Theorem C96_long_refuted : let f := frame_of 0 (repeat 5 300) in is_frame f [255; 255; 255; 255; 255; 255] [82; 84; 0; 18; 52; 86] 9 0 (repeat 5 300) /\ outcome [msg 0 (repeat 5 300)] = Some (1, 0).
Proof. cbv zeta. split; [constructor; vm_compute; try reflexivity; discriminate|vm_compute; reflexivity]. Qed.
Print Assumptions C96_long_refuted.

(** Refuted: the longest frame. With its four check bytes it has 1518 bytes and the packet 1514. *)
Theorem C96_check_refuted : let f := frame_of 0 (repeat 5 1492) in is_frame f [255; 255; 255; 255; 255; 255] [82; 84; 0; 18; 52; 86] 9 0 (repeat 5 1492) /\ len f = PACKET /\ outcome [Frame (f ++ [1; 2; 3; 4]) 0 (repeat 5 1492)] = Some (1, 0).
Proof. cbv zeta. split; [constructor; vm_compute; try reflexivity; discriminate|]. split; vm_compute; reflexivity. Qed.
Print Assumptions C96_check_refuted.

(** Refuted: any frame that another machine sends is dropped or delivered. A port number of the frame is used as an index without a test (the type of the frame is not tested either). *)
Theorem C96_port_refuted : outcome [msg 4 [1]; msg 0 [2]] = Some (1, 0) /\ outcome [msg 2 [1]; msg 0 [2]] = Some (1, 0) /\ read conf0 2 5 drv1 = None.
Proof. repeat split; vm_compute; reflexivity. Qed.
Print Assumptions C96_port_refuted.

(** Refuted: a message that was sent can be received. One of more than 20 bytes (RECV_BUF_SZ) never is, even when the mailbox is empty. *)
Theorem C96_size_refuted : forall C d f g port port' m m' ln fuel, 0 < buf_sz C -> started C d -> (55 <= fuel)%nat -> fair C (Frame f port m) -> fair C (Frame g port' m') -> buf_sz C < len m -> 0 <= ln ->
  exists d', run C fuel d [Frame f port m; Frame g port' m'; Poll; Read (g2l C port) ln] = Some ([[]; []; []; []], d').
Proof.
  intros C d f g port port' m m' ln fuel HB Hs Hf Hg Hg' Hb Hl.
  assert (Hq : 0 <= g2l C port < nb_queues C) by exact (proj1 (proj2 (proj2 (proj2 Hg)))).
  destruct (C96_history_partial C d [Frame f port m; Frame g port' m'; Poll; Read (g2l C port) ln] fuel HB Hs Hf) as (d' & R).
  { constructor; [exact Hg|]. constructor; [exact Hg'|]. constructor; [exact I|]. constructor; [split; [exact Hq|lia]|constructor]. }
  { reflexivity. }
  exists d'. rewrite R. unfold history, step, empty. cbn [waiting box app length Nat.sub skipn firstn fold_left fst]. unfold deliver. cbn [fst snd]. rewrite upd_same. unfold arrive.
  change (len [] + len m) with (0 + len m). destruct (Z.leb_spec (0 + len m) (buf_sz C)); [lia|]. rewrite firstn_nil. reflexivity.
Qed.
Print Assumptions C96_size_refuted.
Example C96_size_ex : fair conf0 (msg 0 (repeat 6 21)) /\ buf_sz conf0 < len (repeat 6 21) /\ observed [msg 0 (repeat 6 21); msg 1 [1]; msg 0 [2]; Poll; Read 0 50; Read 1 50] = Some [[]; []; []; []; []; [1]].
Proof. split; [apply msg_fair; reflexivity|]. split; [reflexivity|vm_compute; reflexivity]. Qed.

(** Refuted: what has been received can be read with rtl8029_poll_and_read. It counts messages down with each read, whatever part of a message that read took: the rest of the message waits until another one comes. *)
Definition seen (l : list event) (reads : list (Z * Z)) : option (list (list Z)) :=
  match run conf0 60 drv1 l with
  | None => None
  | Some (_, d) => fst (fold_left (fun s r => match s with (Some os, d) => match poll_and_read conf0 2 60 (fst r) (snd r) d with Some (o, d') => (Some (os ++ [o]), d') | None => (None, d) end | _ => s end) reads (Some [], d))
  end.
Theorem C96_count_refuted : exists l, Forall (fair conf0) l /\ seen l [(0, 4); (0, 6); (0, 6)] = Some [[1; 2; 3; 4]; []; []] /\ seen l [(0, 10)] = Some [[1; 2; 3; 4; 5; 6; 7; 8; 9; 10]].
Proof.
  exists [msg 0 [1; 2; 3; 4; 5; 6; 7; 8; 9; 10]; msg 1 [1]]. split; [constructor; [apply msg_fair; reflexivity|]; constructor; [apply msg_fair; reflexivity|constructor]|]. split; vm_compute; reflexivity.
Qed.
Print Assumptions C96_count_refuted.
(** Refuted: a frame for a port of another node (all frames go to all nodes) does no harm. rtl8029_poll_and_read leaves its loop at that frame and then clears PRX, and the messages behind it are not seen
    until another frame comes. *)
Theorem C96_foreign_refuted : seen [msg 2 [1]; msg 0 [5; 6]; msg 1 [1]] [(0, 4); (0, 4)] = Some [[]; []] /\ seen [msg 1 [1]; msg 0 [5; 6]; msg 1 [1]] [(0, 4); (0, 4)] = Some [[5; 6]; []].
Proof. split; vm_compute; reflexivity. Qed.
Print Assumptions C96_foreign_refuted.

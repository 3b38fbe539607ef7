(** ARINC buffers: histories of successful services with messages of full length agree with the specification. *)
From Verif Require Import Model.Base Model.Middleware Model.ArincBuffer Spec.MiddlewareSpec Spec.ArincBuffer Proof.Tac Proof.MiddlewareProof.

(** A request as a call. [disc]: the discipline given for each name. *)
Definition call (names : list (list Z)) (disc : list Z -> Z) (junk : Z) (r : request) (s : buffers) : buffers * apex :=
  let count := Z.of_nat (length names) in
  match r with
  | Create name max nb => create_buffer names name max nb (disc name) junk ERR_OK s
  | Send id m t => apex_send count id (Some (fun k => nth (Z.to_nat k) m 0)) (Z.of_nat (length m)) t s
  | Receive id t => apex_receive count id t s
  end.
Fixpoint calls (names : list (list Z)) (disc : list Z -> Z) (junk : Z) (l : list request) (s : buffers) : buffers * list apex :=
  match l with [] => (s, []) | r :: t => let (s1, a) := call names disc junk r s in let (s2, b) := calls names disc junk t s1 in (s2, a :: b) end.

(** What the caller sees is what the specification says. *)
Definition says (r : reply) (a : apex) : Prop :=
  match r with
  | Code c => a = Ret (number c)
  | Id n => a = RetId (number No_error) n
  | Message m => a = RetMsg (number No_error) m (Z.of_nat (length m))
  | Waits => a = Stuck Blocks
  end.
Definition success (r : reply) : Prop := match r with Code c => c = No_error | _ => True end.
(** Every message has the greatest length of its buffer. *)
Fixpoint full (names : list (list Z)) (l : list request) (s : made) : Prop :=
  match l with
  | [] => True
  | r :: t => match r with Send id m _ => match s id with Some q => Z.of_nat (length m) = longest q | None => True end | _ => True end /\ full names t (fst (service names r s))
  end.
(** Room that the buffers of these requests take, and times of 64 bits. *)
Fixpoint room (l : list request) : Z := match l with [] => 0 | Create _ max nb :: t => max * nb + room t | _ :: t => room t end.
Definition timed (r : request) : Prop := match r with Create _ max nb => 0 < max /\ 0 < nb | Send _ _ t | Receive _ t => - 2 ^ 63 <= t < 2 ^ 63 end.

Lemma at_position : forall names name n, at_name names name n = position names name n.
Proof. induction names as [|x t IH]; intros name n; cbn; [reflexivity|]. destruct (list_eq_dec Z.eq_dec name x); [reflexivity|apply IH]. Qed.
Lemma position_range : forall names name n k, position names name n = Some k -> n <= k < n + Z.of_nat (length names).
Proof.
  induction names as [|x t IH]; intros name n k H; cbn [position] in H; [discriminate|]. cbn [length]. destruct (list_eq_dec Z.eq_dec name x); [injection H as <-; lia|]. apply IH in H. lia.
Qed.
Lemma bytes_list : forall m, bytes_of (fun k => nth (Z.to_nat k) m 0) (Z.of_nat (length m)) = m.
Proof.
  intros m. unfold bytes_of. rewrite Nat2Z.id. transitivity (map (fun k => nth k m 0) (seq 0 (length m))); [apply map_ext; intros k; rewrite Nat2Z.id; reflexivity|].
  induction m as [|x t IH]; [reflexivity|]. cbn [length seq map]. f_equal. rewrite <- seq_shift, map_map. exact IH.
Qed.

Record agree (names : list (list Z)) (left : Z) (m : made) (q : queues) (s : buffers) : Prop := {
  ag_ok : bufs_ok names s q;
  ag_some : forall i, qs q i = match m i with Some a => Some (mkQueue (most a) (longest a) (held a)) | None => None end;
  ag_in : forall i a, m i = Some a -> 0 <= i < Z.of_nat (length names);
  ag_long : forall i a, m i = Some a -> 0 < longest a <= 1024 /\ Forall (fun x => Z.of_nat (length x) = longest a) (held a);
  ag_room : qs_used q + left <= 1024
}.

Lemma room_pos : forall l, Forall timed l -> 0 <= room l.
Proof. intros l. induction 1 as [|r t T F IH]; [cbn; lia|]. destruct r; cbn [room timed] in *; nia. Qed.

Lemma one_ok : forall names disc junk r l m q s m' o, good_names names -> Z.of_nat (length names) <= 256 -> (forall n, disc n = 0 \/ disc n = 1) -> timed r -> Forall timed l ->
  agree names (room (r :: l)) m q s -> service names r m = (m', o) -> success o -> match r with Send id x _ => match m id with Some a => Z.of_nat (length x) = longest a | None => True end | _ => True end ->
  exists q' s' a, call names disc junk r s = (s', a) /\ says o a /\ agree names (room l) m' q' s'.
Proof.
  intros names disc junk r l m q s m' o G Hn D T Tl A H Su F. pose proof (room_pos l Tl) as Rl. destruct r as [name max nb|id x t|id t]; cbn [service call room timed] in *.
  - rewrite at_position in H. destruct (position names name 0) as [n|] eqn:P; [|injection H as <- <-; discriminate Su]. pose proof (position_range _ _ _ _ P) as Rn.
    destruct (m n) as [a|] eqn:Mn; [injection H as <- <-; discriminate Su|]. destruct ((max <=? 0) || (nb <=? 0)) eqn:C; [injection H as <- <-; discriminate Su|]. injection H as <- <-.
    destruct T as (T1 & T2). pose proof (ag_room _ _ _ _ _ A) as Rm. pose proof (bs_next _ _ _ (ag_ok _ _ _ _ _ A)) as (_ & U0).
    assert (Hp : 0 < max * nb) by nia. assert (Hmn : max <= max * nb) by nia.
    assert (E : queue_step names (BCreate name (max * nb) max 0) q = Some (mkQueues (upd (qs q) n (Some (mkQueue nb max []))) (qs_used q + max * nb), Created n)).
    { cbn [queue_step]. rewrite P, (ag_some _ _ _ _ _ A n), Mn. change (negb (0 =? ERR_OK)) with false. cbn match.
      replace (0 <? max) with true by (symmetry; apply Z.ltb_lt; lia). replace (0 <? max * nb) with true by (symmetry; apply Z.ltb_lt; lia).
      rewrite (Z.mul_comm max nb), Z.mod_mul, Z.div_mul by lia. replace (qs_used q + nb * max <=? DATA_SIZE) with true by (symmetry; apply Z.leb_le; unfold DATA_SIZE; lia). reflexivity. }
    destruct (create_ok _ _ _ _ _ _ _ _ _ G (ag_ok _ _ _ _ _ A) E) as (s' & Cr & Ok').
    eexists. exists s'. eexists. split.
    { unfold create_buffer. replace (negb ((disc name =? 0) || (disc name =? 1))) with false by (destruct (D name) as [-> | ->]; reflexivity).
      replace (u32 (max * nb)) with (max * nb) by (unfold u32; symmetry; apply Z.mod_small; lia). replace (u32 max) with max by (unfold u32; symmetry; apply Z.mod_small; lia). change ERR_OK with 0 in *. rewrite Cr. reflexivity. }
    split; [cbn [says number]; f_equal; unfold u8; apply Z.mod_small; lia|].
    constructor; [exact Ok'| | | |cbn [qs_used]; lia].
    + intros i. unfold put. cbn [qs]. unfold upd. destruct (Z.eqb_spec i n) as [-> |N]; [reflexivity|apply (ag_some _ _ _ _ _ A)].
    + intros i a. unfold put. destruct (Z.eqb_spec i n) as [-> |N]; [intros _; lia|apply (ag_in _ _ _ _ _ A)].
    + intros i a. unfold put. destruct (Z.eqb_spec i n) as [-> |N]; [intros Q; injection Q as <-; cbn [longest held]; split; [lia|constructor]|apply (ag_long _ _ _ _ _ A)].
  - destruct (m id) as [a|] eqn:Mi; [|injection H as <- <-; discriminate Su]. pose proof (ag_in _ _ _ _ _ A id a Mi) as Ri. pose proof (ag_long _ _ _ _ _ A id a Mi) as (L1 & L2).
    destruct ((Z.of_nat (length x) =? 0) || (longest a <? Z.of_nat (length x))) eqn:C; [injection H as <- <-; discriminate Su|].
    assert (Q : qs q id = Some (mkQueue (most a) (longest a) (held a))) by (rewrite (ag_some _ _ _ _ _ A), Mi; reflexivity).
    destruct (bs_some _ _ _ (ag_ok _ _ _ _ _ A) id _ Q) as (h & B). pose proof (bk_len _ _ _ _ _ B) as Bl. cbn [q_items q_capacity] in Bl.
    assert (U : u8 id = id) by (unfold u8; apply Z.mod_small; lia). assert (V : u32 (Z.of_nat (length x)) = Z.of_nat (length x)) by (unfold u32; apply Z.mod_small; lia).
    assert (E : queue_step names (BSend id (Some (fun k => nth (Z.to_nat k) x 0)) (Z.of_nat (length x)) (u64 t)) q =
                if Z.of_nat (length (held a)) =? most a then Some (q, if u64 t =? 0 then Returns ERR_FULL else Blocks)
                else Some (mkQueues (upd (qs q) id (Some (mkQueue (most a) (longest a) (held a ++ [x])))) (qs_used q), Returns ERR_OK)).
    { cbn [queue_step]. replace ((id <? 0) || (id =? Z.of_nat (length names))) with false by (symmetry; apply orb_false_iff; split; [apply Z.ltb_ge|apply Z.eqb_neq]; lia).
      replace (Z.of_nat (length names) <? id) with false by (symmetry; apply Z.ltb_ge; lia). rewrite Q. cbn [q_msgsize q_items q_capacity]. rewrite F, Z.eqb_refl. cbn [negb]. rewrite <- F, bytes_list, F. reflexivity. }
    destruct (Z.ltb_spec (Z.of_nat (length (held a))) (most a)) as [Lt|Ge].
    + injection H as <- <-. replace (Z.of_nat (length (held a)) =? most a) with false in E by (symmetry; apply Z.eqb_neq; lia).
      destruct (send_ok _ _ _ _ _ _ _ _ _ (ag_ok _ _ _ _ _ A) E) as (s' & Se & Ok'). eexists. exists s'. eexists. split; [unfold apex_send; rewrite U, V, Se; reflexivity|]. split; [reflexivity|].
      constructor; [exact Ok'| | | |cbn [qs_used]; apply (ag_room _ _ _ _ _ A)].
      * intros i. unfold put. cbn [qs]. unfold upd. destruct (Z.eqb_spec i id) as [-> |N]; [reflexivity|apply (ag_some _ _ _ _ _ A)].
      * intros i b. unfold put. destruct (Z.eqb_spec i id) as [-> |N]; [intros _; lia|apply (ag_in _ _ _ _ _ A)].
      * intros i b. unfold put. destruct (Z.eqb_spec i id) as [-> |N]; [intros K; injection K as <-; cbn [longest held]; split; [lia|apply Forall_app; split; [exact L2|constructor; [exact F|constructor]]]|apply (ag_long _ _ _ _ _ A)].
    + destruct (Z.eqb_spec t 0) as [-> |Nt]; [injection H as <- <-; discriminate Su|]. injection H as <- <-. replace (Z.of_nat (length (held a)) =? most a) with true in E by (symmetry; apply Z.eqb_eq; lia).
      assert (Ut : (u64 t =? 0) = false) by (apply Z.eqb_neq; unfold u64; clear - T Nt; lia). rewrite Ut in E.
      destruct (send_ok _ _ _ _ _ _ _ _ _ (ag_ok _ _ _ _ _ A) E) as (s' & Se & Ok'). exists q, s'. eexists. split; [unfold apex_send; rewrite U, V, Se; reflexivity|]. split; [reflexivity|].
      constructor; [exact Ok'|apply (ag_some _ _ _ _ _ A)|apply (ag_in _ _ _ _ _ A)|apply (ag_long _ _ _ _ _ A)|apply (ag_room _ _ _ _ _ A)].
  - destruct (m id) as [a|] eqn:Mi; [|injection H as <- <-; discriminate Su]. pose proof (ag_in _ _ _ _ _ A id a Mi) as Ri. pose proof (ag_long _ _ _ _ _ A id a Mi) as (L1 & L2).
    assert (Q : qs q id = Some (mkQueue (most a) (longest a) (held a))) by (rewrite (ag_some _ _ _ _ _ A), Mi; reflexivity).
    assert (U : u8 id = id) by (unfold u8; apply Z.mod_small; lia).
    assert (E : queue_step names (BReceive id (u64 t) false) q =
                match held a with [] => if u64 t =? 0 then None else Some (q, Blocks)
                | x :: y => Some (mkQueues (upd (qs q) id (Some (mkQueue (most a) (longest a) y))) (qs_used q), Delivers x (longest a)) end).
    { cbn [queue_step]. replace ((id <? 0) || (id =? Z.of_nat (length names))) with false by (symmetry; apply orb_false_iff; split; [apply Z.ltb_ge|apply Z.eqb_neq]; lia).
      replace (Z.of_nat (length names) <? id) with false by (symmetry; apply Z.ltb_ge; lia). rewrite Q. reflexivity. }
    destruct (held a) as [|x y] eqn:Ha.
    + destruct (Z.eqb_spec t 0) as [-> |Nt]; [injection H as <- <-; discriminate Su|]. injection H as <- <-. assert (Ut : (u64 t =? 0) = false) by (apply Z.eqb_neq; unfold u64; clear - T Nt; lia). rewrite Ut in E.
      destruct (receive_ok _ _ _ _ _ _ _ _ (ag_ok _ _ _ _ _ A) E) as (s' & Se & Ok'). exists q, s'. eexists. split; [unfold apex_receive; rewrite U, Se; reflexivity|]. split; [reflexivity|].
      constructor; [exact Ok'|apply (ag_some _ _ _ _ _ A)|apply (ag_in _ _ _ _ _ A)|apply (ag_long _ _ _ _ _ A)|apply (ag_room _ _ _ _ _ A)].
    + injection H as <- <-. destruct (receive_ok _ _ _ _ _ _ _ _ (ag_ok _ _ _ _ _ A) E) as (s' & Se & Ok'). eexists. exists s'. eexists. split; [unfold apex_receive; rewrite U, Se; reflexivity|].
      split; [cbn [says number]; f_equal; symmetry; inversion L2; assumption|].
      constructor; [exact Ok'| | | |cbn [qs_used]; apply (ag_room _ _ _ _ _ A)].
      * intros i. unfold put. cbn [qs]. unfold upd. destruct (Z.eqb_spec i id) as [-> |N]; [reflexivity|apply (ag_some _ _ _ _ _ A)].
      * intros i b. unfold put. destruct (Z.eqb_spec i id) as [-> |N]; [intros _; lia|apply (ag_in _ _ _ _ _ A)].
      * intros i b. unfold put. destruct (Z.eqb_spec i id) as [-> |N]; [intros K; injection K as <-; cbn [longest held]; split; [lia|inversion L2; assumption]|apply (ag_long _ _ _ _ _ A)].
Qed.

Lemma all_ok : forall names disc junk l m q s m' outs, good_names names -> Z.of_nat (length names) <= 256 -> (forall n, disc n = 0 \/ disc n = 1) -> Forall timed l ->
  agree names (room l) m q s -> services names l m = (m', outs) -> Forall success outs -> full names l m ->
  exists q' s' rs, calls names disc junk l s = (s', rs) /\ Forall2 says outs rs /\ agree names 0 m' q' s'.
Proof.
  intros names disc junk. induction l as [|r l IH]; intros m q s m' outs G Hn D T A H Su F; cbn [services calls full] in *.
  - injection H as <- <-. exists q, s, []. split; [reflexivity|]. split; [constructor|exact A].
  - destruct (service names r m) as [m1 o] eqn:E1. destruct (services names l m1) as [m2 os] eqn:E2. injection H as <- <-. inversion Su; subst. inversion T; subst. destruct F as (F1 & F2). cbn [fst] in F2.
    destruct (one_ok names disc junk r l m q s m1 o) as (q1 & s1 & a & C1 & S1 & A1); try assumption.
    destruct (IH m1 q1 s1 m2 os) as (q2 & s2 & rs & C2 & S2 & A2); try assumption. exists q2, s2, (a :: rs). rewrite C1, C2. split; [reflexivity|]. split; [constructor; assumption|exact A2].
Qed.

Lemma none_agree : forall names left, left <= 1024 -> agree names left nothing queues_start buffers_start.
Proof. intros names left H. constructor; [apply start_ok|reflexivity|intros; discriminate|intros; discriminate|cbn [qs_used queues_start]; lia]. Qed.

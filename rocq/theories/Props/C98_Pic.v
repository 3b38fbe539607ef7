(** C98: the interrupt controllers of the x86 board. *)
From Verif Require Import Model.Base Spec.Pic8259 Model.Pic Proof.Tac Proof.PicProof.

(** pok_pic_init, whatever the controllers were doing: every line but the one between them is masked, no request is left, and no interrupt comes whatever devices ask for. *)
Theorem C98_init : forall s irqs, Forall device irqs ->
  let p := pic_init s in (forall irq, 0 <= irq < 16 -> masked p irq = negb (irq =? 2)) /\ (forall irq, asked p irq = false) /\ interrupt (fold_left (fun p i => request i p) irqs p) = None.
Proof.
  intros s irqs F. pose proof (boot_ok {| pics := s; gates := fun _ => 0 |}) as (A & B & C & _). unfold boot in A, B, C. cbn [pics] in A, B, C. cbv zeta. split; [exact B|]. split; [exact C|].
  assert (X : forall l q, set_up q -> (forall i, 0 <= i < 16 -> masked q i = negb (i =? 2)) -> Forall device l -> set_up (fold_left (fun p i => request i p) l q) /\ forall i, 0 <= i < 16 -> masked (fold_left (fun p i => request i p) l q) i = negb (i =? 2)).
  { intros l. induction l as [|i l IH]; intros q Sq Mq Fl; [split; assumption|]. apply Forall_cons_iff in Fl. destruct Fl as (_ & Fl). destruct (request_ok i q Sq) as (S' & M'). cbn [fold_left]. apply IH; [exact S'| |exact Fl].
    intros k Hk. rewrite M'. apply Mq. exact Hk. }
  destruct (X irqs _ A B F) as (S' & M'). destruct (interrupt _) as [[v p']|] eqn:E; [|reflexivity]. exfalso.
  destruct (interrupt_ok _ _ _ S' E) as (_ & q & (Hq & Nq) & _ & _ & Mq & _). rewrite M' in Mq by exact Hq. apply negb_false_iff, Z.eqb_eq in Mq. lia.
Qed.
Print Assumptions C98_init.

(** After any history, a line is masked if and only if the last call about it masked it, or there was none and it is not line 2. *)
Theorem C98_masks : forall s l irq, Forall fine l -> 0 <= irq < 16 ->
  masked (pics (run l (boot s))) irq =
  fold_left (fun b o => match o with Register i _ | Unmask i => if i =? irq then false else b | Mask i => if i =? irq then true else b | _ => b end) l (negb (irq =? 2)).
Proof. intros s l irq F H. destruct (boot_ok s) as (A & B & _). destruct (run_ok l (boot s) F A) as (_ & C). rewrite C by exact H. rewrite B by exact H. reflexivity. Qed.
Print Assumptions C98_masks.

(** After any history, an interrupt has the vector 32 + n of a line n that a device asked for and that is not masked, only this request is dropped, and no mask changes. With nothing in
    service it is the line that comes first, and if there is no interrupt, then no line that is open asks. *)
Theorem C98_interrupt : forall s l, Forall fine l -> let p := pics (run l (boot s)) in
  match interrupt p with
  | Some (v, p') => exists irq, device irq /\ v = 32 + irq /\ asked p irq = true /\ masked p irq = false /\ (8 <= irq -> masked p 2 = false) /\
      (forall i, device i -> asked p' i = asked p i && negb (i =? irq)) /\ (forall i, 0 <= i < 16 -> masked p' i = masked p i) /\
      (quiet p -> forall i, device i -> asked p i = true -> masked p i = false -> (8 <= i -> masked p 2 = false) -> rank irq <= rank i)
  | None => quiet p -> forall i, device i -> asked p i = true -> masked p i = true \/ (8 <= i /\ masked p 2 = true)
  end.
Proof.
  intros s l F p. destruct (boot_ok s) as (A & _). destruct (run_ok l (boot s) F A) as (S' & _). fold p in S'. destruct (interrupt p) as [[v p']|] eqn:E.
  - destruct (interrupt_ok _ _ _ S' E) as (_ & q & D & V & R & M & M2 & X & Y & Z' & _). exists q. repeat (split; [assumption|]). split; [|exact Z']. intros i _. apply Y.
  - intros Q. apply interrupt_none; assumption.
Qed.
Print Assumptions C98_interrupt.

(** The interrupts a processor takes when each handler ends with pok_bsp_irq_acknowledge. *)
Fixpoint taken (n : nat) (s : irqs) : list Z * irqs :=
  match n with
  | O => ([], s)
  | S n => match interrupt (pics s) with
           | None => ([], s)
           | Some (v, p) => let (l, s') := taken n (snd (irq_acknowledge (v - 32) {| pics := p; gates := gates s |})) in (v :: l, s')
           end
  end.
Definition by_rank : list Z := [0; 1; 8; 9; 10; 11; 12; 13; 14; 15; 3; 4; 5; 6; 7].
Definition open (p : pair) (i : Z) : bool := asked p i && negb (masked p i) && ((i <? 8) || negb (masked p 2)).
Lemma by_rank_in : forall i, device i <-> In i by_rank.
Proof. intros i. unfold device, by_rank. cbn [In]. lia. Qed.
Lemma filter_tail : forall f g l h t, filter f l = h :: t -> NoDup l -> (forall i, In i l -> g i = f i && negb (i =? h)) -> filter g l = t.
Proof.
  intros f g l. induction l as [|x l IH]; intros h t H N G; [discriminate|]. cbn [filter] in H |- *. apply NoDup_cons_iff in N. destruct N as (Nx & N).
  rewrite (G x (or_introl eq_refl)). destruct (f x) eqn:E.
  - injection H as <- <-. rewrite Z.eqb_refl. cbn [andb negb]. apply filter_ext_in. intros i Hi. rewrite (G i (or_intror Hi)). replace (i =? x) with false by (symmetry; apply Z.eqb_neq; intros ->; contradiction). apply andb_true_r.
  - cbn [andb]. apply (IH h t H N). intros i Hi. apply G. right. exact Hi.
Qed.
Lemma taken_ok : forall n s, set_up (pics s) -> quiet (pics s) -> (length (filter (open (pics s)) by_rank) <= n)%nat ->
  fst (taken n s) = map (Z.add 32) (filter (open (pics s)) by_rank) /\ quiet (pics (snd (taken n s))) /\ forall i, device i -> asked (pics (snd (taken n s))) i = asked (pics s) i && negb (open (pics s) i).
Proof.
  intros n. induction n as [|n IH]; intros s S' Q L.
  - cbn [taken fst snd]. destruct (filter _ _) as [|x t] eqn:E; [|cbn [length] in L; lia]. split; [reflexivity|]. split; [exact Q|]. intros i Hi.
    destruct (open (pics s) i) eqn:O; [|rewrite andb_true_r; reflexivity]. assert (X : In i (filter (open (pics s)) by_rank)) by (apply filter_In; split; [apply by_rank_in; exact Hi|exact O]). rewrite E in X. destruct X.
  - cbn [taken]. destruct (interrupt (pics s)) as [[v p']|] eqn:E.
    + destruct (interrupt_ok _ _ _ S' E) as (Sp & q & D & V & R & M & M2 & X & Y & Z' & W). specialize (W Q). specialize (Z' Q). replace (v - 32) with q by lia.
      set (s1 := snd (irq_acknowledge q {| pics := p'; gates := gates s |})). assert (P1 : pics s1 = pic_eoi q p') by reflexivity. destruct (eoi_ok q p' Sp) as (S1 & Y1 & X1).
      assert (Oq : open (pics s) q = true).
      { unfold open. rewrite R, M. cbn [andb negb]. destruct (Z.ltb_spec q 8) as [L8|L8]; [reflexivity|]. rewrite (M2 L8). reflexivity. }
      assert (Gi : forall i, In i by_rank -> open (pics s1) i = open (pics s) i && negb (i =? q)).
      { intros i Hi. rewrite P1. unfold open. rewrite X1, !Y1, !Y. rewrite X by (apply by_rank_in; exact Hi). destruct (asked (pics s) i), (i =? q), (negb (masked (pics s) i)), ((i <? 8) || negb (masked (pics s) 2)); reflexivity. }
      destruct (filter (open (pics s)) by_rank) as [|h t] eqn:El.
      { exfalso. assert (I : In q (filter (open (pics s)) by_rank)) by (apply filter_In; split; [apply by_rank_in; exact D|exact Oq]). rewrite El in I. destruct I. }
      assert (Eh : h = q).
      { assert (Ih : In h by_rank /\ open (pics s) h = true) by (apply filter_In; rewrite El; left; reflexivity). destruct Ih as (Ih & Oh). apply by_rank_in in Ih.
        assert (Rq : rank q <= rank h).
        { apply Z'; [exact Ih| | |]; unfold open in Oh; rewrite !andb_true_iff in Oh; destruct Oh as ((O1 & O2) & O3); [exact O1|apply negb_true_iff; exact O2|].
          intros L8. apply orb_true_iff in O3. destruct O3 as [O3|O3]; [lia|apply negb_true_iff; exact O3]. }
        assert (Rh : rank h <= rank q).
        { assert (Iq : In q (h :: t)) by (rewrite <- El; apply filter_In; split; [apply by_rank_in; exact D|exact Oq]).
          assert (So : forall l f h t x, (forall i j l1 l2 l3, l = l1 ++ i :: l2 ++ j :: l3 -> rank i <= rank j) -> filter f l = h :: t -> In x (h :: t) -> rank h <= rank x).
          { clear. intros l f. induction l as [|y l IHl]; intros h t x K H I; [discriminate|]. cbn [filter] in H. destruct (f y).
            - injection H as <- <-. destruct I as [<- |I]; [lia|]. apply filter_In in I. destruct I as (I & _). apply in_split in I. destruct I as (l2 & l3 & ->). apply (K y x [] l2 l3). reflexivity.
            - apply (IHl h t x); [|exact H|exact I]. intros i j l1 l2 l3 Q. apply (K i j (y :: l1) l2 l3). rewrite Q. reflexivity. }
          apply (So by_rank (open (pics s)) h t q); [|exact El|exact Iq]. intros i j l1 l2 l3 K.
          assert (B : forall a b, (a < b < 15)%nat -> rank (nth a by_rank 0) <= rank (nth b by_rank 0)).
          { intros a b Hab. assert (T : forallb (fun b => forallb (fun a => rank (nth a by_rank 0) <=? rank (nth b by_rank 0)) (seq 0 b)) (seq 0 15) = true) by (vm_compute; reflexivity).
            rewrite forallb_forall in T. specialize (T b ltac:(apply in_seq; lia)). rewrite forallb_forall in T. specialize (T a ltac:(apply in_seq; lia)). apply Z.leb_le. exact T. }
          assert (Len : length by_rank = (length l1 + S (length l2 + S (length l3)))%nat) by (rewrite K; rewrite app_length; cbn [length]; rewrite app_length; reflexivity). change (length by_rank) with 15%nat in Len.
          specialize (B (length l1) (length l1 + S (length l2))%nat ltac:(lia)). rewrite K in B at 1. rewrite app_nth2 in B by lia. rewrite Nat.sub_diag in B. cbn [nth] in B.
          rewrite K in B. rewrite app_nth2_plus in B. cbn [nth] in B. rewrite app_nth2 in B by lia. rewrite Nat.sub_diag in B. cbn [nth] in B. exact B. }
        destruct D as (D1 & D2), Ih as (I1 & I2). unfold rank in Rq, Rh. destruct (Z.ltb_spec h 2), (Z.ltb_spec q 2), (Z.ltb_spec h 8), (Z.ltb_spec q 8); lia. }
      subst h. assert (Nd : NoDup by_rank) by (unfold by_rank; repeat constructor; cbn [In]; lia). pose proof (filter_tail _ _ _ _ _ El Nd Gi) as Et.
      destruct (IH s1) as (I1 & I2 & I3); [rewrite P1; exact S1|rewrite P1; exact W|rewrite Et; cbn [length] in L; lia|]. destruct (taken n s1) as [l s'] eqn:T. cbn [fst snd] in *. rewrite Et in I1.
      split; [rewrite I1, V; reflexivity|]. split; [exact I2|]. intros i Hi. rewrite I3 by exact Hi. rewrite Gi by (apply by_rank_in; exact Hi). rewrite P1, X1, X by exact Hi.
      destruct (Z.eqb_spec i q) as [-> |e]; [rewrite Oq, R; reflexivity|]. rewrite !andb_true_r. reflexivity.
    + cbn [fst snd]. assert (No : forall i, device i -> open (pics s) i = false).
      { intros i Hi. destruct (open (pics s) i) eqn:O; [|reflexivity]. exfalso. unfold open in O. rewrite !andb_true_iff in O. destruct O as ((O1 & O2) & O3). apply negb_true_iff in O2.
        destruct (interrupt_none _ S' E Q i Hi O1) as [C|(C1 & C2)]; [rewrite C in O2; discriminate|]. rewrite C2 in O3. cbn [negb] in O3. rewrite orb_false_r in O3. lia. }
      assert (El : filter (open (pics s)) by_rank = []).
      { destruct (filter (open (pics s)) by_rank) as [|x t] eqn:El; [reflexivity|]. assert (I : In x by_rank /\ open (pics s) x = true) by (apply filter_In; rewrite El; left; reflexivity). destruct I as (I1 & I2). rewrite No in I2 by (apply by_rank_in; exact I1). discriminate. }
      rewrite El. split; [reflexivity|]. split; [exact Q|]. intros i Hi. rewrite No by exact Hi. rewrite andb_true_r. reflexivity.
Qed.

(** With nothing in service, the processor takes every request that is open, each once and in the order of the lines; afterwards nothing is in service and just these requests are gone. *)
Theorem C98_served : forall s l, Forall fine l -> let s1 := run l (boot s) in quiet (pics s1) ->
  fst (taken 15 s1) = map (Z.add 32) (filter (fun i => asked (pics s1) i && negb (masked (pics s1) i) && ((i <? 8) || negb (masked (pics s1) 2))) [0; 1; 8; 9; 10; 11; 12; 13; 14; 15; 3; 4; 5; 6; 7]) /\
  quiet (pics (snd (taken 15 s1))) /\
  forall i, device i -> asked (pics (snd (taken 15 s1))) i = asked (pics s1) i && (masked (pics s1) i || ((8 <=? i) && masked (pics s1) 2)).
Proof.
  intros s l F s1 Q. destruct (boot_ok s) as (A & _). destruct (run_ok l (boot s) F A) as (S' & _). fold s1 in S'.
  destruct (taken_ok 15 s1 S' Q) as (B & C & D).
  { assert (L : forall f (k : list Z), (length (filter f k) <= length k)%nat) by (intros f k; induction k as [|x k IHk]; [reflexivity|]; cbn [filter]; destruct (f x); cbn [length]; lia). exact (L (open (pics s1)) by_rank). }
  split; [exact B|]. split; [exact C|]. intros i Hi. rewrite D by exact Hi. unfold open. rewrite Z.leb_antisym. destruct (asked (pics s1) i), (masked (pics s1) i), (i <? 8), (masked (pics s1) 2); reflexivity.
Qed.
Print Assumptions C98_served.

(** The interrupt of a line goes to the handler registered last for it. *)
Theorem C98_handler : forall s l1 l2 irq h v p', Forall fine (l1 ++ Register irq h :: l2) -> 0 <= irq < 16 -> (forall h', ~ In (Register irq h') l2) ->
  let s1 := run (l1 ++ Register irq h :: l2) (boot s) in interrupt (pics s1) = Some (v, p') -> v = 32 + irq -> gates s1 v = h.
Proof.
  intros s l1 l2 irq h v p' F Hi N s1 _ ->. apply Forall_app in F. destruct F as (_ & F). apply Forall_cons_iff in F. destruct F as (_ & F).
  assert (E : s1 = run l2 (do (Register irq h) (run l1 (boot s)))) by (unfold s1, run; rewrite fold_left_app; reflexivity).
  rewrite E. replace (32 + irq) with (u8 (32 + irq)) by (unfold u8; lia). rewrite gates_run by (assumption || lia). unfold do. cbn [irq_register snd gates]. apply upd_same.
Qed.
Print Assumptions C98_handler.

(** ** Refutations *)
(** Masking line 2 stops the eight lines of the second controller, which stay unmasked. *)
Theorem C98_line2_refuted : forall s l v p', Forall fine (l ++ [Mask 2]) -> interrupt (pics (run (l ++ [Mask 2]) (boot s))) = Some (v, p') -> v < 40.
Proof.
  intros s l v p' F H. destruct (boot_ok s) as (A & _). destruct (run_ok _ _ F A) as (S' & M). destruct (interrupt_ok _ _ _ S' H) as (_ & q & (Hq & _) & -> & _ & _ & M2 & _).
  destruct (Z.lt_ge_cases q 8) as [L|L]; [lia|]. exfalso. specialize (M2 L). rewrite M in M2 by lia. unfold want in M2. rewrite fold_left_app in M2. discriminate.
Qed.
Print Assumptions C98_line2_refuted.

(** Registration for a line that does not exist reports success and opens no line; from 224 on it replaces the handler of an exception. *)
Theorem C98_register_refuted : forall irq h s, 16 <= irq < 256 ->
  fst (irq_register irq h s) = ERR_OK /\ fst (pic_unmask irq (pics s)) = ERR_EINVAL /\ pics (snd (irq_register irq h s)) = pics s /\
  (224 <= irq -> gates (snd (irq_register irq h s)) (irq - 224) = h).
Proof.
  intros irq h s H. unfold irq_register. cbn [fst snd pics gates]. unfold pic_unmask. replace (15 <? irq) with true by (symmetry; apply Z.ltb_lt; lia). repeat split.
  intros L. replace (u8 (32 + irq)) with (irq - 224) by (unfold u8; lia). apply upd_same.
Qed.
Print Assumptions C98_register_refuted.

(** Registration for line 10 replaces the handler of system calls (vector 42), for lines 1 to 3 those of the interrupts between processors (33 to 35). *)
Theorem C98_vectors_refuted : forall s h, (gates (snd (irq_register 10 h s)) 42 = h) /\ (forall k, 1 <= k <= 3 -> gates (snd (irq_register k h s)) (32 + k) = h).
Proof. intros s h. split; [reflexivity|]. intros k Hk. unfold irq_register. cbn [snd gates]. replace (u8 (32 + k)) with (32 + k) by (unfold u8; lia). apply upd_same. Qed.
Print Assumptions C98_vectors_refuted.

(** pok_bsp_irq_acknowledge ends the service that comes first, not the one of its argument. *)
Theorem C98_acknowledge_refuted : exists s l, Forall fine l /\ quiet (pics (boot s)) /\
  let p := pics (run l (boot s)) in let p' := pics (snd (irq_acknowledge 3 (run l (boot s)))) in
  isr (first p) 3 = true /\ isr (first p) 0 = true /\ isr (first p') 3 = true /\ isr (first p') 0 = false.
Proof.
  pose (c := {| step := 0; single := false; need4 := false; base := 0; icw3 := 0; icw4 := 0; imr := 0; irr := fun _ => false; isr := fun _ => false |}).
  exists {| pics := {| first := c; second := c |}; gates := fun _ => 0 |}, [Register 0 1; Register 3 2; Request 3; Interrupt; Request 0; Interrupt].
  split; [repeat constructor; cbn [fine]; unfold device; lia|]. split; [intros i _; split; reflexivity|]. vm_compute. repeat split.
Qed.
Print Assumptions C98_acknowledge_refuted.

Section Examples.
Let c := {| step := 3; single := true; need4 := false; base := 8; icw3 := 7; icw4 := 2; imr := 0; irr := fun _ => true; isr := fun _ => false |}.
Let s0 := {| pics := {| first := c; second := c |}; gates := fun _ => 0 |}.
Let l := [Register 0 100; Register 11 101; Unmask 5; Mask 5; Request 11; Request 5; Request 0; Register 4 102; Request 4; Request 14].
Example ex_fine : Forall fine l /\ quiet (pics (run l (boot s0))).
Proof. split; [repeat constructor; cbn [fine]; unfold device; lia|]. intros i _. split; vm_compute; reflexivity. Qed.
Example ex_served : fst (taken 15 (run l (boot s0))) = [32; 43; 36].
Proof. vm_compute. reflexivity. Qed.
Example ex_left : map (asked (pics (snd (taken 15 (run l (boot s0)))))) [0; 4; 5; 11; 14] = [false; false; true; false; true].
Proof. vm_compute. reflexivity. Qed.
Example ex_handlers : map (gates (run l (boot s0))) (fst (taken 15 (run l (boot s0)))) = [100; 101; 102].
Proof. vm_compute. reflexivity. Qed.
Example ex_line2 : interrupt (pics (run ([Register 9 1; Request 9] ++ [Mask 2]) (boot s0))) = None /\ masked (pics (run ([Register 9 1; Request 9] ++ [Mask 2]) (boot s0))) 9 = false.
Proof. split; vm_compute; reflexivity. Qed.
Example ex_line2_open : exists p', interrupt (pics (run ([Register 9 1; Register 4 2; Request 4] ++ [Mask 2]) (boot s0))) = Some (36, p').
Proof. vm_compute. eexists. reflexivity. Qed.
End Examples.

(** Proofs about the interrupt controllers. *)
From Verif Require Import Model.Base Proof.Tac Spec.Pic8259 Model.Pic.

(** What can happen: calls of the kernel with arguments of uint8_t, requests of devices, interrupts of the processor. *)
Inductive op := Register (irq h : Z) | Mask (irq : Z) | Unmask (irq : Z) | Acknowledge (irq : Z) | Request (irq : Z) | Interrupt.
Definition fine (o : op) : Prop := match o with Register i _ | Mask i | Unmask i | Acknowledge i => 0 <= i < 256 | Request i => device i | Interrupt => True end.
Definition do (o : op) (s : irqs) : irqs :=
  let on p := {| pics := p; gates := gates s |} in
  match o with
  | Register i h => snd (irq_register i h s) | Mask i => on (snd (pic_mask i (pics s))) | Unmask i => on (snd (pic_unmask i (pics s)))
  | Acknowledge i => snd (irq_acknowledge i s) | Request i => on (request i (pics s))
  | Interrupt => match interrupt (pics s) with Some (_, p) => on p | None => s end
  end.
Definition run (l : list op) (s : irqs) : irqs := fold_left (fun s o => do o s) l s.
Definition boot (s : irqs) : irqs := {| pics := pic_init (pics s); gates := gates s |}.

Record set_chip (b w : Z) (c : chip) : Prop := { s_step : step c = 0; s_base : base c = b; s_icw3 : icw3 c = w; s_icw4 : icw4 c = 1; s_imr : 0 <= imr c < 256 }.
Definition set_up (p : pair) : Prop := set_chip 32 4 (first p) /\ set_chip 40 2 (second p).

Lemma or_bit : forall m i n, 0 <= i < 8 -> 0 <= n < 8 -> Z.testbit (u8 (Z.lor m (Z.shiftl 1 i))) n = (n =? i) || Z.testbit m n.
Proof. intros m i n Hi Hn. unfold u8. rewrite Z.mod_pow2_bits_low by lia. rewrite Z.lor_spec, Z.shiftl_1_l, Z.pow2_bits_eqb by lia. rewrite (Z.eqb_sym i n). apply orb_comm. Qed.
Lemma and_bit : forall m i n, 0 <= i < 8 -> 0 <= n < 8 -> Z.testbit (u8 (Z.land m (Z.lnot (Z.shiftl 1 i)))) n = negb (n =? i) && Z.testbit m n.
Proof. intros m i n Hi Hn. unfold u8. rewrite Z.mod_pow2_bits_low by lia. rewrite Z.land_spec, Z.lnot_spec, Z.shiftl_1_l, Z.pow2_bits_eqb by lia. rewrite (Z.eqb_sym i n). apply andb_comm. Qed.
Lemma u8_range : forall v, 0 <= u8 v < 256.
Proof. intros v. unfold u8. apply Z.mod_pos_bound. lia. Qed.

Lemma wr1_ready : forall v c, step c = 0 -> wr1 v c = {| step := 0; single := single c; need4 := need4 c; base := base c; icw3 := icw3 c; icw4 := icw4 c; imr := v; irr := irr c; isr := isr c |}.
Proof. intros v c H. unfold wr1. rewrite H. reflexivity. Qed.
Lemma wr1_set : forall b w v c, 0 <= v < 256 -> set_chip b w c -> set_chip b w (wr1 v c).
Proof. intros b w v c Hv [A B C D E]. rewrite wr1_ready by exact A. split; assumption || reflexivity. Qed.
Lemma out_21 : forall v p, out (0x20 + 1) v p = {| first := wr1 v (first p); second := second p |}.
Proof. reflexivity. Qed.
Lemma out_a1 : forall v p, out (0xa0 + 1) v p = {| first := first p; second := wr1 v (second p) |}.
Proof. reflexivity. Qed.

Lemma mask_ok : forall irq p, set_up p -> 0 <= irq < 256 ->
  let p' := snd (pic_mask irq p) in set_up p' /\ (forall i, 0 <= i < 16 -> masked p' i = (i =? irq) || masked p i) /\ (forall i, asked p' i = asked p i) /\
  isr (first p') = isr (first p) /\ isr (second p') = isr (second p).
Proof.
  intros irq p (A & B) H. unfold pic_mask. destruct (Z.ltb_spec 15 irq) as [L|L]; [cbn [snd]; cbv zeta; split; [split; assumption|]; split; [|repeat split]|].
  { intros i Hi. replace (i =? irq) with false by (symmetry; apply Z.eqb_neq; lia). reflexivity. }
  destruct (Z.ltb_spec irq 8) as [L8|L8]; cbn [snd]; cbv zeta; rewrite ?out_21, ?out_a1.
  - split; [split; [apply wr1_set; [apply u8_range|exact A]|exact B]|]. cbn [first second]. rewrite wr1_ready by apply A. split; [|repeat split].
    intros i Hi. unfold masked. cbn [first second imr]. destruct (Z.ltb_spec i 8) as [L'|L']; [rewrite or_bit by lia; reflexivity|]. replace (i =? irq) with false by (symmetry; apply Z.eqb_neq; lia). reflexivity.
  - split; [split; [exact A|apply wr1_set; [apply u8_range|exact B]]|]. cbn [first second]. rewrite wr1_ready by apply B. split; [|repeat split].
    intros i Hi. unfold masked. cbn [first second imr]. destruct (Z.ltb_spec i 8) as [L'|L']; [replace (i =? irq) with false by (symmetry; apply Z.eqb_neq; lia); reflexivity|].
    rewrite or_bit by lia. change (inp (0xa0 + 1) p) with (imr (second p)). f_equal. destruct (Z.eqb_spec (i - 8) (irq - 8)), (Z.eqb_spec i irq); lia || reflexivity.
Qed.
Lemma unmask_ok : forall irq p, set_up p -> 0 <= irq < 256 ->
  let p' := snd (pic_unmask irq p) in set_up p' /\ (forall i, 0 <= i < 16 -> masked p' i = negb (i =? irq) && masked p i) /\ (forall i, asked p' i = asked p i) /\
  isr (first p') = isr (first p) /\ isr (second p') = isr (second p).
Proof.
  intros irq p (A & B) H. unfold pic_unmask. destruct (Z.ltb_spec 15 irq) as [L|L]; [cbn [snd]; cbv zeta; split; [split; assumption|]; split; [|repeat split]|].
  { intros i Hi. replace (i =? irq) with false by (symmetry; apply Z.eqb_neq; lia). reflexivity. }
  destruct (Z.ltb_spec irq 8) as [L8|L8]; cbn [snd]; cbv zeta; rewrite ?out_21, ?out_a1.
  - split; [split; [apply wr1_set; [apply u8_range|exact A]|exact B]|]. cbn [first second]. rewrite wr1_ready by apply A. split; [|repeat split].
    intros i Hi. unfold masked. cbn [first second imr]. destruct (Z.ltb_spec i 8) as [L'|L']; [rewrite and_bit by lia; reflexivity|]. replace (i =? irq) with false by (symmetry; apply Z.eqb_neq; lia). reflexivity.
  - split; [split; [exact A|apply wr1_set; [apply u8_range|exact B]]|]. cbn [first second]. rewrite wr1_ready by apply B. split; [|repeat split].
    intros i Hi. unfold masked. cbn [first second imr]. destruct (Z.ltb_spec i 8) as [L'|L']; [replace (i =? irq) with false by (symmetry; apply Z.eqb_neq; lia); reflexivity|].
    rewrite and_bit by lia. change (inp (0xa0 + 1) p) with (imr (second p)). f_equal. destruct (Z.eqb_spec (i - 8) (irq - 8)), (Z.eqb_spec i irq); lia || reflexivity.
Qed.

Definition ended (c : chip) : chip :=
  {| step := step c; single := single c; need4 := need4 c; base := base c; icw3 := icw3 c; icw4 := icw4 c; imr := imr c; irr := irr c;
     isr := match serving c with Some l => upd (isr c) l false | None => isr c end |}.
Lemma wr0_eoi : forall c, wr0 0x20 c = ended c.
Proof. intros c. unfold wr0. change (Z.testbit 0x20 4) with false. change (Z.testbit 0x20 3) with false. change (0x20 / 32 mod 8 =? 1) with true. cbv zeta iota. unfold ended. destruct (serving c); destruct c; reflexivity. Qed.
Lemma eoi_eq : forall irq p, pic_eoi irq p = {| first := ended (first p); second := if 8 <=? irq then ended (second p) else second p |}.
Proof. intros irq p. unfold pic_eoi. destruct (8 <=? irq); cbv zeta; unfold out; cbn [Z.eqb Pos.eqb first second]; rewrite !wr0_eoi; reflexivity. Qed.
Lemma ended_set : forall b w c, set_chip b w c -> set_chip b w (ended c).
Proof. intros b w c [A B C D E]. split; assumption. Qed.
Lemma eoi_ok : forall irq p, set_up p -> let p' := pic_eoi irq p in set_up p' /\ (forall i, masked p' i = masked p i) /\ (forall i, asked p' i = asked p i).
Proof.
  intros irq p (A & B). cbv zeta. rewrite eoi_eq. split; [split; [apply ended_set, A|destruct (8 <=? irq); [apply ended_set, B|exact B]]|].
  split; intros i; unfold masked, asked; cbn [first second]; destruct (i <? 8); destruct (8 <=? irq); reflexivity.
Qed.

(** ** The lines asked for *)
Lemma lines_in : forall i, In i lines <-> 0 <= i < 8.
Proof. intros i. unfold lines. cbn [In]. lia. Qed.
Lemma find_first : forall f i, find f lines = Some i -> (0 <= i < 8 /\ f i = true) /\ forall j, 0 <= j < i -> f j = false.
Proof.
  intros f i H. pose proof (find_some f lines H) as (I & T). split; [split; [apply lines_in; exact I|exact T]|]. intros j Hj. apply lines_in in I.
  unfold lines in H. cbn [find] in H.
  destruct (f 0) eqn:E0; [injection H as <-; lia|]. destruct (f 1) eqn:E1; [injection H as <-; assert (j = 0) as -> by lia; assumption|].
  destruct (f 2) eqn:E2; [injection H as <-; assert (j = 0 \/ j = 1) as [-> | ->] by lia; assumption|].
  destruct (f 3) eqn:E3; [injection H as <-; assert (j = 0 \/ j = 1 \/ j = 2) as [-> | [-> | ->]] by lia; assumption|].
  destruct (f 4) eqn:E4; [injection H as <-; assert (j = 0 \/ j = 1 \/ j = 2 \/ j = 3) as [-> | [-> | [-> | ->]]] by lia; assumption|].
  destruct (f 5) eqn:E5; [injection H as <-; assert (j = 0 \/ j = 1 \/ j = 2 \/ j = 3 \/ j = 4) as [-> | [-> | [-> | [-> | ->]]]] by lia; assumption|].
  destruct (f 6) eqn:E6; [injection H as <-; assert (j = 0 \/ j = 1 \/ j = 2 \/ j = 3 \/ j = 4 \/ j = 5) as [-> | [-> | [-> | [-> | [-> | ->]]]]] by lia; assumption|].
  assert (j = 0 \/ j = 1 \/ j = 2 \/ j = 3 \/ j = 4 \/ j = 5 \/ j = 6) as [-> | [-> | [-> | [-> | [-> | [-> | ->]]]]]] by lia; assumption.
Qed.
Definition calm (c : chip) : Prop := forall l, In l lines -> isr c l = false.
Lemma asks_some : forall b w r c i, set_chip b w c -> asks r c = Some i ->
  0 <= i < 8 /\ r i = true /\ Z.testbit (imr c) i = false /\ (calm c -> forall j, 0 <= j < i -> r j = true -> Z.testbit (imr c) j = true).
Proof.
  intros b w r c i [A _ _ D _] H. unfold asks in H. rewrite A, D in H. change ((0 =? 0) && Z.testbit 1 0) with true in H. cbv iota in H.
  apply find_first in H. destruct H as ((Hi & T) & F). rewrite !andb_true_iff in T. destruct T as ((T1 & T2) & _). apply negb_true_iff in T2. repeat split; try assumption; try lia.
  intros C j Hj R. specialize (F j Hj). rewrite R in F. cbn [andb] in F. destruct (Z.testbit (imr c) j); [reflexivity|]. cbn [negb andb] in F.
  assert (X : forallb (fun k => negb (isr c k) || (j <? k)) lines = true) by (apply forallb_forall; intros k Hk; rewrite (C k Hk); reflexivity). rewrite X in F. discriminate.
Qed.
Lemma asks_none : forall b w r c, set_chip b w c -> asks r c = None -> calm c -> forall j, 0 <= j < 8 -> r j = true -> Z.testbit (imr c) j = true.
Proof.
  intros b w r c [A _ _ D _] H C j Hj R. unfold asks in H. rewrite A, D in H. change ((0 =? 0) && Z.testbit 1 0) with true in H. cbv iota in H.
  pose proof (find_none _ _ H j (proj2 (lines_in j) Hj)) as F. cbv beta in F. rewrite R in F. cbn [andb] in F. destruct (Z.testbit (imr c) j); [reflexivity|]. cbn [negb andb] in F.
  assert (X : forallb (fun k => negb (isr c k) || (j <? k)) lines = true) by (apply forallb_forall; intros k Hk; rewrite (C k Hk); reflexivity). rewrite X in F. discriminate.
Qed.
Lemma accept_set : forall b w i c, set_chip b w c -> set_chip b w (accept i c).
Proof. intros b w i c [A B C D E]. split; assumption. Qed.

Lemma ended_accept : forall b w c x l, set_chip b w c -> calm c -> 0 <= x < 8 -> In l lines -> isr (ended (accept x c)) l = false.
Proof.
  intros b w c x l Sc Cc Hx Hl. assert (I : isr (accept x c) = upd (isr c) x true) by (unfold accept; cbn [isr]; rewrite (s_icw4 _ _ _ Sc); reflexivity).
  unfold ended. cbn [isr]. unfold serving. rewrite I. destruct (find (upd (isr c) x true) lines) as [y|] eqn:G.
  - apply find_first in G. destruct G as ((Hy & Ty) & _). unfold upd in Ty. destruct (Z.eqb_spec y x) as [-> |e]; [|rewrite (Cc y (proj2 (lines_in y) Hy)) in Ty; discriminate].
    unfold upd. destruct (l =? x); [reflexivity|apply Cc; exact Hl].
  - exfalso. pose proof (find_none _ _ G x (proj2 (lines_in x) Hx)) as X. cbv beta in X. rewrite upd_same in X. discriminate.
Qed.

(** What an interrupt gives: a line of the first controller, or one of the second. *)
Lemma interrupt_shape : forall p v p', set_up p -> interrupt p = Some (v, p') ->
  (exists i, (0 <= i < 8 /\ i <> 2) /\ v = 32 + i /\ p' = {| first := accept i (first p); second := second p |} /\ asks (upd (irr (first p)) 2 (match asks (irr (second p)) (second p) with Some _ => true | None => false end)) (first p) = Some i) \/
  (exists j, 0 <= j < 8 /\ v = 40 + j /\ p' = {| first := accept 2 (first p); second := accept j (second p) |} /\ asks (upd (irr (first p)) 2 true) (first p) = Some 2 /\ asks (irr (second p)) (second p) = Some j).
Proof.
  intros p v p' (A & B) H. unfold interrupt in H. destruct (asks (upd _ _ _) (first p)) as [i|] eqn:E; [|discriminate].
  rewrite (s_icw3 _ _ _ A) in H. change 4 with (2 ^ 2) in H. rewrite Z.pow2_bits_eqb in H by lia. destruct (asks_some _ _ _ _ _ A E) as (Hi & Ri & _ & _).
  destruct (Z.eqb_spec 2 i) as [<- |N].
  - right. destruct (asks (irr (second p)) (second p)) as [j|] eqn:F; [|discriminate]. destruct (asks_some _ _ _ _ _ B F) as (Hj & _). rewrite (s_icw3 _ _ _ B), Z.eqb_refl in H.
    injection H as <- <-. rewrite (s_base _ _ _ B). exists j. repeat split; try assumption; lia.
  - left. injection H as <- <-. rewrite (s_base _ _ _ A). exists i. repeat split; try lia; exact E.
Qed.
Lemma interrupt_ok : forall p v p', set_up p -> interrupt p = Some (v, p') -> set_up p' /\
  exists irq, device irq /\ v = 32 + irq /\ asked p irq = true /\ masked p irq = false /\ (8 <= irq -> masked p 2 = false) /\
    (forall i, device i -> asked p' i = asked p i && negb (i =? irq)) /\ (forall i, masked p' i = masked p i) /\
    (quiet p -> forall i, device i -> asked p i = true -> masked p i = false -> (8 <= i -> masked p 2 = false) -> rank irq <= rank i) /\
    (quiet p -> quiet (pic_eoi irq p')).
Proof.
  intros p v p' S0 H. pose proof S0 as (A & B). destruct (interrupt_shape p v p' S0 H) as [(i & (Hi & Ni) & -> & -> & E)|(j & Hj & -> & -> & E & F)].
  - destruct (asks_some _ _ _ _ _ A E) as (_ & Ri & Mi & O). split; [split; [apply accept_set, A|exact B]|]. exists i. rewrite upd_other in Ri by exact Ni.
    split; [split; lia|]. split; [reflexivity|]. unfold asked, masked. replace (i <? 8) with true by (symmetry; apply Z.ltb_lt; lia). split; [exact Ri|]. split; [exact Mi|]. split; [lia|].
    split; [|split; [|split]].
    + intros k (Hk & _). cbn [first second accept irr]. destruct (Z.ltb_spec k 8) as [L|L]; unfold upd; destruct (Z.eqb_spec k i) as [e|e]; cbn [negb]; rewrite ?andb_true_r, ?andb_false_r; try reflexivity; lia.
    + intros k. reflexivity.
    + intros Q k (Hk & Nk) Rk Mk M2. assert (C : calm (first p)) by (intros l Hl; apply Q; exact Hl). specialize (O C).
      destruct (Z.ltb_spec k 8) as [L|L].
      * destruct (Z.lt_ge_cases k i) as [L'|L']; [|unfold rank; destruct (Z.ltb_spec i 2), (Z.ltb_spec k 2), (Z.ltb_spec i 8), (Z.ltb_spec k 8); lia]. exfalso.
        assert (X : Z.testbit (imr (first p)) k = true) by (apply O; [lia|rewrite upd_other by exact Nk; exact Rk]). rewrite X in Mk. discriminate.
      * destruct (Z.lt_ge_cases i 2) as [L'|L']; [unfold rank; destruct (Z.ltb_spec i 2), (Z.ltb_spec k 2), (Z.ltb_spec i 8), (Z.ltb_spec k 8); lia|]. exfalso.
        assert (X : Z.testbit (imr (first p)) 2 = true).
        { apply O; [lia|]. rewrite upd_same. destruct (asks (irr (second p)) (second p)) eqn:G; [reflexivity|]. exfalso.
          assert (C' : calm (second p)) by (intros l Hl; apply Q; exact Hl). rewrite (asks_none _ _ _ _ B G C' (k - 8) ltac:(lia) Rk) in Mk. discriminate. }
        specialize (M2 ltac:(lia)). change (2 <? 8) with true in M2. cbv iota in M2. rewrite X in M2. discriminate.
    + intros Q. rewrite eoi_eq. replace (8 <=? i) with false by (symmetry; apply Z.leb_gt; lia). intros l Hl. cbn [first second]. split; [|apply Q; exact Hl].
      apply (ended_accept 32 4); try assumption. intros x Hx. apply Q. exact Hx.
  - destruct (asks_some _ _ _ _ _ A E) as (_ & _ & M2 & O). destruct (asks_some _ _ _ _ _ B F) as (_ & Rj & Mj & O'). split; [split; apply accept_set; assumption|]. exists (8 + j).
    split; [split; lia|]. split; [lia|]. unfold asked, masked. replace (8 + j <? 8) with false by (symmetry; apply Z.ltb_ge; lia). replace (8 + j - 8) with j by lia. split; [exact Rj|]. split; [exact Mj|]. split; [intros _; exact M2|].
    split; [|split; [|split]].
    + intros k (Hk & Nk). cbn [first second accept irr]. destruct (Z.ltb_spec k 8) as [L|L].
      * rewrite upd_other by exact Nk. replace (k =? 8 + j) with false by (symmetry; apply Z.eqb_neq; lia). rewrite andb_true_r. reflexivity.
      * unfold upd. destruct (Z.eqb_spec (k - 8) j), (Z.eqb_spec k (8 + j)); cbn [negb]; rewrite ?andb_true_r, ?andb_false_r; try reflexivity; lia.
    + intros k. reflexivity.
    + intros Q k (Hk & Nk) Rk Mk _. assert (C : calm (first p)) by (intros l Hl; apply Q; exact Hl). assert (C' : calm (second p)) by (intros l Hl; apply Q; exact Hl). specialize (O C). specialize (O' C').
      destruct (Z.ltb_spec k 8) as [L|L].
      * destruct (Z.lt_ge_cases k 2) as [L'|L']; [|unfold rank; destruct (Z.ltb_spec (8 + j) 2), (Z.ltb_spec k 2), (Z.ltb_spec (8 + j) 8), (Z.ltb_spec k 8); lia]. exfalso.
        assert (X : Z.testbit (imr (first p)) k = true) by (apply O; [lia|rewrite upd_other by lia; exact Rk]). rewrite X in Mk. discriminate.
      * destruct (Z.lt_ge_cases (k - 8) j) as [L'|L']; [|unfold rank; destruct (Z.ltb_spec (8 + j) 2), (Z.ltb_spec k 2), (Z.ltb_spec (8 + j) 8), (Z.ltb_spec k 8); lia]. exfalso.
        assert (X : Z.testbit (imr (second p)) (k - 8) = true) by (apply O'; [lia|exact Rk]). rewrite X in Mk. discriminate.
    + intros Q. rewrite eoi_eq. replace (8 <=? 8 + j) with true by (symmetry; apply Z.leb_le; lia).
      intros l Hl. cbn [first second]. split; [apply (ended_accept 32 4); try assumption; [|lia]|apply (ended_accept 40 2); try assumption]; intros x Hx; apply Q; exact Hx.
Qed.
Lemma interrupt_none : forall p, set_up p -> interrupt p = None -> quiet p -> forall i, device i -> asked p i = true -> masked p i = true \/ (8 <= i /\ masked p 2 = true).
Proof.
  intros p (A & B) H Q i (Hi & Ni) R. assert (C : calm (first p)) by (intros l Hl; apply Q; exact Hl). assert (C' : calm (second p)) by (intros l Hl; apply Q; exact Hl).
  unfold interrupt in H. destruct (asks (upd _ _ _) (first p)) as [x|] eqn:E.
  - exfalso. destruct (asks_some _ _ _ _ _ A E) as (Hx & Rx & _). destruct (Z.testbit (icw3 (first p)) x) eqn:T; [|discriminate].
    rewrite (s_icw3 _ _ _ A) in T. change 4 with (2 ^ 2) in T. rewrite Z.pow2_bits_eqb in T by lia. apply Z.eqb_eq in T. subst x. rewrite upd_same in Rx.
    destruct (asks (irr (second p)) (second p)) as [j|]; [|discriminate]. rewrite (s_icw3 _ _ _ B), Z.eqb_refl in H. discriminate.
  - unfold asked, masked in *. destruct (Z.ltb_spec i 8) as [L|L].
    + left. apply (asks_none _ _ _ _ A E C i ltac:(lia)). rewrite upd_other by exact Ni. exact R.
    + destruct (asks (irr (second p)) (second p)) as [j|] eqn:F.
      * right. split; [lia|]. change (2 <? 8) with true. cbv iota. apply (asks_none _ _ _ _ A E C 2 ltac:(lia)). apply upd_same.
      * left. apply (asks_none _ _ _ _ B F C' (i - 8) ltac:(lia) R).
Qed.

(** ** Executions *)
Definition want (irq : Z) (l : list op) (b : bool) : bool :=
  fold_left (fun b o => match o with Register i _ | Unmask i => if i =? irq then false else b | Mask i => if i =? irq then true else b | _ => b end) l b.
Lemma request_ok : forall i p, set_up p -> set_up (request i p) /\ (forall k, masked (request i p) k = masked p k).
Proof.
  intros i p ([A1 A2 A3 A4 A5] & [B1 B2 B3 B4 B5]). unfold request. destruct (i <? 8); (split; [split; split; assumption|]); intros k; reflexivity.
Qed.
Lemma do_ok : forall o s, fine o -> set_up (pics s) -> set_up (pics (do o s)) /\ forall irq, 0 <= irq < 16 -> masked (pics (do o s)) irq = want irq [o] (masked (pics s) irq).
Proof.
  intros o s Fo S0. destruct o as [i h|i|i|i|i|]; cbn [fine] in Fo; unfold do; cbn [pics].
  - destruct (unmask_ok i (pics s) S0 Fo) as (A & B & _). split; [exact A|]. intros k Hk. cbn [snd irq_register pics]. rewrite B by exact Hk. unfold want. cbn [fold_left]. rewrite (Z.eqb_sym i k). destruct (k =? i); reflexivity.
  - destruct (mask_ok i (pics s) S0 Fo) as (A & B & _). split; [exact A|]. intros k Hk. rewrite B by exact Hk. unfold want. cbn [fold_left]. rewrite (Z.eqb_sym i k). destruct (k =? i); reflexivity.
  - destruct (unmask_ok i (pics s) S0 Fo) as (A & B & _). split; [exact A|]. intros k Hk. rewrite B by exact Hk. unfold want. cbn [fold_left]. rewrite (Z.eqb_sym i k). destruct (k =? i); reflexivity.
  - cbn [irq_acknowledge snd pics]. destruct (eoi_ok i (pics s) S0) as (A & B & _). split; [exact A|]. intros k _. rewrite B. reflexivity.
  - destruct (request_ok i (pics s) S0) as (A & B). split; [exact A|]. intros k _. rewrite B. reflexivity.
  - destruct (interrupt (pics s)) as [[v p']|] eqn:E; [|split; [exact S0|reflexivity]]. cbn [pics]. destruct (interrupt_ok _ _ _ S0 E) as (A & q & _ & _ & _ & _ & _ & _ & B & _).
    split; [exact A|]. intros k _. rewrite B. reflexivity.
Qed.
Lemma run_ok : forall l s, Forall fine l -> set_up (pics s) -> set_up (pics (run l s)) /\ forall irq, 0 <= irq < 16 -> masked (pics (run l s)) irq = want irq l (masked (pics s) irq).
Proof.
  intros l. induction l as [|o l IH]; intros s F S0; [split; [exact S0|reflexivity]|]. apply Forall_cons_iff in F. destruct F as (Fo & F).
  destruct (do_ok o s Fo S0) as (A & B). destruct (IH (do o s) F A) as (A' & B'). change (run (o :: l) s) with (run l (do o s)). split; [exact A'|]. intros k Hk. rewrite B' by exact Hk. rewrite B by exact Hk. reflexivity.
Qed.
Lemma init_eq : forall c b w, (let c := wr1 w (wr1 b (wr0 0x11 c)) in wr1 1 c) =
  {| step := 0; single := false; need4 := true; base := b / 8 * 8; icw3 := w; icw4 := 1; imr := 0; irr := fun _ => false; isr := isr c |}.
Proof. intros c b w. reflexivity. Qed.
Lemma boot_ok : forall s, set_up (pics (boot s)) /\ (forall irq, 0 <= irq < 16 -> masked (pics (boot s)) irq = negb (irq =? 2)) /\ (forall irq, asked (pics (boot s)) irq = false) /\
  isr (first (pics (boot s))) = isr (first (pics s)) /\ isr (second (pics (boot s))) = isr (second (pics s)).
Proof.
  intros s. split; [split; split; try reflexivity; unfold boot, pic_init, outs; cbn; lia|]. split; [|split; [|split; reflexivity]].
  - intros irq H. assert (C : In irq (map Z.of_nat (seq 0 16))) by (apply in_map_iff; exists (Z.to_nat irq); split; [lia|]; apply in_seq; lia).
    cbn [map seq In Z.of_nat Pos.of_succ_nat Pos.succ] in C. repeat destruct C as [<- |C]; try reflexivity. destruct C.
  - intros irq. unfold asked. destruct (irq <? 8); reflexivity.
Qed.
Lemma gates_run : forall l s irq, 0 <= irq < 256 -> Forall fine l -> (forall h, ~ In (Register irq h) l) -> gates (run l s) (u8 (32 + irq)) = gates s (u8 (32 + irq)).
Proof.
  intros l. induction l as [|o l IH]; intros s irq Hi F N; [reflexivity|]. apply Forall_cons_iff in F. destruct F as (Fo & F). change (run (o :: l) s) with (run l (do o s)).
  rewrite IH; [|exact Hi|exact F|intros h C; apply (N h); right; exact C].
  destruct o as [i h|i|i|i|i|]; unfold do; try reflexivity; [|destruct (interrupt (pics s)) as [[v p']|]; reflexivity].
  cbn [irq_register snd gates]. rewrite upd_other; [reflexivity|]. assert (i <> irq) by (intros ->; apply (N h); left; reflexivity). cbn [fine] in Fo. unfold u8. lia.
Qed.

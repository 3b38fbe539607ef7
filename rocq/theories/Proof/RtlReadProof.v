(** Reception: DMA from the ring, the queues, one turn of the loop. *)
From Verif Require Import Model.Base Spec.Ne2000 Spec.NetSpec Model.Rtl8029 Proof.Tac Proof.NicProof Proof.RtlWriteProof.

(** What reading leaves as it was. *)
Definition keeps (n n' : nic) : Prop :=
  idle n' /\ (forall r, In r [BNRY; CURR; PSTART; PSTOP] -> rg n' r = rg n r) /\ Z.testbit (rg n' ISR) 0 = Z.testbit (rg n ISR) 0 /\
  ram n' = ram n /\ wire n' = wire n /\ par n' = par n.
Lemma keeps_refl : forall n, idle n -> keeps n n.
Proof. intros n H. split; [exact H|]. repeat split. Qed.
Lemma keeps_trans : forall a b c, keeps a b -> keeps b c -> keeps a c.
Proof.
  intros a b c (I1 & R1 & T1 & M1 & W1 & P1) (I2 & R2 & T2 & M2 & W2 & P2). split; [exact I2|]. split; [|repeat split; congruence].
  intros r Hr. rewrite R2, R1 by exact Hr. reflexivity.
Qed.

Lemma dma_in_ok : forall k n a, rg n CR = 0x0a -> (k <> O -> rg n RSAR = a) -> rg n RBCR = Z.of_nat k -> rg n PSTOP = 128 -> a + Z.of_nat k <= 128 * 256 ->
  exists n', dma_in k n = (bytes (fun i => ram n (a + i)) (Z.of_nat k), n') /\ ram n' = ram n /\ wire n' = wire n /\ par n' = par n /\
    Z.testbit (rg n' ISR) 0 = Z.testbit (rg n ISR) 0 /\ forall r, ~ In r [ISR; RSAR; RBCR] -> rg n' r = rg n r.
Proof.
  induction k as [|k IH]; intros n a Hc Ha Hb Hs Hl; [exists n; repeat split|].
  specialize (Ha ltac:(discriminate)). cbn [dma_in]. unfold data_in. unfold remote. rewrite Hc, Hb. change (Z.land (Z.shiftr 10 3) 7 =? 1) with true.
  destruct (Z.ltb_spec 0 (Z.of_nat (S k))) as [_|]; [|lia]. cbn [andb]. rewrite Ha.
  set (n1 := advance n).
  assert (F : rg n1 CR = 0x0a /\ (k <> O -> rg n1 RSAR = a + 1) /\ rg n1 RBCR = Z.of_nat k /\ rg n1 PSTOP = 128 /\ ram n1 = ram n /\ wire n1 = wire n /\ par n1 = par n /\
    Z.testbit (rg n1 ISR) 0 = Z.testbit (rg n ISR) 0 /\ forall r, ~ In r [ISR; RSAR; RBCR] -> rg n1 r = rg n r).
  { unfold n1, advance. cbv zeta. rewrite Ha, Hb, Hs.
    destruct (Z.of_nat (S k) =? 1); cbn [rg setr reg_eqb ram wire par]; rewrite ?Hc, ?Hs;
      (split; [reflexivity|]; split; [intros Nk; destruct (Z.eqb_spec (a + 1) (128 * 256)); [exfalso; lia|reflexivity]|]; split; [lia|]; do 4 (split; [reflexivity|]);
       split; [rewrite ?Z.lor_spec; change (Z.testbit 64 0) with false; rewrite ?orb_false_r; reflexivity|];
       intros r Hr; destruct r; try reflexivity; exfalso; apply Hr; cbn; auto). }
  clearbody n1. destruct F as (C1 & A1 & B1 & S1 & M1 & W1 & P1 & T1 & O1).
  destruct (IH n1 (a + 1) C1 A1 B1 S1 ltac:(lia)) as (n' & E & M & W & P & T & O). rewrite E. exists n'. split; [|repeat split; try congruence].
  - f_equal. rewrite M1. replace (Z.of_nat (S k)) with (1 + Z.of_nat k) by lia. rewrite bytes_app by lia. change (bytes (fun i => ram n (a + i)) 1) with [ram n (a + 0)].
    rewrite Z.add_0_r. cbn [app]. f_equal. apply bytes_ext. intros i _. f_equal. lia.
  - intros r Hr. rewrite O, O1 by exact Hr. reflexivity.
Qed.
Lemma ne_read_ok : forall count off n, idle n -> 0 <= count < 65536 -> 0 <= off < 65536 -> off + count <= 128 * 256 ->
  exists n', ne_read count off n = (bytes (fun i => ram n (off + i)) count, n') /\ keeps n n'.
Proof.
  intros count off n H Hk Ho Hl. unfold ne_read. assert (U : u16 count = count) by (apply Z.mod_small; exact Hk). rewrite U.
  destruct (dma_ok off count 0x08 n H) as (H1 & C1 & A1 & B1 & (O1 & P1 & M1 & W1)); [exact Ho|exact Hk|auto|].
  change (56 - 8) with 0x30 in *. set (n1 := remote_dma off 48 8 count n) in *. clearbody n1.
  destruct (dma_in_ok (Z.to_nat count) n1 off) as (n' & E & M & W & P & T & O); try assumption.
  { intros _. exact A1. }
  { rewrite Z2Nat.id by lia. exact B1. }
  { exact (i_stop n1 H1). }
  { rewrite Z2Nat.id by lia. exact Hl. }
  rewrite Z2Nat.id in E by lia. exists n'. split; [rewrite E, M1; reflexivity|].
  assert (K : forall r, In r [BNRY; CURR; PSTART; PSTOP] -> rg n' r = rg n r).
  { intros r Hr. rewrite O, O1; [reflexivity| |]; intros Hi; destruct Hr as [<- | [<- | [<- | [<- | []]]]]; destruct Hi as [Q | [Q | [Q | []]]]; discriminate. }
  split; [constructor|split; [exact K|]].
  - rewrite O by (intros [Q | [Q | [Q | []]]]; discriminate). rewrite C1. right. left. reflexivity.
  - rewrite K by (cbn; auto). exact (i_start n H).
  - rewrite K by (cbn; auto). exact (i_stop n H).
  - split; [rewrite T; f_equal; apply O1; intros [Q | [Q | [Q | []]]]; discriminate|]. repeat split; congruence.
Qed.

Lemma select1 : forall n, idle n -> inb 7 (select 1 n) = rg n CURR /\ keeps n (select 0 (select 1 n)).
Proof.
  intros n [Hc Hs Ht]. unfold select.
  assert (E : forall v, cr_ok v -> rg n CR = v -> outb 0 (Z.lor (Z.ldiff (inb 0 n) 192) (Z.shiftl 1 6)) n = setr CR (v + 64) n).
  { intros v Hv Ev. unfold inb. cbn [Z.eqb]. rewrite Ev. destruct Hv as [-> | [-> | [-> | ->]]]; reflexivity. }
  rewrite (E (rg n CR) Hc eq_refl). set (v := rg n CR) in *. clearbody v. clear E.
  split; [destruct Hc as [-> | [-> | [-> | ->]]]; reflexivity|].
  assert (E : outb 0 (Z.lor (Z.ldiff (inb 0 (setr CR (v + 64) n)) 192) (Z.shiftl 0 6)) (setr CR (v + 64) n) = setr CR v (setr CR (v + 64) n)).
  { destruct Hc as [-> | [-> | [-> | ->]]]; reflexivity. }
  rewrite E. split; [constructor; [exact Hc|exact Hs|exact Ht]|]. split; [intros r Hr; destruct Hr as [<- | [<- | [<- | [<- | []]]]]; reflexivity|]. repeat split.
Qed.
Lemma select0 : forall n, idle n -> keeps n (select 0 n).
Proof.
  intros n [Hc Hs Ht]. unfold select.
  assert (E : outb 0 (Z.lor (Z.ldiff (inb 0 n) 192) (Z.shiftl 0 6)) n = setr CR (rg n CR) n).
  { unfold inb. cbn [Z.eqb]. destruct Hc as [H | [H | [H | H]]]; rewrite H; reflexivity. }
  rewrite E. split; [constructor; [exact Hc|exact Hs|exact Ht]|]. split; [intros r Hr; destruct Hr as [<- | [<- | [<- | [<- | []]]]]; reflexivity|]. repeat split.
Qed.

(** ** Queues *)
Record mailbox (B : Z) (q : queue) (l : list Z) : Prop := {
  mb_len : q_len q = len l; mb_max : len l <= B; mb_off : 0 <= q_off q < B;
  mb_data : forall i, 0 <= i < len l -> q_data q ((q_off q + i) mod B) = nth (Z.to_nat i) l 0 }.
Lemma mod_inj : forall B a i j, 0 <= i < B -> 0 <= j < B -> (a + i) mod B = (a + j) mod B -> i = j.
Proof.
  intros B a i j Hi Hj E. pose proof (Z.div_mod (a + i) B ltac:(lia)) as D1. pose proof (Z.div_mod (a + j) B ltac:(lia)) as D2. rewrite E in D1.
  assert (D : i - j = B * ((a + i) / B - (a + j) / B)) by (rewrite Z.mul_sub_distr_l; clear - D1 D2; nia).
  set (t := (a + i) / B - (a + j) / B) in *. clearbody t. clear - D Hi Hj. assert (t = 0) by nia. subst t. lia.
Qed.
Lemma copy_in_ok : forall B k p i off m, 0 < B -> 0 <= off < B -> Z.of_nat k <= B ->
  (forall j, 0 <= j < Z.of_nat k -> copy_in B k p i off m ((off + j) mod B) = p (DATA_OFF + i + j)) /\
  (forall x, (forall j, 0 <= j < Z.of_nat k -> x <> (off + j) mod B) -> copy_in B k p i off m x = m x).
Proof.
  intros B. induction k as [|k IH]; intros p i off m HB Ho Hk; [split; [intros j Hj; lia|reflexivity]|].
  cbn [copy_in]. assert (Ho1 : 0 <= (off + 1) mod B < B) by (apply Z.mod_pos_bound; exact HB).
  destruct (IH p (i + 1) ((off + 1) mod B) (upd m off (p (DATA_OFF + i))) HB Ho1 ltac:(lia)) as [IH1 IH2].
  assert (Sh : forall j, ((off + 1) mod B + j) mod B = (off + (1 + j)) mod B) by (intros j; rewrite Z.add_mod_idemp_l by lia; f_equal; lia).
  split.
  - intros j Hj. destruct (Z.eq_dec j 0) as [-> | N].
    + rewrite !Z.add_0_r. rewrite (Z.mod_small off) by exact Ho. rewrite IH2; [apply upd_same|]. intros j Hj'. rewrite Sh. intros E.
      rewrite <- (Z.mod_small off B) in E at 1 by exact Ho. rewrite <- (Z.add_0_r off) in E at 1. apply mod_inj in E; lia.
    + specialize (IH1 (j - 1) ltac:(lia)). rewrite Sh in IH1. replace (1 + (j - 1)) with j in IH1 by lia. rewrite IH1. f_equal. lia.
  - intros x Hx. rewrite IH2.
    + apply upd_other. specialize (Hx 0 ltac:(lia)). rewrite Z.add_0_r, Z.mod_small in Hx by exact Ho. exact Hx.
    + intros j Hj. rewrite Sh. apply Hx. lia.
Qed.
Lemma enqueue_box : forall B q l c p, 0 < B -> mailbox B q l -> len l + len c <= B -> (forall i, 0 <= i < len c -> p (DATA_OFF + i) = nth (Z.to_nat i) c 0) ->
  mailbox B (mkQueue (q_len q + len c) (q_off q) (copy_in B (Z.to_nat (len c)) p 0 ((q_off q + q_len q) mod B) (q_data q))) (l ++ c).
Proof.
  intros B q l c p HB [L M O D] Hf Hc. pose proof (len_nonneg l) as Nl. pose proof (len_nonneg c) as Nc.
  destruct (copy_in_ok B (Z.to_nat (len c)) p 0 ((q_off q + q_len q) mod B) (q_data q) HB) as [C1 C2]; [apply Z.mod_pos_bound; exact HB|lia|].
  rewrite Z2Nat.id in C1, C2 by lia.
  assert (Sh : forall j, ((q_off q + q_len q) mod B + j) mod B = (q_off q + (len l + j)) mod B) by (intros j; rewrite Z.add_mod_idemp_l by lia; rewrite L; f_equal; lia).
  constructor; cbn [q_len q_off q_data].
  - rewrite len_app, L. reflexivity.
  - rewrite len_app. exact Hf.
  - exact O.
  - intros i Hi. rewrite len_app in Hi. destruct (Z.lt_ge_cases i (len l)) as [Hl|Hl].
    + rewrite C2; [rewrite D by lia; symmetry; apply app_nth1; unfold len in Hl; lia|]. intros j Hj. rewrite Sh. intros E. apply mod_inj in E; lia.
    + specialize (C1 (i - len l) ltac:(lia)). rewrite Sh in C1. replace (len l + (i - len l)) with i in C1 by lia. rewrite C1.
      rewrite Z.add_0_r. rewrite Hc by lia. rewrite app_nth2 by (unfold len in Hl; lia). f_equal. unfold len. lia.
Qed.
Lemma copy_out_ok : forall B k off m, 0 < B -> 0 <= off < B -> copy_out B k off m = bytes (fun i => m ((off + i) mod B)) (Z.of_nat k).
Proof.
  intros B. induction k as [|k IH]; intros off m HB Ho; [reflexivity|]. cbn [copy_out]. rewrite IH by (try apply Z.mod_pos_bound; exact HB).
  replace (Z.of_nat (S k)) with (1 + Z.of_nat k) by lia. rewrite bytes_app by lia.
  change (bytes (fun i => m ((off + i) mod B)) 1) with [m ((off + 0) mod B)]. rewrite Z.add_0_r, (Z.mod_small off) by exact Ho. cbn [app]. f_equal.
  apply bytes_ext. intros i _. f_equal. rewrite Z.add_mod_idemp_l by lia. f_equal. lia.
Qed.
Lemma read_box : forall B q l size, 0 < B -> mailbox B q l -> 0 <= size <= len l ->
  copy_out B (Z.to_nat size) (q_off q) (q_data q) = firstn (Z.to_nat size) l /\
  mailbox B (mkQueue (q_len q - size) ((q_off q + size) mod B) (q_data q)) (skipn (Z.to_nat size) l).
Proof.
  intros B q l size HB [L M O D] Hs.
  assert (Ls : len (skipn (Z.to_nat size) l) = len l - size) by (unfold len in *; rewrite skipn_length; lia). split.
  - rewrite copy_out_ok, Z2Nat.id by (assumption || lia). apply nth_ext with 0 0.
    + pose proof (bytes_len (fun i => q_data q ((q_off q + i) mod B)) size ltac:(lia)) as E. unfold len in *. rewrite firstn_length. lia.
    + intros i Hi. pose proof (bytes_len (fun i => q_data q ((q_off q + i) mod B)) size ltac:(lia)) as E. unfold len in E.
      replace i with (Z.to_nat (Z.of_nat i)) at 1 by lia. rewrite bytes_nth by lia. rewrite D by lia. rewrite Nat2Z.id.
      rewrite <- (firstn_skipn (Z.to_nat size) l) at 1. apply app_nth1. unfold len in Hs. rewrite firstn_length. lia.
  - constructor; cbn [q_len q_off q_data].
    + rewrite Ls, L. reflexivity.
    + lia.
    + apply Z.mod_pos_bound. exact HB.
    + intros i Hi. rewrite Ls in Hi. rewrite Z.add_mod_idemp_l by lia. replace (q_off q + size + i) with (q_off q + (size + i)) by lia. rewrite D by lia.
      rewrite <- (firstn_skipn (Z.to_nat size) l) at 1. unfold len in *. rewrite app_nth2 by (rewrite firstn_length; lia). f_equal. rewrite firstn_length. lia.
Qed.

(** ** A frame in the packet *)
Lemma half_le16 : forall p a v, 0 <= v < 65536 -> p a = v mod 256 -> p (a + 1) = v / 256 mod 256 -> half p a = v.
Proof. intros p a v Hv E1 E2. unfold half. rewrite E1, E2. lia. Qed.
Lemma frame_packet : forall f dst src sport dport c p, length dst = 6%nat -> length src = 6%nat -> 0 <= dport < 65536 -> is_frame f dst src sport dport c ->
  half (fill p 0 f) DST_OFF = dport /\ half (fill p 0 f) LEN_OFF = len c /\ forall i, 0 <= i < len c -> fill p 0 f (DATA_OFF + i) = nth (Z.to_nat i) c 0.
Proof.
  intros f dst src sport dport c p Hd Hs Hp [H1 H2 H3 H4]. pose proof (len_nonneg c) as Nc.
  assert (L : (60 <= length f)%nat) by (unfold len in *; lia).
  assert (G : forall i, (i < 20)%nat -> fill p 0 f (Z.of_nat i) = nth i (dst ++ src ++ [66; 66] ++ le16 sport ++ le16 dport ++ le16 (len c)) 0).
  { intros i Hi. rewrite <- H1. rewrite fill_in by (unfold len; lia). rewrite Z.sub_0_r, Nat2Z.id. rewrite <- (firstn_skipn 20 f) at 1. apply app_nth1. rewrite firstn_length. lia. }
  destruct dst as [|d0 [|d1 [|d2 [|d3 [|d4 [|d5 [|? ?]]]]]]]; try discriminate Hd. destruct src as [|s0 [|s1 [|s2 [|s3 [|s4 [|s5 [|? ?]]]]]]]; try discriminate Hs.
  split; [|split].
  - apply half_le16; [exact Hp|exact (G 16%nat ltac:(lia))|exact (G 17%nat ltac:(lia))].
  - apply half_le16; [lia|exact (G 18%nat ltac:(lia))|exact (G 19%nat ltac:(lia))].
  - intros i Hi. rewrite fill_in by (unfold len, DATA_OFF in *; lia). rewrite <- H2. unfold DATA_OFF. rewrite Z.sub_0_r.
    assert (N : forall j, (j < length c)%nat -> nth j (firstn (length c) (skipn 22 f)) 0 = nth (22 + j) f 0).
    { intros j Hj. transitivity (nth j (skipn 22 f) 0).
      - rewrite <- (firstn_skipn (length c) (skipn 22 f)) at 2. symmetry. apply app_nth1. rewrite firstn_length, skipn_length. unfold len in *. lia.
      - rewrite <- (firstn_skipn 22 f) at 2. rewrite app_nth2 by (rewrite firstn_length; lia). f_equal. rewrite firstn_length. lia. }
    rewrite N by (unfold len in *; lia). f_equal. lia.
Qed.

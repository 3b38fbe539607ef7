(** The whole driver: rtl8029_write, rtl8029_poll and histories. *)
From Verif Require Import Model.Base Spec.Ne2000 Spec.NetSpec Model.Rtl8029 Proof.Tac Proof.NicProof Proof.RtlWriteProof Proof.RtlReadProof.

(** ** Sending *)
Lemma head_bytes : forall p src port dest, length src = 6%nat ->
  bytes (fill (fill (fill (fill (fill p 6 src) 0 broadcast) 12 [0x42; 0x42]) SRC_OFF (le16 port)) DST_OFF (le16 dest)) 18 = head_of broadcast src port dest.
Proof. intros p src port dest H. destruct src as [|s0 [|s1 [|s2 [|s3 [|s4 [|s5 [|? ?]]]]]]]; try discriminate H. reflexivity. Qed.
Lemma write_to_ok : forall dests port msg m p n, idle n -> length m = 6%nat -> octets m -> (forall a, octet (p a)) -> octets msg ->
  exists p' n' fss, write_to port dests msg m p n = Some (p', n') /\ quiet n n' /\ wire n' = wire n ++ concat fss /\ Forall2 (to_dest m port msg) dests fss /\ (forall a, octet (p' a)).
Proof.
  induction dests as [|[dest|] r IH]; intros port msg m p n Hi Hl Hm Hp Hg; cbn [write_to].
  - exists p, n, []. cbn [concat]. rewrite app_nil_r. repeat split; try assumption; try apply Hi; [constructor|apply Hp|apply Hp].
  - set (p1 := fill (fill (fill (fill (fill p 6 m) 0 broadcast) 12 [0x42; 0x42]) SRC_OFF (le16 port)) DST_OFF (le16 dest)).
    assert (H1 : bytes p1 18 = head_of broadcast m port dest) by (apply head_bytes; exact Hl).
    assert (O1 : forall a, octet (p1 a)).
    { unfold p1. repeat apply fill_octet; try assumption; try apply le16_octets; intros v Hv; cbn in Hv; unfold octet; intuition lia. }
    clearbody p1. destruct (pieces_ok (length msg) msg p1 n broadcast m port dest) as (p2 & n2 & fs & cs & E & Q & W & C & Ne & F & O2); try assumption; try reflexivity. rewrite E.
    destruct (IH port msg m p2 n2 (proj1 Q) Hl Hm O2 Hg) as (p' & n' & fss & E' & Q' & W' & F' & O'). exists p', n', (fs :: fss). split; [exact E'|].
    split; [eapply quiet_trans; eassumption|]. split; [rewrite W', W; cbn [concat]; rewrite app_assoc; reflexivity|]. split; [constructor; [exists cs; repeat split; assumption|exact F']|exact O'].
  - destruct (IH port msg m p n Hi Hl Hm Hp Hg) as (p' & n' & fss & E' & Q' & W' & F' & O'). exists p', n', ([] :: fss). repeat split; try assumption; try apply Q'; try apply O'.
    constructor; [reflexivity|exact F'].
Qed.

(** ** One turn of the loop *)
Definition stored (n : nic) (s : Z) (f : list Z) (nxt : Z) : Prop :=
  forall i, 0 <= i < 4 + len f -> ram n (s * 256 + i) = nth (Z.to_nat i) ([1; nxt] ++ le16 (len f + 4) ++ f) 0.
Definition good (C : conf) := fine (nb_global C) (nb_queues C) (g2l C).
Definition boxes (C : conf) (d : drv) (b : Z -> list Z) : Prop := forall i, 0 <= i < nb_queues C -> mailbox (buf_sz C) (qs d i) (b i).

Lemma enqueue_ok : forall C d f w b n, 0 < buf_sz C -> good C f w -> boxes C d b ->
  exists d', enqueue C (set_packet (fill (packet d) 0 f) (set_card n d)) = Some d' /\ card d' = n /\ mac d' = mac d /\ packet d' = fill (packet d) 0 f /\ boxes C d' (deliver (buf_sz C) (g2l C) b w).
Proof.
  intros C d f [port m] b n HB ((dst & src & sport & Hd & Hs & Hf) & Hp & Hg & Hq & _ & _) Hb. cbn [fst snd] in *.
  destruct (frame_packet f dst src sport port m (packet d) Hd Hs Hp Hf) as (E1 & E2 & E3). unfold enqueue, set_packet, set_card. cbn [packet card qs msg_nb mac]. rewrite E1, E2.
  destruct (Z.ltb_spec port (nb_global C)); [|lia]. destruct (Z.ltb_spec (g2l C port) (nb_queues C)); [|lia]. cbn [negb].
  pose proof (Hb _ Hq) as M. pose proof (mb_len _ _ _ M) as ML. rewrite ML. unfold deliver, arrive. cbn [fst snd].
  destruct (Z.ltb_spec (buf_sz C) (len (b (g2l C port)) + len m)) as [G|G].
  - eexists. split; [reflexivity|]. cbn [card mac packet]. split; [reflexivity|]. split; [reflexivity|]. split; [reflexivity|]. intros i Hi. cbn [qs].
    destruct (Z.leb_spec (len (b (g2l C port)) + len m) (buf_sz C)); [lia|].
    destruct (Z.eq_dec i (g2l C port)) as [-> |N]; [rewrite upd_same|rewrite upd_other by exact N]; apply Hb; exact Hi.
  - eexists. split; [reflexivity|]. cbn [card mac packet]. split; [reflexivity|]. split; [reflexivity|]. split; [reflexivity|]. intros i Hi. cbn [qs].
    destruct (Z.leb_spec (len (b (g2l C port)) + len m) (buf_sz C)); [|lia].
    destruct (Z.eq_dec i (g2l C port)) as [-> |N]; [rewrite !upd_same|rewrite !upd_other by exact N; apply Hb; exact Hi].
    rewrite <- ML. apply enqueue_box; try assumption.
Qed.

Lemma take_ok : forall C d s f w nxt b, 0 < buf_sz C -> idle (card d) -> 72 <= s < 128 -> 72 <= nxt <= 127 -> stored (card d) s f nxt -> good C f w -> boxes C d b ->
  exists d' n1, take C s d = Some d' /\ keeps (card d) n1 /\ card d' = setr BNRY (nxt - 1) n1 /\ mac d' = mac d /\ packet d' = fill (packet d) 0 f /\
    boxes C d' (deliver (buf_sz C) (g2l C) b w).
Proof.
  intros C d s f w nxt b HB Hi Hs Hn St Hg Hb. pose proof (len_nonneg f) as Nf. assert (G5 : len f + 4 <= 256) by exact (proj1 (proj2 (proj2 (proj2 (proj2 Hg))))).
  unfold take. assert (Eo : u16 (Z.shiftl s 8) = s * 256). { rewrite Z.shiftl_mul_pow2 by lia. change (2 ^ 8) with 256. apply Z.mod_small. lia. }
  rewrite Eo. destruct (ne_read_ok 4 (s * 256) (card d) Hi ltac:(lia) ltac:(lia) ltac:(lia)) as (n1 & E1 & K1). rewrite E1.
  change (bytes (fun i => ram (card d) (s * 256 + i)) 4) with [ram (card d) (s * 256 + 0); ram (card d) (s * 256 + 1); ram (card d) (s * 256 + 2); ram (card d) (s * 256 + 3)].
  cbn [nth]. rewrite !St by lia. change (Z.to_nat 1) with 1%nat. change (Z.to_nat 2) with 2%nat. change (Z.to_nat 3) with 3%nat. unfold le16. cbn [nth app].
  cbv zeta. replace (u16 ((len f + 4) mod 256 + 256 * ((len f + 4) / 256 mod 256) - 4)) with (len f).
  2:{ unfold u16. assert (0 <= len f + 4 < 65536) as Hl by lia. generalize dependent (len f). clear. intros L. intros. lia. }
  destruct (Z.ltb_spec PACKET (len f)) as [X|_]; [unfold PACKET in X; lia|].
  assert (Eo4 : u16 (s * 256 + 4) = s * 256 + 4) by (apply Z.mod_small; lia). rewrite Eo4.
  destruct (ne_read_ok (len f) (s * 256 + 4) n1 (proj1 K1) ltac:(lia) ltac:(lia) ltac:(lia)) as (n2 & E2 & K2). rewrite E2.
  assert (Eb : bytes (fun i => ram n1 (s * 256 + 4 + i)) (len f) = f).
  { apply nth_ext with 0 0.
    - pose proof (bytes_len (fun i => ram n1 (s * 256 + 4 + i)) (len f) Nf) as L. unfold len in *. lia.
    - intros i Hi'. pose proof (bytes_len (fun i => ram n1 (s * 256 + 4 + i)) (len f) Nf) as L. unfold len in L at 1.
      replace i with (Z.to_nat (Z.of_nat i)) at 1 by lia. rewrite bytes_nth by lia. destruct K1 as (_ & _ & _ & M & _). rewrite M.
      replace (s * 256 + 4 + Z.of_nat i) with (s * 256 + (4 + Z.of_nat i)) by lia. rewrite St by lia.
      replace (Z.to_nat (4 + Z.of_nat i)) with (S (S (S (S i)))) by lia. reflexivity. }
  rewrite Eb. destruct (enqueue_ok C d f w b n2 HB Hg Hb) as (d' & E & Ec & Em & Ep & Bx). rewrite E, Ec.
  assert (K : keeps (card d) n2) by (eapply keeps_trans; eassumption).
  exists (set_card (setr BNRY (nxt - 1) n2) d'), n2. split; [|split; [exact K|]; split; [reflexivity|]; split; [exact Em|]; split; [exact Ep|exact Bx]].
  do 2 f_equal. destruct (Z.ltb_spec MEMSZ nxt) as [X|_]; [unfold MEMSZ in X; lia|].
  rewrite out3 by (apply page_cr; apply (proj1 K)). f_equal. apply Z.mod_small. lia.
Qed.

(** ** The ring *)
(** Page of the frame number [j - 1], counted from initialisation. *)
Definition pg (j : Z) : Z := 72 + j mod 56.
Lemma pg_range : forall j, 72 <= pg j < 128.
Proof. intros j. unfold pg. pose proof (Z.mod_pos_bound j 56 ltac:(lia)). lia. Qed.
Lemma pg_next : forall j, pg (j + 1) = if pg j =? 127 then 72 else pg j + 1.
Proof. intros j. unfold pg. destruct (Z.eqb_spec (72 + j mod 56) 127); lia. Qed.
Lemma pg_diff : forall i j, i < j < i + 56 -> (pg i - pg j) mod 56 = 56 + i - j.
Proof. intros i j H. unfold pg. lia. Qed.

Section Ring.
(** What was in the first page of the ring before. *)
Variable old : Z -> Z.

(** ** The invariant: [al] has all frames since initialisation, the last [k] of them wait. *)
Record inv (C : conf) (d : drv) (al : list (list Z)) (k : nat) (N : net) : Prop := {
  v_idle : idle (card d); v_k : (k <= length al)%nat; v_max : (k <= 55)%nat;
  v_bnry : rg (card d) BNRY = pg (1 + Z.of_nat (length al) - Z.of_nat k) - 1; v_curr : rg (card d) CURR = pg (1 + Z.of_nat (length al));
  v_good : Forall2 (good C) (skipn (length al - k) al) (waiting N); v_all : Forall (fun f => exists w, good C f w) al;
  v_stored : forall j, (j < length al)%nat -> Z.of_nat (length al) - 56 <= Z.of_nat j ->
    stored (card d) (pg (1 + Z.of_nat j)) (nth j al []) (pg (1 + Z.of_nat j + 1));
  v_box : boxes C d (box N); v_mac : length (mac d) = 6%nat /\ octets (mac d); v_packet : forall a, octet (packet d a);
  v_fresh : (length al <= 55)%nat -> forall a, 72 * 256 <= a < 73 * 256 -> ram (card d) a = old a }.
Lemma f2_len : forall {A B} {R : A -> B -> Prop} {l m}, Forall2 R l m -> length l = length m.
Proof. intros A B R l m H. induction H; cbn [length]; congruence. Qed.
Lemma skipn_nth : forall {A} (l : list A) i d, (i < length l)%nat -> skipn i l = nth i l d :: skipn (S i) l.
Proof. intros A. induction l as [|x l IH]; intros i d H; [cbn [length] in H; lia|]. destruct i; [reflexivity|]. cbn [nth]. rewrite !skipn_cons. apply IH. cbn [length] in H. lia. Qed.

Lemma poll_loop_ok : forall C k fuel d al N, 0 < buf_sz C -> inv C d al k N -> (1 <= k <= fuel)%nat -> (1 + Z.of_nat (length al)) mod 56 <> 0 ->
  exists d', poll_loop C fuel d = Done d' /\ inv C d' al 1 (snd (step (buf_sz C) (g2l C) 1 N Poll)) /\ Z.testbit (rg (card d') ISR) 0 = false.
Proof.
  intros C. induction k as [|k IH]; intros fuel d al N HB V Hf Hm; [lia|]. destruct fuel as [|fuel]; [lia|].
  destruct V as [V1 V2 V3 V4 V5 V6 V7 V8 V9 V10 V11 V12]. cbn [poll_loop]. cbv zeta.
  rewrite in3 by (apply page_cr; apply V1). rewrite V4. set (T := Z.of_nat (length al)) in *.
  set (s := pg (1 + T - Z.of_nat (S k))). pose proof (pg_range (1 + T - Z.of_nat (S k))) as Rs. fold s in Rs.
  assert (Es : u8 (s - 1 + 1) = s) by (unfold u8; rewrite Z.mod_small; lia). rewrite Es.
  destruct (select1 (card d) V1) as [E1 K1]. rewrite E1, V5. set (n1 := select 0 (select 1 (card d))) in *. clearbody n1.
  pose proof (pg_range (1 + T)) as Rt. rewrite !Z.mod_small by (unfold MEMSZ; lia).
  destruct K1 as (I1 & R1 & T1 & M1 & W1 & P1).
  assert (V6' : Forall2 (good C) (nth (length al - S k) al [] :: skipn (length al - k) al) (waiting N)).
  { rewrite (skipn_nth al (length al - S k) []) in V6 by lia. replace (S (length al - S k)) with (length al - k)%nat in V6 by lia. exact V6. }
  destruct (Z.eqb_spec (pg (1 + T)) (s + 1)) as [Eq|Nq].
  - assert (k = O). { unfold s, pg in Eq. destruct k; [reflexivity|exfalso]. clear - Eq V3 Hm. lia. }
    subst k. destruct N as [wt bx]. cbn [waiting box] in *.
    assert (Lw : length wt = 1%nat) by (pose proof (f2_len V6') as X; cbn [length] in X; rewrite skipn_length in X; lia).
    eexists. split; [reflexivity|]. unfold set_card. cbn [card].
    rewrite out7 by (apply page_cr; apply I1). split; [|cbn [rg setr reg_eqb]; rewrite Z.ldiff_spec; change (Z.testbit (1 mod 256) 0) with true; apply andb_false_r].
    unfold step. cbn [waiting box snd]. rewrite Lw. change (1 - 1)%nat with O. rewrite firstn_O, skipn_O.
    constructor; cbn [card qs mac packet rg setr reg_eqb ram waiting box fold_left]; try assumption.
    + destruct I1 as [A1 A2 A3]. constructor; assumption.
    + rewrite R1 by (cbn; auto). exact V4.
    + rewrite R1 by (cbn; auto). exact V5.
    + intros j Hj Hj' i Hi'. cbn [ram setr]. rewrite M1. apply V8; assumption.
    + intros Hj a Ha. rewrite M1. apply V12; assumption.
  - assert (Hk : (1 <= k)%nat). { destruct k; [exfalso|lia]. apply Nq. unfold s. replace (1 + T - Z.of_nat 1) with T by lia. unfold pg. clear - Hm. lia. }
    destruct N as [wt bx]. cbn [waiting box] in *. set (f := nth (length al - S k) al []) in *.
    inversion V6' as [|? w ? wr Hg Hr]; subst.
    set (d1 := set_card n1 d).
    assert (En : pg (1 + T - Z.of_nat k) = pg (1 + Z.of_nat (length al - S k) + 1)) by (f_equal; unfold T; lia).
    assert (St : stored (card d1) s f (pg (1 + T - Z.of_nat k))).
    { intros i Hi'. unfold d1, set_card. cbn [card]. rewrite M1, En. pose proof (V8 (length al - S k)%nat ltac:(lia) ltac:(lia)) as X.
      replace (pg (1 + Z.of_nat (length al - S k))) with s in X by (unfold s; f_equal; unfold T; lia). apply X. exact Hi'. }
    destruct (take_ok C d1 s f w (pg (1 + T - Z.of_nat k)) bx HB I1 Rs ltac:(pose proof (pg_range (1 + T - Z.of_nat k)); lia) St Hg V9) as (d' & n2 & E & (I2 & R2 & T2 & M2 & W2 & P2) & Ec & Em & Ep & Bx).
    rewrite E.
    assert (V' : inv C d' al k (mkNet wr (deliver (buf_sz C) (g2l C) bx w))).
    { constructor; cbn [waiting box]; try rewrite Ec; cbn [rg setr reg_eqb]; try assumption; try lia.
      - destruct I2 as [A1 A2 A3]. constructor; assumption.
      - reflexivity.
      - rewrite R2 by (cbn; auto). unfold d1, set_card. cbn [card]. rewrite R1 by (cbn; auto). exact V5.
      - intros j Hj Hj' i Hi'. cbn [ram setr]. rewrite M2. unfold d1, set_card. cbn [card]. rewrite M1. apply V8; assumption.
      - rewrite Em. exact V10.
      - intros a. rewrite Ep. apply fill_octet; [exact V11|]. exact (proj2 (proj2 (proj2 (proj2 (proj2 Hg))))).
      - intros Hj a Ha. cbn [ram setr]. rewrite M2. unfold d1, set_card. cbn [card]. rewrite M1. apply V12; assumption. }
    destruct (IH fuel d' al _ HB V' ltac:(lia) Hm) as (d2 & E2 & V2' & T').
    exists d2. split; [exact E2|]. split; [|exact T'].
    unfold step in *. cbn [waiting box snd] in *. assert (Lw : length wr = k) by (pose proof (f2_len Hr) as X; rewrite skipn_length in X; lia).
    cbn [length]. rewrite Lw in *. replace (S k - 1)%nat with (S (k - 1)) by lia. exact V2'.
Qed.

(** PRX is set when frames wait that poll can deliver. *)
Definition prx (d : drv) (k : nat) : Prop :=
  (Z.testbit (rg (card d) ISR) 0 = true -> (1 <= k)%nat) /\ (Z.testbit (rg (card d) ISR) 0 = false -> (k <= 1)%nat).

Lemma receive_ok : forall C d al k N f port m, inv C d al k N -> good C f (port, m) -> (k <= 54)%nat ->
  inv C (set_card (receive f (card d)) d) (al ++ [f]) (S k) (mkNet (waiting N ++ [(port, m)]) (box N)) /\ Z.testbit (rg (receive f (card d)) ISR) 0 = true.
Proof.
  intros C d al k N f port m [V1 V2 V3 V4 V5 V6 V7 V8 V9 V10 V11 V12] Hg Hh. pose proof V1 as [I1 I2 I3].
  assert (G5 : len f + 4 <= 256) by exact (proj1 (proj2 (proj2 (proj2 (proj2 Hg))))). pose proof (len_nonneg f) as Nf.
  assert (Ep : pages f = 1) by (unfold pages; generalize dependent (len f); clear; intros; lia).
  set (T := Z.of_nat (length al)) in *. pose proof (pg_range (1 + T)) as Rt.
  assert (En : next_page f (card d) = pg (1 + T + 1)).
  { unfold next_page. cbv zeta. rewrite Ep, V5, I2, I3, pg_next. destruct (Z.eqb_spec (pg (1 + T)) 127); destruct (Z.leb_spec 128 (pg (1 + T) + 1)); lia. }
  assert (R : room f (card d) = true).
  { unfold room, ring. rewrite Ep, V4, V5, I2, I3. apply Z.leb_le. unfold pg. clear - Hh. lia. }
  assert (Ec : receive f (card d) = setr CURR (pg (1 + T + 1)) (setr ISR (Z.lor (rg (card d) ISR) 1) (set_ram (store (pg (1 + T)) (header f (card d) ++ f) (card d)) (card d)))).
  { unfold receive. rewrite R, En, V5. reflexivity. }
  assert (LT : Z.of_nat (length (al ++ [f])) = T + 1) by (rewrite app_length; cbn [length]; unfold T; lia).
  rewrite Ec. unfold set_card. split.
  - constructor; cbn [card qs mac packet rg setr set_ram reg_eqb waiting box]; rewrite ?LT; try assumption; try lia.
    + constructor; assumption.
    + rewrite V4. f_equal. f_equal. lia.
    + f_equal. lia.
    + rewrite app_length. cbn [length]. replace (length al + 1 - S k)%nat with (length al - k)%nat by lia. rewrite skipn_app. replace (length al - k - length al)%nat with O by lia. rewrite skipn_O.
      apply Forall2_app; [exact V6|]. constructor; [exact Hg|constructor].
    + apply Forall_app. split; [exact V7|]. constructor; [exists (port, m); exact Hg|constructor].
    + intros j Hj Hj' i Hi. rewrite app_length in Hj. cbn [length] in Hj. cbn [ram setr set_ram]. unfold store, ring. rewrite I2, I3. cbv zeta.
      pose proof (pg_range (1 + Z.of_nat j)) as Rj.
      replace (len (header f (card d) ++ f)) with (4 + len f) by (rewrite len_app; reflexivity).
      destruct (Nat.eq_dec j (length al)) as [-> |Nk].
      * assert (Ef : nth (length al) (al ++ [f]) [] = f) by (rewrite app_nth2 by lia; rewrite Nat.sub_diag; reflexivity). rewrite Ef in *. fold T in Rj |- *.
        replace (pg (1 + T) * 256 + i - pg (1 + T) * 256) with i by lia.
        rewrite (Z.mod_small i) by lia.
        destruct (Z.leb_spec (72 * 256) (pg (1 + T) * 256 + i)); [|lia]. destruct (Z.ltb_spec (pg (1 + T) * 256 + i) (128 * 256)); [|lia].
        destruct (Z.ltb_spec i (4 + len f)); [|lia]. cbn [andb]. unfold header. rewrite En. rewrite <- app_assoc. reflexivity.
      * assert (Ef : nth j (al ++ [f]) [] = nth j al []) by (apply app_nth1; lia). rewrite Ef in *.
        assert (Lk : len (nth j al []) + 4 <= 256).
        { rewrite Forall_forall in V7. destruct (V7 (nth j al [])) as (w & Hw); [apply nth_In; lia|]. exact (proj1 (proj2 (proj2 (proj2 (proj2 Hw))))). }
        pose proof (len_nonneg (nth j al [])). pose proof (pg_diff (1 + Z.of_nat j) (1 + T) ltac:(unfold T; lia)) as Df.
        set (x := pg (1 + Z.of_nat j)) in *. set (y := pg (1 + T)) in *.
        assert (Di : ((x * 256 + i - y * 256) mod ((128 - 72) * 256)) = (56 + (1 + Z.of_nat j) - (1 + T)) * 256 + i).
        { symmetry. apply Z.mod_unique with ((x - y) / 56); [left; unfold T in *; lia|]. pose proof (Z.div_mod (x - y) 56 ltac:(lia)). lia. }
        rewrite Di. destruct (Z.ltb_spec ((56 + (1 + Z.of_nat j) - (1 + T)) * 256 + i) (4 + len f)) as [X|_]; [unfold T in *; lia|]. rewrite andb_false_r. apply V8; [lia|unfold T in *; lia|exact Hi].
    + intros Hj a Ha. cbn [ram setr set_ram]. unfold store, ring. rewrite I2, I3. cbv zeta. replace (len (header f (card d) ++ f)) with (4 + len f) by (rewrite len_app; reflexivity).
      assert (Rp : pg (1 + T) = 73 + T) by (unfold pg; rewrite Z.mod_small; unfold T; lia).
      rewrite Rp. replace ((a - (73 + T) * 256) mod ((128 - 72) * 256)) with (a - (73 + T) * 256 + 56 * 256) by (apply Z.mod_unique with (-1); unfold T in *; lia).
      destruct (Z.ltb_spec (a - (73 + T) * 256 + 56 * 256) (4 + len f)) as [X|_]; [unfold T in *; lia|]. rewrite andb_false_r. apply V12; [unfold T in *; lia|exact Ha].
  - cbn [rg setr reg_eqb]; rewrite Z.lor_spec. apply orb_true_r.
Qed.

Lemma poll_ok : forall C d al k N fuel, 0 < buf_sz C -> inv C d al k N -> prx d k -> (k <= fuel)%nat -> (1 + Z.of_nat (length al)) mod 56 <> 0 ->
  exists d', poll C fuel d = Done d' /\ inv C d' al (Nat.min k 1) (snd (step (buf_sz C) (g2l C) 1 N Poll)) /\ prx d' (Nat.min k 1).
Proof.
  intros C d al k N fuel HB V P Hf Hm. unfold poll. cbv zeta. pose proof (select0 (card d) (v_idle _ _ _ _ _ V)) as (I1 & R1 & T1 & M1 & W1 & P1).
  set (n1 := select 0 (card d)) in *. clearbody n1. unfold set_card at 1. cbn [card]. rewrite in7 by (apply page_cr; apply I1). rewrite T1.
  assert (V' : inv C (set_card n1 d) al k N).
  { destruct V as [V1 V2 V3 V4 V5 V6 V7 V8 V9 V10 V11 V12]. constructor; unfold set_card; cbn [card qs mac packet]; try assumption; try (rewrite R1 by (cbn; auto); assumption).
    - intros j Hj Hj' i Hi. cbn [card]. rewrite M1. apply V8; assumption.
    - intros Hj a Ha. rewrite M1. apply V12; assumption. }
  destruct P as [Pt Pf]. destruct (Z.testbit (rg (card d) ISR) 0) eqn:Et; cbn [negb].
  - specialize (Pt eq_refl). destruct (poll_loop_ok C k fuel (set_card n1 d) al N HB V' ltac:(lia) Hm) as (d' & E & Vl & T). rewrite E.
    exists (set_card (outb 7 1 (card d')) d'). split; [reflexivity|]. replace (Nat.min k 1) with 1%nat by lia. destruct Vl as [V1 V2 V3 V4 V5 V6 V7 V8 V9 V10 V11 V12].
    rewrite out7 by (apply page_cr; apply V1). split.
    + constructor; unfold set_card; cbn [card qs mac packet rg setr reg_eqb]; try assumption. destruct V1 as [A1 A2 A3]. constructor; assumption.
    + split; intros H; lia.
  - specialize (Pf eq_refl). exists (set_card n1 d). split; [reflexivity|]. replace (Nat.min k 1) with k by lia.
    assert (L : length (waiting N) = k) by (rewrite <- (f2_len (v_good _ _ _ _ _ V)); rewrite skipn_length; pose proof (v_k _ _ _ _ _ V); lia).
    split.
    + unfold step. cbn [snd]. replace (length (waiting N) - 1)%nat with O by lia. rewrite firstn_O, skipn_O. destruct N as [wt bx]. exact V'.
    + split; unfold set_card; cbn [card]; rewrite T1; intros H; [congruence|exact Pf].
Qed.

Lemma read_ok : forall C d al k N p ln, 0 < buf_sz C -> inv C d al k N -> prx d k -> 0 <= p < nb_queues C -> 0 <= ln ->
  exists d', read C p ln d = Some (firstn (Z.to_nat ln) (box N p), d') /\ inv C d' al k (snd (step (buf_sz C) (g2l C) 1 N (Read p ln))) /\ prx d' k.
Proof.
  intros C d al k N p ln HB V P Hp Hl. pose proof (v_box _ _ _ _ _ V p Hp) as M. pose proof (len_nonneg (box N p)) as Nb.
  unfold read. destruct (Z.ltb_spec p (nb_queues C)); [|lia]. cbn [negb]. cbv zeta. rewrite (mb_len _ _ _ M).
  set (size := if ln <? len (box N p) then ln else len (box N p)).
  assert (Hs : 0 <= size <= len (box N p)) by (unfold size; destruct (Z.ltb_spec ln (len (box N p))); lia).
  assert (E1 : firstn (Z.to_nat size) (box N p) = firstn (Z.to_nat ln) (box N p) /\ skipn (Z.to_nat size) (box N p) = skipn (Z.to_nat ln) (box N p)).
  { unfold size. destruct (Z.ltb_spec ln (len (box N p))) as [_|G]; [split; reflexivity|]. unfold len in *. rewrite Nat2Z.id.
    rewrite !firstn_all2, !skipn_all2 by lia. split; reflexivity. }
  clearbody size. destruct E1 as [E1 E2].
  destruct (read_box (buf_sz C) (qs d p) (box N p) size HB M Hs) as [RB1 RB2]. rewrite (mb_len _ _ _ M) in RB2. rewrite E2 in RB2. rewrite E1 in RB1.
  assert (Q : forall d', card d' = card d -> mac d' = mac d -> packet d' = packet d -> mailbox (buf_sz C) (qs d' p) (skipn (Z.to_nat ln) (box N p)) -> (forall i, i <> p -> qs d' i = qs d i) ->
    inv C d' al k (snd (step (buf_sz C) (g2l C) 1 N (Read p ln))) /\ prx d' k).
  { intros d' Ec Em Ep Hm Ho. split; [|unfold prx; rewrite Ec; exact P]. destruct V as [V1 V2 V3 V4 V5 V6 V7 V8 V9 V10 V11 V12].
    constructor; try rewrite Ec; try rewrite Em; try rewrite Ep; try assumption.
    intros i Hi. unfold step. cbn [snd box]. destruct (Z.eq_dec i p) as [-> |Ni]; [rewrite upd_same; exact Hm|]. rewrite upd_other by exact Ni. rewrite Ho by exact Ni. apply V9. exact Hi. }
  destruct (Z.eqb_spec (len (box N p)) 0) as [Z0'|_].
  - assert (B0 : box N p = []) by (unfold len in Z0'; destruct (box N p); [reflexivity|cbn [length] in Z0'; lia]). rewrite B0 in *. rewrite firstn_nil, skipn_nil in *.
    exists d. split; [reflexivity|]. apply Q; try reflexivity. exact M.
  - eexists. split; [rewrite RB1; reflexivity|]. apply Q; try reflexivity; cbn [qs]; [rewrite upd_same; exact RB2|intros i Ni; apply upd_other; exact Ni].
Qed.

Lemma write_inv : forall C d al k N port dests msg, inv C d al k N -> prx d k -> octets msg -> exists d', write port dests msg d = Some d' /\ inv C d' al k N /\ prx d' k.
Proof.
  intros C d al k N port dests msg V P Hm. destruct V as [V1 V2 V3 V4 V5 V6 V7 V8 V9 [V10 V10'] V11 V12].
  destruct (write_to_ok dests port msg (mac d) (packet d) (card d) V1 V10 V10' V11 Hm) as (p' & n' & fss & E & (I & Pa & R & T & M) & W & F & O).
  exists (set_packet p' (set_card n' d)). split; [unfold write; rewrite E; reflexivity|]. split.
  - constructor; unfold set_packet, set_card; cbn [card qs mac packet]; try assumption; try (rewrite R by (cbn; auto); assumption); [|split; assumption|].
    + intros j Hj Hj' i Hi. cbn [card]. pose proof (pg_range (1 + Z.of_nat j)). rewrite M by lia. apply V8; assumption.
    + intros Hj a Ha. rewrite M by lia. apply V12; assumption.
  - unfold prx, set_packet, set_card. cbn [card]. rewrite T. exact P.
Qed.

(** ** A poll that does not end *)
Lemma endless : forall C fuel d p (F : Z -> list Z) b, 0 < buf_sz C -> idle (card d) -> rg (card d) CURR = 72 -> 72 <= p < 128 -> rg (card d) BNRY = p - 1 ->
  (forall x, 72 <= x < 128 -> stored (card d) x (F x) (if x =? 127 then 72 else x + 1) /\ exists w, good C (F x) w) -> boxes C d b ->
  exists d', poll_loop C fuel d = More d'.
Proof.
  intros C. induction fuel as [|fuel IH]; intros d p F b HB Hi Hc Hp Hb HF Bx; [exists d; reflexivity|]. cbn [poll_loop]. cbv zeta.
  rewrite in3 by (apply page_cr; apply Hi). rewrite Hb. assert (Es : u8 (p - 1 + 1) = p) by (unfold u8; rewrite Z.mod_small; lia). rewrite Es.
  destruct (select1 (card d) Hi) as [E1 K1]. rewrite E1, Hc. set (n1 := select 0 (select 1 (card d))) in *. clearbody n1.
  destruct K1 as (I1 & R1 & T1 & M1 & W1 & P1). rewrite (Z.mod_small p) by (unfold MEMSZ; lia). change (72 mod MEMSZ) with 72.
  destruct (Z.eqb_spec 72 (p + 1)) as [X|_]; [lia|]. destruct (HF p Hp) as (St & w & Hw).
  set (d1 := set_card n1 d).
  assert (St1 : stored (card d1) p (F p) (if p =? 127 then 72 else p + 1)) by (intros i Hi'; unfold d1, set_card; cbn [card]; rewrite M1; apply St; exact Hi').
  destruct (take_ok C d1 p (F p) w (if p =? 127 then 72 else p + 1) b HB I1 Hp ltac:(destruct (Z.eqb_spec p 127); lia) St1 Hw Bx) as (d' & n2 & E & (I2 & R2 & T2 & M2 & W2 & P2) & Ec & Em & Ep & Bx').
  rewrite E. apply IH with (p := if p =? 127 then 72 else p + 1) (F := F) (b := deliver (buf_sz C) (g2l C) b w); try assumption; try rewrite Ec.
  - destruct I2 as [A1 A2 A3]. constructor; assumption.
  - cbn [rg setr reg_eqb]. rewrite R2 by (cbn; auto). unfold d1, set_card. cbn [card]. rewrite R1 by (cbn; auto). exact Hc.
  - destruct (Z.eqb_spec p 127); lia.
  - reflexivity.
  - intros x Hx. destruct (HF x Hx) as [S1 S2]. split; [|exact S2]. intros i Hi'. cbn [ram setr]. rewrite M2. unfold d1, set_card. cbn [card]. rewrite M1. apply S1. exact Hi'.
Qed.
Lemma poll_endless : forall C d al k N fuel, 0 < buf_sz C -> inv C d al k N -> Z.testbit (rg (card d) ISR) 0 = true -> (56 <= length al)%nat -> (1 + Z.of_nat (length al)) mod 56 = 0 ->
  exists d', poll C fuel d = More d'.
Proof.
  intros C d al k N fuel HB V P Ha Hm. unfold poll. cbv zeta. pose proof (select0 (card d) (v_idle _ _ _ _ _ V)) as (I1 & R1 & T1 & M1 & W1 & P1).
  set (n1 := select 0 (card d)) in *. clearbody n1. unfold set_card at 1. cbn [card]. rewrite in7 by (apply page_cr; apply I1). rewrite T1, P. cbn [negb].
  destruct V as [V1 V2 V3 V4 V5 V6 V7 V8 V9 V10 V11 V12]. set (T := Z.of_nat (length al)) in *.
  set (J := fun x => T - 56 + (x - 72)).
  assert (PJ : forall x, 72 <= x < 128 -> pg (1 + J x) = x /\ 0 <= J x < T /\ T - 56 <= J x) by (intros x Hx; unfold J, pg; split; [|unfold T; lia]; clear - Hm Hx; lia).
  destruct (endless C fuel (set_card n1 d) (pg (1 + T - Z.of_nat k)) (fun x => nth (Z.to_nat (J x)) al []) (box N) HB) as (d' & E); try (unfold set_card; cbn [card]; assumption).
  - unfold set_card. cbn [card]. rewrite R1 by (cbn; auto). rewrite V5. unfold pg. rewrite Hm. reflexivity.
  - apply pg_range.
  - unfold set_card. cbn [card]. rewrite R1 by (cbn; auto). exact V4.
  - intros x Hx. destruct (PJ x Hx) as (A & B1 & B2). split.
    + intros i Hi. unfold set_card. cbn [card]. rewrite M1. pose proof (V8 (Z.to_nat (J x)) ltac:(unfold T in *; lia) ltac:(lia)) as X. rewrite Z2Nat.id in X by lia. rewrite A in X.
      rewrite pg_next, A in X. apply X. exact Hi.
    + rewrite Forall_forall in V7. apply V7. apply nth_In. unfold T in *. lia.
  - rewrite E. exists d'. reflexivity.
Qed.

(** ** A poll that goes on behind the last page *)
Lemma wrap_loop : forall C k fuel d al N, 0 < buf_sz C -> inv C d al k N -> (k < fuel)%nat -> length al = 55%nat -> PACKET < u16 (old (72 * 256 + 2) + 256 * old (72 * 256 + 3) - 4) ->
  poll_loop C fuel d = Fault.
Proof.
  intros C. induction k as [|k IH]; intros fuel d al N HB V Hf Hl Ho; (destruct fuel as [|fuel]; [lia|]);
    destruct V as [V1 V2 V3 V4 V5 V6 V7 V8 V9 V10 V11 V12]; cbn [poll_loop]; cbv zeta; rewrite in3 by (apply page_cr; apply V1); rewrite V4;
    destruct (select1 (card d) V1) as [E1 K1]; rewrite E1, V5, Hl; set (n1 := select 0 (select 1 (card d))) in *; clearbody n1;
    destruct K1 as (I1 & R1 & T1 & M1 & W1 & P1).
  - change (pg (1 + Z.of_nat 55)) with 72. change (1 + Z.of_nat 55 - Z.of_nat 0) with 56. change (pg 56) with 72. change (u8 (72 - 1 + 1)) with 72. change (72 mod MEMSZ =? 72 mod MEMSZ + 1) with false.
    cbn iota. unfold take. cbv zeta. unfold set_card at 1. cbn [card]. change (u16 (Z.shiftl 72 8)) with (72 * 256).
    destruct (ne_read_ok 4 (72 * 256) n1 I1 ltac:(lia) ltac:(lia) ltac:(lia)) as (n2 & E2 & K2). rewrite E2.
    change (bytes (fun i => ram n1 (72 * 256 + i)) 4) with [ram n1 (72 * 256 + 0); ram n1 (72 * 256 + 1); ram n1 (72 * 256 + 2); ram n1 (72 * 256 + 3)]. cbn [nth]. rewrite M1.
    rewrite !V12 by lia. destruct (Z.ltb_spec PACKET (u16 (old (72 * 256 + 2) + 256 * old (72 * 256 + 3) - 4))); [reflexivity|lia].
  - set (s := pg (1 + Z.of_nat 55 - Z.of_nat (S k))). pose proof (pg_range (1 + Z.of_nat 55 - Z.of_nat (S k))) as Rs. fold s in Rs.
    assert (Es : u8 (s - 1 + 1) = s) by (unfold u8; rewrite Z.mod_small; lia). rewrite Es. change (pg (1 + Z.of_nat 55)) with 72. rewrite !Z.mod_small by (unfold MEMSZ; lia).
    destruct (Z.eqb_spec 72 (s + 1)) as [X|_]; [lia|].
    assert (V6' : Forall2 (good C) (nth (length al - S k) al [] :: skipn (length al - k) al) (waiting N)).
    { rewrite (skipn_nth al (length al - S k) []) in V6 by lia. replace (S (length al - S k)) with (length al - k)%nat in V6 by lia. exact V6. }
    destruct N as [wt bx]. cbn [waiting box] in *. set (f := nth (length al - S k) al []) in *. inversion V6' as [|? w ? wr Hg Hr]; subst. set (d1 := set_card n1 d).
    assert (St : stored (card d1) s f (pg (1 + Z.of_nat 55 - Z.of_nat k))).
    { intros i Hi'. unfold d1, set_card. cbn [card]. rewrite M1. pose proof (V8 (length al - S k)%nat ltac:(lia) ltac:(lia)) as X.
      replace (pg (1 + Z.of_nat (length al - S k))) with s in X by (unfold s; f_equal; lia). replace (pg (1 + Z.of_nat (length al - S k) + 1)) with (pg (1 + Z.of_nat 55 - Z.of_nat k)) in X by (f_equal; lia). apply X. exact Hi'. }
    destruct (take_ok C d1 s f w (pg (1 + Z.of_nat 55 - Z.of_nat k)) bx HB I1 Rs ltac:(pose proof (pg_range (1 + Z.of_nat 55 - Z.of_nat k)); lia) St Hg V9) as (d' & n2 & E & (I2 & R2 & T2 & M2 & W2 & P2) & Ec & Em & Ep & Bx).
    rewrite E. apply (IH fuel d' al (mkNet wr (deliver (buf_sz C) (g2l C) bx w)) HB); [|lia|exact Hl|exact Ho].
    constructor; cbn [waiting box]; try rewrite Ec; cbn [rg setr reg_eqb]; try assumption; try lia.
    + destruct I2 as [A1 A2 A3]. constructor; assumption.
    + rewrite Hl. reflexivity.
    + rewrite R2 by (cbn; auto). unfold d1, set_card. cbn [card]. rewrite R1 by (cbn; auto). exact V5.
    + intros j Hj Hj' i Hi'. cbn [ram setr]. rewrite M2. unfold d1, set_card. cbn [card]. rewrite M1. apply V8; assumption.
    + rewrite Em. exact V10.
    + intros a. rewrite Ep. apply fill_octet; [exact V11|]. exact (proj2 (proj2 (proj2 (proj2 (proj2 Hg))))).
    + intros Hj a Ha. cbn [ram setr]. rewrite M2. unfold d1, set_card. cbn [card]. rewrite M1. apply V12; assumption.
Qed.
Lemma poll_wrap : forall C d al k N fuel, 0 < buf_sz C -> inv C d al k N -> Z.testbit (rg (card d) ISR) 0 = true -> length al = 55%nat -> (55 < fuel)%nat ->
  PACKET < u16 (old (72 * 256 + 2) + 256 * old (72 * 256 + 3) - 4) -> poll C fuel d = Fault.
Proof.
  intros C d al k N fuel HB V P Ha Hf Ho. unfold poll. cbv zeta. pose proof (select0 (card d) (v_idle _ _ _ _ _ V)) as (I1 & R1 & T1 & M1 & W1 & P1).
  set (n1 := select 0 (card d)) in *. clearbody n1. unfold set_card at 1. cbn [card]. rewrite in7 by (apply page_cr; apply I1). rewrite T1, P. cbn [negb].
  rewrite (wrap_loop C k fuel (set_card n1 d) al N HB); [reflexivity| |pose proof (v_max _ _ _ _ _ V); lia|exact Ha|exact Ho].
  destruct V as [V1 V2 V3 V4 V5 V6 V7 V8 V9 V10 V11 V12]. constructor; unfold set_card; cbn [card qs mac packet]; try assumption; try (rewrite R1 by (cbn; auto); assumption).
  - intros j Hj Hj' i Hi. cbn [card]. rewrite M1. apply V8; assumption.
  - intros Hj a Hb. rewrite M1. apply V12; assumption.
Qed.

(** ** Histories *)
Definition fair (C : conf) (e : event) : Prop :=
  match e with Frame f port m => good C f (port, m) | Poll => True | Read p ln => 0 <= p < nb_queues C /\ 0 <= ln | Send _ _ m => octets m end.

Lemma run_ok : forall C fuel l d al k N, 0 < buf_sz C -> (55 <= fuel)%nat -> inv C d al k N -> prx d k -> Forall (fair C) l -> calm (length al) k l = true ->
  exists d' al' k', run C fuel d l = Some (fst (history (buf_sz C) (g2l C) 1 N l), d') /\ inv C d' al' k' (snd (history (buf_sz C) (g2l C) 1 N l)) /\ prx d' k' /\
    length al' = (length al + arrivals l)%nat /\ (last l Poll <> Poll -> l <> [] -> match last l Poll with Frame _ _ _ => Z.testbit (rg (card d') ISR) 0 = true | _ => True end).
Proof.
  intros C fuel. induction l as [|e l IH]; intros d al k N HB Hu V P Hf Hs.
  { exists d, al, k. split; [reflexivity|]. split; [exact V|]. split; [exact P|]. split; [cbn; lia|]. intros _ H. congruence. }
  inversion Hf as [|? ? He Hl]; subst. cbn [run history].
  assert (K : exists d1 al1 k1, exec C fuel d e = Some (fst (step (buf_sz C) (g2l C) 1 N e), d1) /\ inv C d1 al1 k1 (snd (step (buf_sz C) (g2l C) 1 N e)) /\ prx d1 k1 /\
    calm (length al1) k1 l = true /\ (length al1 + arrivals l = length al + arrivals (e :: l))%nat /\ match e with Frame _ _ _ => Z.testbit (rg (card d1) ISR) 0 = true | _ => True end).
  { destruct e as [f port m| |p ln|port dests m]; cbn [exec fair calm arrivals] in *; try (apply andb_true_iff in Hs; destruct Hs as [Hs1 Hs2]).
    - apply Nat.leb_le in Hs1. destruct (receive_ok C d al k N f port m V He Hs1) as [V' P']. eexists. exists (al ++ [f]), (S k). split; [reflexivity|]. split; [exact V'|].
      split; [unfold prx, set_card; cbn [card]; rewrite P'; split; intros; [lia|discriminate]|]. rewrite app_length. cbn [length]. split; [replace (length al + 1)%nat with (S (length al)) by lia; exact Hs2|]. split; [lia|exact P'].
    - pose proof (v_max _ _ _ _ _ V). apply negb_true_iff, Nat.eqb_neq in Hs1.
      destruct (poll_ok C d al k N fuel HB V P ltac:(lia)) as (d1 & E & V' & P').
      { intros X. apply Hs1. replace (1 + Z.of_nat (length al)) with (Z.of_nat (S (length al))) in X by lia. change 56 with (Z.of_nat 56) in X. rewrite <- Nat2Z.inj_mod in X. lia. }
      exists d1, al, (Nat.min k 1). rewrite E. split; [reflexivity|]. split; [exact V'|]. split; [exact P'|]. split; [exact Hs2|split; [lia|exact I]].
    - destruct He as [Hp Hln]. destruct (read_ok C d al k N p ln HB V P Hp Hln) as (d1 & E & V' & P'). exists d1, al, k. split; [exact E|]. split; [exact V'|]. split; [exact P'|split; [exact Hs|split; [lia|exact I]]].
    - destruct (write_inv C d al k N port dests m V P He) as (d1 & E & V' & P'). exists d1, al, k. rewrite E. split; [reflexivity|]. split; [exact V'|]. split; [exact P'|split; [exact Hs|split; [lia|exact I]]]. }
  destruct K as (d1 & al1 & k1 & E & V' & P' & L & La & Lt). rewrite E. destruct (step (buf_sz C) (g2l C) 1 N e) as [o N1]. cbn [fst snd] in *.
  destruct (IH d1 al1 k1 N1 HB Hu V' P' Hl L) as (d' & al' & k' & R & V2 & P2 & L2 & X). rewrite R. destruct (history (buf_sz C) (g2l C) 1 N1 l) as [os N2] eqn:Eh.
  exists d', al', k'. cbn [fst snd] in *. split; [reflexivity|]. split; [exact V2|]. split; [exact P2|]. split; [lia|].
  intros Hn _. destruct l as [|e2 l]; [|exact (X Hn ltac:(discriminate))]. cbn [run] in R. injection R as _ <-. cbn [last]. exact Lt.
Qed.

End Ring.

(** ** Initialisation *)
Lemma init_ok : forall d, Z.testbit (rg (card d) CR) 2 = false -> 0 <= rg (card d) CR < 256 ->
  let d' := init d in idle (card d') /\ rg (card d') BNRY = 72 /\ rg (card d') CURR = 73 /\ Z.testbit (rg (card d') ISR) 0 = false /\ mac d' = [0; 0; 0; 0; 0; 0] /\
  ram (card d') = ram (card d) /\ wire (card d') = wire (card d) /\ (forall i, qs d' i = mkQueue 0 0 (fun _ => 0)) /\ packet d' = packet d.
Proof.
  intros d H2 Hc. destruct d as [[rg0 par0 ram0 wire0] qs0 nb0 mac0 packet0]. cbn [card rg] in *. cbv zeta.
  assert (E : select 0 {| rg := rg0; par := par0; ram := ram0; wire := wire0 |} = setr CR (Z.land (rg0 CR) 0x3f) {| rg := rg0; par := par0; ram := ram0; wire := wire0 |}).
  { unfold select, inb, outb, command. cbn [Z.eqb rg]. assert (E1 : Z.lor (Z.ldiff (rg0 CR) 192) (Z.shiftl 0 6) mod 256 = Z.land (rg0 CR) 0x3f).
    { change (Z.shiftl 0 6) with 0. rewrite Z.lor_0_r. change 256 with (2 ^ 8). rewrite <- Z.land_ones by lia. apply Z.bits_inj'. intros k Hk.
      rewrite Z.land_spec, Z.ldiff_spec, Z.land_spec. generalize (Z.testbit (rg0 CR) k). intros b. destruct (Z.lt_ge_cases k 8) as [G|G].
      - assert (k = 0 \/ k = 1 \/ k = 2 \/ k = 3 \/ k = 4 \/ k = 5 \/ k = 6 \/ k = 7) as [-> | [-> | [-> | [-> | [-> | [-> | [-> | ->]]]]]]] by lia;
          destruct b; reflexivity.
      - rewrite Z.ones_spec_high by lia. rewrite andb_false_r. rewrite (Z.bits_above_log2 63 k) by (cbn; lia). rewrite andb_false_r. reflexivity. }
    rewrite E1. rewrite Z.land_spec, H2. reflexivity. }
  unfold init. cbn [card packet]. rewrite E. generalize (Z.land (rg0 CR) 63). intros c. clear E.
  set (n0 := setr CR c {| rg := rg0; par := par0; ram := ram0; wire := wire0 |}).
  assert (E2 : outb 11 0 (outb 10 0 (outb 3 RXBUF (outb 2 MEMSZ (outb 1 RXBUF (outb 0 1 n0))))) =
    setr RBCR 0 (setr RBCR (lo8 0 (rg0 RBCR)) (setr BNRY 72 (setr PSTOP 128 (setr PSTART 72 (setr CR 1 n0)))))).
  { change (outb 10 0 (outb 3 RXBUF (outb 2 MEMSZ (outb 1 RXBUF (outb 0 1 n0))))) with (setr RBCR (lo8 0 (rg0 RBCR)) (setr BNRY 72 (setr PSTOP 128 (setr PSTART 72 (setr CR 1 n0))))).
    rewrite out11 by reflexivity. cbn [rg setr reg_eqb]. f_equal. exact (hi_lo 0 (rg0 RBCR) ltac:(lia)). }
  cbv zeta. rewrite E2. generalize (lo8 0 (rg0 RBCR)). intros x. clear E2. subst n0.
  match goal with |- context [ne_read 12 0 ?n] => set (n3 := n) end.
  assert (E4 : exists q v, ne_read 12 0 n3 = (repeat 0 12, mkNic (fun r => if reg_eqb r CR then 0x49 else v r) q ram0 wire0) /\ v PSTART = 72 /\ v PSTOP = 128 /\ v BNRY = 72 /\ v CURR = 73).
  { eexists. eexists. split; [reflexivity|]. repeat split. }
  destruct E4 as (q & v & E4 & V1 & V2 & V3 & V4). rewrite E4. clear E4. clearbody n3.
  change (map (fun i => nth (2 * i) (repeat 0 12) 0) (seq 0 6)) with [0; 0; 0; 0; 0; 0].
  cbn [seq fold_left nth]. 
  match goal with |- context [select 0 ?n] => set (n5 := n) end.
  assert (E5 : exists q5, n5 = mkNic (fun r => if reg_eqb r CR then 0x49 else v r) q5 ram0 wire0) by (eexists; reflexivity).
  destruct E5 as (q5 & E5). clearbody n5. subst n5.
  change (outb 7 255 (outb 0 2 (select 0 (mkNic (fun r => if reg_eqb r CR then 0x49 else v r) q5 ram0 wire0)))) with
    (setr ISR (Z.ldiff (v ISR) 255) (setr CR 2 (setr CR 9 (mkNic (fun r => if reg_eqb r CR then 0x49 else v r) q5 ram0 wire0)))).
  cbn [card qs mac packet rg setr reg_eqb ram wire]. split; [constructor; cbn [rg setr reg_eqb]; [left; reflexivity|exact V1|exact V2]|].
  split; [exact V3|]. split; [exact V4|]. split; [rewrite Z.ldiff_spec; apply andb_false_r|]. repeat split.
Qed.

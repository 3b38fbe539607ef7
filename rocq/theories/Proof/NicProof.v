(** Remote DMA of the card and the driver's use of it. *)
From Verif Require Import Model.Base Spec.Ne2000 Model.Rtl8029 Proof.Tac.

Lemma len_nonneg : forall l, 0 <= len l.
Proof. intros l. unfold len. lia. Qed.
Lemma len_app : forall a b, len (a ++ b) = len a + len b.
Proof. intros a b. unfold len. rewrite app_length. lia. Qed.
Lemma len_cons : forall x l, len (x :: l) = len l + 1.
Proof. intros x l. unfold len. cbn [length]. lia. Qed.
Lemma nat_len : forall l, Z.to_nat (len l) = length l.
Proof. intros l. unfold len. apply Nat2Z.id. Qed.

(** ** The card after initialisation, page 0 selected *)
Lemma page_cr : forall n, cr_ok (rg n CR) -> page n = 0.
Proof. intros n [H | [H | [H | H]]]; unfold page; rewrite H; reflexivity. Qed.

Lemma lo8_u : forall v w, lo8 (v mod 256) w mod 256 = v mod 256.
Proof. intros v w. unfold lo8. lia. Qed.
Lemma hi_lo : forall v w, 0 <= v < 65536 -> hi8 (Z.shiftr v 8 mod 256) (lo8 (v mod 256) w) = v.
Proof.
  intros v w Hv. unfold hi8. rewrite lo8_u. rewrite Z.shiftr_div_pow2 by lia. change (2 ^ 8) with 256.
  rewrite Z.mod_mod by lia. rewrite (Z.mod_small (v / 256)) by lia. lia.
Qed.

(** Everything but these registers stays. *)
Definition others (n n' : nic) (l : list reg) : Prop :=
  (forall r, ~ In r l -> rg n' r = rg n r) /\ par n' = par n /\ ram n' = ram n /\ wire n' = wire n.
Lemma command_ok : forall v n, cr_ok v -> outb 0 v n = setr CR v n.
Proof. intros v n [-> | [-> | [-> | ->]]]; reflexivity. Qed.
Ltac outs := unfold outb; cbn [Z.eqb Pos.eqb]; cbv zeta.
Lemma out8 : forall v n, page n = 0 -> outb 8 v n = setr RSAR (lo8 (v mod 256) (rg n RSAR)) n.
Proof. intros v n H. outs. rewrite H. reflexivity. Qed.
Lemma out9 : forall v n, page n = 0 -> outb 9 v n = setr RSAR (hi8 (v mod 256) (rg n RSAR)) n.
Proof. intros v n H. outs. rewrite H. reflexivity. Qed.
Lemma out10 : forall v n, page n = 0 -> outb 10 v n = setr RBCR (lo8 (v mod 256) (rg n RBCR)) n.
Proof. intros v n H. outs. rewrite H. reflexivity. Qed.
Lemma out11 : forall v n, page n = 0 -> outb 11 v n = setr RBCR (hi8 (v mod 256) (rg n RBCR)) n.
Proof. intros v n H. outs. rewrite H. reflexivity. Qed.
Lemma out3 : forall v n, page n = 0 -> outb 3 v n = setr BNRY (v mod 256) n.
Proof. intros v n H. outs. rewrite H. reflexivity. Qed.
Lemma out4 : forall v n, page n = 0 -> outb 4 v n = setr TPSR (v mod 256) n.
Proof. intros v n H. outs. rewrite H. reflexivity. Qed.
Lemma out5 : forall v n, page n = 0 -> outb 5 v n = setr TBCR (lo8 (v mod 256) (rg n TBCR)) n.
Proof. intros v n H. outs. rewrite H. reflexivity. Qed.
Lemma out6 : forall v n, page n = 0 -> outb 6 v n = setr TBCR (hi8 (v mod 256) (rg n TBCR)) n.
Proof. intros v n H. outs. rewrite H. reflexivity. Qed.
Lemma out7 : forall v n, page n = 0 -> outb 7 v n = setr ISR (Z.ldiff (rg n ISR) (v mod 256)) n.
Proof. intros v n H. outs. rewrite H. reflexivity. Qed.
Lemma in3 : forall n, page n = 0 -> inb 3 n = rg n BNRY.
Proof. intros n H. unfold inb. rewrite H. reflexivity. Qed.
Lemma in7 : forall n, page n = 0 -> inb 7 n = rg n ISR.
Proof. intros n H. unfold inb. rewrite H. reflexivity. Qed.

Lemma dma_ok : forall off count dir n, idle n -> 0 <= off < 65536 -> 0 <= count < 65536 -> dir = 0x10 \/ dir = 0x08 ->
  let n' := remote_dma off (0x38 - dir) dir count n in
  idle n' /\ rg n' CR = 2 + dir /\ rg n' RSAR = off /\ rg n' RBCR = count /\ others n n' [CR; RSAR; RBCR].
Proof.
  intros off count dir n [Hc Hs Ht] Ho Hk Hd. cbv zeta. unfold remote_dma.
  assert (E1 : outb 0 (Z.lor (Z.ldiff (inb 0 n) 24) 32) n = setr CR 0x22 n).
  { unfold inb. cbn [Z.eqb]. destruct Hc as [H | [H | [H | H]]]; rewrite H; reflexivity. }
  rewrite E1. set (n1 := setr CR 34 n). assert (P1 : page n1 = 0) by reflexivity.
  rewrite (out8 off n1 P1). set (n2 := setr RSAR _ n1). assert (P2 : page n2 = 0) by reflexivity.
  rewrite (out9 _ n2 P2). set (n3 := setr RSAR _ n2). assert (P3 : page n3 = 0) by reflexivity.
  rewrite (out10 _ n3 P3). set (n4 := setr RBCR _ n3). assert (P4 : page n4 = 0) by reflexivity.
  rewrite (out11 _ n4 P4). set (n5 := setr RBCR _ n4).
  assert (C5 : inb 0 n5 = 0x22) by reflexivity. rewrite C5.
  assert (E6 : outb 0 (Z.lor (Z.ldiff 34 (56 - dir)) dir) n5 = setr CR (2 + dir) n5) by (destruct Hd as [-> | ->]; reflexivity). rewrite E6.
  assert (RS : rg n5 RSAR = off) by (change (hi8 (Z.shiftr off 8 mod 256) (lo8 (off mod 256) (rg n RSAR)) = off); apply hi_lo; exact Ho).
  assert (RB : rg n5 RBCR = count) by (change (hi8 (Z.shiftr count 8 mod 256) (lo8 (count mod 256) (rg n RBCR)) = count); apply hi_lo; exact Hk).
  assert (Oth : forall r, ~ In r [CR; RSAR; RBCR] -> rg (setr CR (2 + dir) n5) r = rg n r).
  { intros r Hr. destruct r; try reflexivity; exfalso; apply Hr; cbn; auto. }
  split; [constructor|].
  - cbn [rg setr reg_eqb]. unfold cr_ok. destruct Hd as [-> | ->]; auto.
  - exact Hs.
  - exact Ht.
  - split; [reflexivity|]. split; [exact RS|]. split; [exact RB|]. split; [exact Oth|]. repeat split.
Qed.

(** ** Writing without passing the end of the ring *)
Lemma fold_out : forall l n a, rg n CR = 0x12 -> rg n RSAR = a -> rg n RBCR = len l -> rg n PSTOP = 128 -> l <> [] -> a + len l < 128 * 256 ->
  (forall v, In v l -> 0 <= v < 256) ->
  let n' := fold_left (fun n v => data_out v n) l n in
  (forall x, ram n' x = if (a <=? x) && (x <? a + len l) then nth (Z.to_nat (x - a)) l 0 else ram n x) /\ wire n' = wire n /\ par n' = par n /\
  rg n' ISR = Z.lor (rg n ISR) 64 /\ (forall r, ~ In r [ISR; RSAR; RBCR] -> rg n' r = rg n r).
Proof.
  induction l as [|v l IH]; intros n a Hc Ha Hb Hs Hne Hl Hv; [contradiction|]. cbn [fold_left]. cbv zeta.
  rewrite len_cons in *. pose proof (len_nonneg l) as Ln.
  assert (Vv : v mod 256 = v) by (apply Z.mod_small; apply Hv; left; reflexivity).
  set (n1 := data_out v n).
  assert (N1 : n1 = advance (set_ram (upd (ram n) a v) n)).
  { unfold n1, data_out. unfold remote. rewrite Hc, Hb, Vv, Ha. destruct (Z.ltb_spec 0 (len l + 1)); [reflexivity|lia]. }
  assert (F1 : rg n1 CR = 0x12 /\ rg n1 RSAR = a + 1 /\ rg n1 RBCR = len l /\ rg n1 PSTOP = 128 /\ ram n1 = upd (ram n) a v /\ wire n1 = wire n /\ par n1 = par n /\
    rg n1 ISR = (if len l =? 0 then Z.lor (rg n ISR) 64 else rg n ISR) /\ forall r, ~ In r [ISR; RSAR; RBCR] -> rg n1 r = rg n r).
  { rewrite N1. unfold advance. cbv zeta. cbn [rg set_ram]. rewrite Hb, Ha, Hs. destruct (Z.eqb_spec (a + 1) (128 * 256)); [exfalso; lia|].
    replace (len l + 1 =? 1) with (len l =? 0) by (destruct (Z.eqb_spec (len l) 0); destruct (Z.eqb_spec (len l + 1) 1); lia).
    destruct (len l =? 0) eqn:El; cbn [rg setr reg_eqb set_ram par ram wire]; rewrite ?Hc, ?Hs;
      (do 2 (split; [reflexivity|]); split; [lia|]; do 5 (split; [reflexivity|]);
       intros r Hr; destruct r; try reflexivity; exfalso; apply Hr; cbn; auto). }
  clearbody n1. destruct F1 as (C1 & A1 & B1 & S1 & M1 & W1 & P1 & I1 & O1).
  destruct l as [|w l'].
  - cbn [fold_left]. change (len []) with 0 in *. split; [|split; [exact W1|split; [exact P1|split; [rewrite I1; reflexivity|exact O1]]]].
    intros x. rewrite M1. unfold upd. destruct (Z.eqb_spec x a) as [-> | N].
    + rewrite Z.leb_refl. destruct (Z.ltb_spec a (a + (0 + 1))); [|lia]. rewrite Z.sub_diag. reflexivity.
    + destruct (Z.leb_spec a x); destruct (Z.ltb_spec x (a + (0 + 1))); try reflexivity. lia.
  - set (l := w :: l') in *. destruct (IH n1 (a + 1) C1 A1 B1 S1) as (R & W & P & I & O); [discriminate|lia|intros u Hu; apply Hv; right; exact Hu|].
    split; [|split; [congruence|split; [congruence|split]]].
    + intros x. rewrite R, M1. unfold upd. destruct (Z.eqb_spec x a) as [-> | N].
      * destruct (Z.leb_spec (a + 1) a); [lia|]. rewrite Z.leb_refl. destruct (Z.ltb_spec a (a + (len l + 1))); [|lia]. rewrite Z.sub_diag. reflexivity.
      * replace (x <? a + 1 + len l) with (x <? a + (len l + 1)) by (f_equal; lia).
        destruct (Z.leb_spec (a + 1) x); destruct (Z.leb_spec a x); try lia; cbn [andb]; try reflexivity.
        destruct (Z.ltb_spec x (a + (len l + 1))); [|reflexivity]. replace (Z.to_nat (x - a)) with (S (Z.to_nat (x - (a + 1)))) by lia. reflexivity.
    + rewrite I, I1. assert (L : len l <> 0) by (unfold l; rewrite len_cons; pose proof (len_nonneg l'); lia). apply Z.eqb_neq in L. rewrite L. reflexivity.
    + intros r Hr. rewrite O by exact Hr. apply O1. exact Hr.
Qed.

Lemma bytes_len : forall p k, 0 <= k -> len (bytes p k) = k.
Proof. intros p k H. unfold len, bytes. rewrite map_length, seq_length. lia. Qed.
Lemma bytes_nth : forall p k i, 0 <= i < k -> nth (Z.to_nat i) (bytes p k) 0 = p i.
Proof.
  intros p k i H. unfold bytes. rewrite (nth_indep _ 0 (p (Z.of_nat 0))) by (rewrite map_length, seq_length; lia).
  rewrite (map_nth (fun j => p (Z.of_nat j))). rewrite seq_nth by lia. f_equal. lia.
Qed.

(** The bytes are on the wire, and the card is as before but for the registers of transmission and DMA. *)
Lemma send_ok : forall snd p n, idle n -> 1 <= snd <= 2048 -> (forall i, 0 <= i < snd -> 0 <= p i < 256) ->
  exists n', send snd p n = Some n' /\ idle n' /\ wire n' = wire n ++ [bytes p snd] /\ par n' = par n /\
    (forall r, In r [BNRY; CURR; PSTART; PSTOP] -> rg n' r = rg n r) /\ Z.testbit (rg n' ISR) 0 = Z.testbit (rg n ISR) 0 /\
    forall a, ~ 64 * 256 <= a < 72 * 256 -> ram n' a = ram n a.
Proof.
  intros snd p n H Hs Hp. unfold send, ne_write. rewrite bytes_len by lia.
  assert (U : u16 snd = snd) by (apply Z.mod_small; change (2 ^ 16) with 65536; lia). rewrite U.
  destruct (dma_ok (TXBUF * 256) snd 0x10 n H) as (H1 & C1 & A1 & B1 & (O1 & P1 & M1 & W1)); [unfold TXBUF; lia|lia|auto|].
  change (56 - 16) with 0x28 in *. set (n1 := remote_dma (TXBUF * 256) 40 16 snd n) in *. clearbody n1. unfold TXBUF in *. change (64 * 256) with 16384 in *.
  destruct (fold_out (bytes p snd) n1 16384) as (R & W & P & I & O); try assumption.
  { rewrite bytes_len by lia. exact B1. }
  { exact (i_stop n1 H1). }
  { intros E. pose proof (bytes_len p snd ltac:(lia)) as L. rewrite E in L. change (len []) with 0 in L. lia. }
  { rewrite bytes_len by lia. lia. }
  { intros v Hv. unfold bytes in Hv. apply in_map_iff in Hv. destruct Hv as (i & <- & Hi). apply in_seq in Hi. apply Hp. lia. }
  rewrite bytes_len in R by lia. set (n2 := fold_left _ (bytes p snd) n1) in *. clearbody n2.
  assert (C2 : rg n2 CR = 0x12) by (rewrite O; [exact C1|intros [Q | [Q | [Q | []]]]; discriminate]).
  assert (Pg : page n2 = 0) by (unfold page; rewrite C2; reflexivity).
  rewrite (in7 n2 Pg), I. rewrite Z.lor_spec. change (Z.testbit 64 6) with true. rewrite orb_true_r.
  rewrite (out4 _ n2 Pg). set (n3 := setr TPSR _ n2). assert (P3 : page n3 = 0) by exact Pg.
  rewrite (out5 _ n3 P3). set (n4 := setr TBCR _ n3). assert (P4 : page n4 = 0) by exact Pg.
  rewrite (out6 _ n4 P4). set (n5 := setr TBCR _ n4).
  assert (C5 : rg n5 CR = 0x12) by exact C2. assert (T5 : rg n5 TPSR = 64) by reflexivity.
  assert (B5 : rg n5 TBCR = snd) by (change (hi8 (Z.shiftr snd 8 mod 256) (lo8 (snd mod 256) (rg n2 TBCR)) = snd); apply hi_lo; lia).
  assert (I0 : inb 0 n5 = 0x12) by exact C5. rewrite I0.
  assert (E6 : outb 0 (Z.lor 18 4) n5 = set_wire (wire n5 ++ [sent n5]) (setr ISR (Z.lor (rg n5 ISR) 2) (setr CR 0x12 n5))) by reflexivity.
  rewrite E6. set (n6 := set_wire _ _). assert (P6 : page n6 = 0) by reflexivity.
  rewrite (out7 _ n6 P6). eexists. split; [reflexivity|].
  assert (K : forall r, In r [BNRY; CURR; PSTART; PSTOP] -> rg n2 r = rg n r).
  { intros r Hr. rewrite O, O1; [reflexivity| |]; intros Hi; destruct Hr as [<- | [<- | [<- | [<- | []]]]]; destruct Hi as [Q | [Q | [Q | []]]]; discriminate. }
  split; [|split; [|split; [|split; [|split]]]].
  - constructor; [right; right; left; reflexivity| |].
    + change (rg n2 PSTART = 72). rewrite K by (cbn; auto). apply (i_start n H).
    + change (rg n2 PSTOP = 128). rewrite K by (cbn; auto). apply (i_stop n H).
  - change (wire n2 ++ [sent n5] = wire n ++ [bytes p snd]). rewrite W, W1. f_equal. f_equal. unfold sent. rewrite B5, T5. unfold bytes.
    apply map_ext_in. intros i Hi. apply in_seq in Hi. change (ram n5) with (ram n2). rewrite R. change (64 * 256) with 16384.
    destruct (Z.leb_spec 16384 (16384 + Z.of_nat i)); [|lia]. destruct (Z.ltb_spec (16384 + Z.of_nat i) (16384 + snd)); [|lia]. cbn [andb].
    rewrite bytes_nth by lia. f_equal. lia.
  - change (par n2 = par n). congruence.
  - intros r Hr. rewrite <- (K r Hr). destruct Hr as [<- | [<- | [<- | [<- | []]]]]; reflexivity.
  - change (Z.testbit (Z.ldiff (Z.lor (rg n2 ISR) 2) (64 mod 256)) 0 = Z.testbit (rg n ISR) 0). rewrite I, Z.ldiff_spec, !Z.lor_spec.
    change (Z.testbit 64 0) with false. change (Z.testbit 2 0) with false. change (Z.testbit (64 mod 256) 0) with false. cbn [negb].
    rewrite !orb_false_r, andb_true_r. f_equal. apply O1. intros [Q | [Q | [Q | []]]]; discriminate.
  - intros a Ha. change (ram n2 a = ram n a). rewrite R, M1. destruct (Z.leb_spec 16384 a); destruct (Z.ltb_spec a (16384 + snd)); try reflexivity. exfalso. lia.
Qed.

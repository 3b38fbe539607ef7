(** Transmission: the pieces of a message as frames. *)
From Verif Require Import Model.Base Spec.Ne2000 Model.Rtl8029 Proof.Tac Proof.NicProof.

Lemma fill_in : forall p off l a, off <= a < off + len l -> fill p off l a = nth (Z.to_nat (a - off)) l 0.
Proof. intros p off l a H. unfold fill. destruct (Z.leb_spec off a); [|lia]. destruct (Z.ltb_spec a (off + len l)); [reflexivity|lia]. Qed.
Lemma fill_out : forall p off l a, ~ off <= a < off + len l -> fill p off l a = p a.
Proof. intros p off l a H. unfold fill. destruct (Z.leb_spec off a); destruct (Z.ltb_spec a (off + len l)); try reflexivity. exfalso. lia. Qed.
Lemma bytes_ext : forall p q k, (forall i, 0 <= i < k -> p i = q i) -> bytes p k = bytes q k.
Proof. intros p q k H. unfold bytes. apply map_ext_in. intros i Hi. apply in_seq in Hi. apply H. lia. Qed.
Lemma bytes_app : forall p j k, 0 <= j -> 0 <= k -> bytes p (j + k) = bytes p j ++ bytes (fun i => p (j + i)) k.
Proof.
  intros p j k Hj Hk. unfold bytes. rewrite Z2Nat.inj_add by lia. rewrite seq_app, map_app. f_equal. cbn [plus].
  assert (G : forall m s, map (fun x => p (Z.of_nat x)) (seq (s + Z.to_nat j) m) = map (fun x => p (j + Z.of_nat x)) (seq s m)).
  { induction m as [|m IH]; intros s; [reflexivity|]. cbn [seq map]. f_equal; [f_equal; lia|]. exact (IH (S s)). }
  exact (G (Z.to_nat k) 0%nat).
Qed.
Lemma bytes_fill : forall p off l, bytes (fun i => fill p off l (off + i)) (len l) = l.
Proof.
  intros p off l. apply nth_ext with 0 0.
  - pose proof (bytes_len (fun i => fill p off l (off + i)) (len l) (len_nonneg l)) as L. unfold len in *. lia.
  - intros i Hi. pose proof (bytes_len (fun i => fill p off l (off + i)) (len l) (len_nonneg l)) as L. unfold len in L at 1.
    replace i with (Z.to_nat (Z.of_nat i)) by lia. rewrite bytes_nth by lia. rewrite fill_in by lia. f_equal. lia.
Qed.
Lemma bytes_in : forall p k v, In v (bytes p k) -> exists i, 0 <= i < k /\ v = p i.
Proof. intros p k v H. unfold bytes in H. apply in_map_iff in H. destruct H as (i & <- & Hi). apply in_seq in Hi. exists (Z.of_nat i). split; [lia|reflexivity]. Qed.

Lemma nth_octet : forall l i, octets l -> octet (nth i l 0).
Proof. intros l i H. destruct (nth_in_or_default i l 0) as [Hin | ->]; [apply H; exact Hin|unfold octet; lia]. Qed.
Lemma fill_octet : forall p off l, (forall a, octet (p a)) -> octets l -> forall a, octet (fill p off l a).
Proof. intros p off l Hp Hl a. unfold fill. destruct ((off <=? a) && (a <? off + len l)); [apply nth_octet; exact Hl|apply Hp]. Qed.
Lemma le16_octets : forall v, octets (le16 v).
Proof. intros v x [<- | [<- | []]]; unfold octet; lia. Qed.

(** The part of the header that does not depend on the piece. *)
Definition head_of (dst src : list Z) (sport dport : Z) : list Z := dst ++ src ++ [0x42; 0x42] ++ le16 sport ++ le16 dport.

Lemma piece_frame : forall p dst src sport dport c snd, length dst = 6%nat -> length src = 6%nat -> bytes p 18 = head_of dst src sport dport -> 1 <= len c <= 1492 ->
  snd = Z.max 60 (22 + len c) ->
  is_frame (bytes (fill (fill p LEN_OFF (le16 (len c))) DATA_OFF c) snd) dst src sport dport c.
Proof.
  intros p dst src sport dport c snd Hd Hs Hp Hc Es. set (p1 := fill (fill p LEN_OFF (le16 (len c))) DATA_OFF c). unfold LEN_OFF, DATA_OFF in *.
  assert (E18 : bytes p1 18 = bytes p 18).
  { apply bytes_ext. intros i Hi. unfold p1. rewrite fill_out by lia. apply fill_out. change (len (le16 (len c))) with 2. lia. }
  assert (E2 : bytes (fun i => p1 (18 + i)) 2 = le16 (len c)).
  { transitivity (bytes (fun i => fill p 18 (le16 (len c)) (18 + i)) (len (le16 (len c)))); [|apply bytes_fill]. apply bytes_ext. intros i Hi. assert (Hi2 : i < 2) by exact (proj2 Hi). unfold p1. apply fill_out. lia. }
  assert (Ec : bytes (fun i => p1 (22 + i)) (len c) = c) by apply bytes_fill.
  assert (E20 : bytes p1 20 = head_of dst src sport dport ++ le16 (len c)) by (change 20 with (18 + 2); rewrite bytes_app, E18, E2, Hp by lia; reflexivity).
  constructor.
  - replace snd with (20 + (snd - 20)) by lia. rewrite bytes_app by lia. rewrite firstn_app.
    pose proof (bytes_len p1 20 ltac:(lia)) as L20. unfold len in L20. replace (20 - length (bytes p1 20))%nat with 0%nat by lia. rewrite firstn_O, app_nil_r.
    rewrite firstn_all2 by lia. rewrite E20. unfold head_of. rewrite <- !app_assoc. reflexivity.
  - replace snd with (22 + (len c + (snd - 22 - len c))) by lia. rewrite bytes_app by lia. rewrite skipn_app.
    pose proof (bytes_len p1 22 ltac:(lia)) as L22. unfold len in L22. replace (22 - length (bytes p1 22))%nat with 0%nat by lia.
    rewrite skipn_all2 by lia. rewrite skipn_O. cbn [app]. rewrite (bytes_app _ (len c)) by lia. rewrite Ec, firstn_app.
    replace (length c - length c)%nat with 0%nat by lia. rewrite firstn_O, app_nil_r. apply firstn_all.
  - rewrite bytes_len by lia. exact Es.
  - lia.
Qed.

Definition quiet (n n' : nic) : Prop :=
  idle n' /\ par n' = par n /\ (forall r, In r [BNRY; CURR; PSTART; PSTOP] -> rg n' r = rg n r) /\ Z.testbit (rg n' ISR) 0 = Z.testbit (rg n ISR) 0 /\
  forall a, ~ 64 * 256 <= a < 72 * 256 -> ram n' a = ram n a.
Lemma quiet_refl : forall n, idle n -> quiet n n.
Proof. intros n H. split; [exact H|]. repeat split. Qed.
Lemma quiet_trans : forall a b c, quiet a b -> quiet b c -> quiet a c.
Proof.
  intros a b c (I1 & P1 & R1 & T1 & M1) (I2 & P2 & R2 & T2 & M2). split; [exact I2|]. split; [congruence|]. split; [|split; [congruence|]].
  - intros r Hr. rewrite R2, R1 by exact Hr. reflexivity.
  - intros x Hx. rewrite M2, M1 by exact Hx. reflexivity.
Qed.

Lemma pieces_ok : forall fuel msg p n dst src sport dport, (length msg <= fuel)%nat -> idle n -> length dst = 6%nat -> length src = 6%nat ->
  bytes p 18 = head_of dst src sport dport -> (forall a, octet (p a)) -> octets msg ->
  exists p' n' fs cs, pieces fuel p msg n = Some (p', n') /\ quiet n n' /\ wire n' = wire n ++ fs /\ concat cs = msg /\ Forall (fun c => c <> []) cs /\
    Forall2 (fun f c => is_frame f dst src sport dport c) fs cs /\ (forall a, octet (p' a)).
Proof.
  induction fuel as [|fuel IH]; intros msg p n dst src sport dport Hf Hi Hd Hs Hp Ho Hm.
  - destruct msg; [|cbn [length] in Hf; lia]. exists p, n, [], []. cbn [pieces]. split; [reflexivity|]. split; [apply quiet_refl; exact Hi|]. rewrite app_nil_r.
    repeat split; auto; apply Ho.
  - destruct msg as [|b msg0].
    { exists p, n, [], []. cbn [pieces]. split; [reflexivity|]. split; [apply quiet_refl; exact Hi|]. rewrite app_nil_r. repeat split; auto; apply Ho. }
    set (msg := b :: msg0) in *. assert (L1 : 1 <= len msg) by (unfold msg; rewrite len_cons; pose proof (len_nonneg msg0); lia).
    set (cpy := if len msg <=? DATA_MIN then len msg else if DATA_MAX <=? len msg then DATA_MAX else len msg).
    set (snd := if len msg <=? DATA_MIN then 60 else if DATA_MAX <=? len msg then 1514 else 22 + cpy).
    set (c := firstn (Z.to_nat cpy) msg). set (p1 := fill (fill p LEN_OFF (le16 cpy)) DATA_OFF c).
    assert (Eq : pieces (S fuel) p msg n = match send snd p1 n with None => None | Some n1 => pieces fuel p1 (skipn (Z.to_nat cpy) msg) n1 end) by reflexivity.
    assert (Cp : 1 <= cpy <= 1492 /\ cpy <= len msg /\ snd = Z.max 60 (22 + cpy)).
    { unfold snd, cpy, DATA_MIN, DATA_MAX. destruct (Z.leb_spec (len msg) 38); [lia|]. destruct (Z.leb_spec 1492 (len msg)); lia. }
    destruct Cp as (Cp & Cl & Cs). clearbody snd cpy.
    assert (Lc : len c = cpy) by (unfold c, len in *; rewrite firstn_length; lia).
    assert (P1 : p1 = fill (fill p LEN_OFF (le16 (len c))) DATA_OFF c) by (rewrite Lc; reflexivity).
    assert (Fr : is_frame (bytes p1 snd) dst src sport dport c) by (rewrite P1; apply piece_frame; try assumption; lia).
    assert (Oc : octets c) by (intros v Hv; apply Hm; rewrite <- (firstn_skipn (Z.to_nat cpy) msg); apply in_or_app; left; exact Hv).
    assert (O1 : forall a, octet (p1 a)) by (apply fill_octet; [apply fill_octet; [exact Ho|apply le16_octets]|exact Oc]).
    destruct (send_ok snd p1 n Hi) as (n1 & E1 & H1 & W1 & Pa1 & R1 & T1 & M1); [lia|intros i _; apply O1|].
    assert (B1 : bytes p1 18 = head_of dst src sport dport).
    { rewrite <- Hp. apply bytes_ext. intros i Hi'. unfold p1, DATA_OFF, LEN_OFF. rewrite fill_out by lia. apply fill_out. change (len (le16 cpy)) with 2. lia. }
    destruct (IH (skipn (Z.to_nat cpy) msg) p1 n1 dst src sport dport) as (p' & n' & fs & cs & E & Q & W & Cc & Cn & F2 & O'); try assumption.
    { rewrite skipn_length. unfold len in *. lia. }
    { intros v Hv. apply Hm. rewrite <- (firstn_skipn (Z.to_nat cpy) msg). apply in_or_app. right. exact Hv. }
    exists p', n', (bytes p1 snd :: fs), (c :: cs). split.
    + rewrite Eq, E1. exact E.
    + split; [|split; [|split; [|split; [|split; [|exact O']]]]].
      * apply quiet_trans with n1; [|exact Q]. repeat split; try assumption; try apply H1.
      * rewrite W, W1, <- app_assoc. reflexivity.
      * cbn [concat]. rewrite Cc. apply firstn_skipn.
      * constructor; [|exact Cn]. intros E0. rewrite E0 in Lc. change (len []) with 0 in Lc. lia.
      * constructor; [exact Fr|exact F2].
Qed.

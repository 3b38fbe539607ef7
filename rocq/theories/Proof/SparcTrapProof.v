(** Proofs about the traps of the SPARC port that go through trap_prehandler: saving a thread. *)
From Verif Require Import Model.Base Spec.SparcCpu Spec.SparcWindows Model.SparcEntry Model.SparcTrap Proof.Tac Proof.SparcWinProof.

(** ** Stores and loads relative to a base *)
Definition stores (m : Z -> Z) (b : Z) (l : list (Z * Z)) : Z -> Z := fold_left (fun m x => upd m (b + fst x) (snd x)) l m.
Definition found (k : Z) (l : list (Z * Z)) (v : Z) : Z := fold_left (fun acc x => if k =? fst x then snd x else acc) l v.
Lemma stores_at : forall l m b k, stores m b l (b + k) = found k l (m (b + k)).
Proof.
  induction l as [|[o v] l IH]; intros m b k; [reflexivity|]. cbn [stores found fold_left fst snd]. unfold stores, found in IH. rewrite IH.
  f_equal. unfold upd. destruct (Z.eqb_spec (b + k) (b + o)); destruct (Z.eqb_spec k o); try reflexivity; lia.
Qed.
Lemma stores_out : forall l m b a, (forall x, In x l -> a <> b + fst x) -> stores m b l a = m a.
Proof.
  induction l as [|[o v] l IH]; intros m b a H; [reflexivity|]. cbn [stores fold_left fst snd]. unfold stores in IH. rewrite IH.
  - unfold upd. destruct (Z.eqb_spec a (b + o)); [|reflexivity]. exfalso. exact (H (o, v) (or_introl eq_refl) e).
  - intros x Hx. apply H. now right.
Qed.
Definition sts (l : list (Z * Z)) : list instr := map (fun x => St (fst x) 30 (snd x)) l.
Definition low (x : Z * Z) : bool := (-84 <=? snd x) && (snd x <? 0) && (snd x mod 4 =? 0).
Lemma sts_ok : forall l c, forallb low l = true -> reg c 30 mod 4 = 0 -> (forall a, reg c 30 - 84 <= a < reg c 30 -> may c a = true) ->
  run (sts l) c = Some (set_mem (stores (mem c) (reg c 30) (map (fun x => (snd x, reg c (fst x))) l)) c).
Proof.
  induction l as [|[r o] l IH]; intros c Hl Hal Hm; [destruct c; reflexivity|].
  cbn [forallb] in Hl. apply andb_prop in Hl. destruct Hl as [Lo Hl]. unfold low in Lo. cbn [snd] in Lo.
  apply andb_prop in Lo. destruct Lo as [Lo L4]. apply andb_prop in Lo. destruct Lo as [L1 L2].
  apply Z.leb_le in L1. apply Z.ltb_lt in L2. apply Z.eqb_eq in L4.
  cbn [sts map run fst snd]. unfold exec at 1. unfold fine. rewrite Hm by lia.
  replace ((reg c 30 + o) mod 4) with 0 by (clear - Hal L4; lia). cbn [andb Z.eqb].
  fold (sts l). rewrite (IH (set_mem _ c) Hl Hal Hm). reflexivity.
Qed.

(** ** The state register *)
Lemma lor_low : forall p m, Z.land m 31 = 0 -> Z.land (Z.lor p m) 31 = Z.land p 31.
Proof. intros p m H. rewrite Z.land_lor_distr_l, H. apply Z.lor_0_r. Qed.
Lemma ldiff_low : forall p m, (forall n, 0 <= n < 5 -> Z.testbit m n = false) -> Z.land (Z.ldiff p m) 31 = Z.land p 31.
Proof. intros p m H. apply low_eq. intros n Hn. rewrite Z.ldiff_spec, H by lia. apply andb_true_r. Qed.
Lemma icc_bit : forall v p n, 0 <= v < 16 -> 0 <= n < 20 \/ 24 <= n -> Z.testbit (set_icc v p) n = Z.testbit p n.
Proof.
  intros v p n Hv Hn. unfold set_icc. rewrite Z.lor_spec, Z.ldiff_spec, !Z.shiftl_spec by lia.
  assert (E : forall x, 0 <= x < 16 -> Z.testbit x (n - 20) = false).
  { intros x Hx. destruct Hn as [Hn|Hn]; [apply Z.testbit_neg_r; lia|apply (testbit_small x (n - 20) 4); lia]. }
  rewrite !E by lia. cbn [negb]. now rewrite andb_true_r, orb_false_r.
Qed.
Lemma icc_in : forall v p n, 20 <= n < 24 -> 0 <= v < 16 -> Z.testbit (set_icc v p) n = Z.testbit v (n - 20).
Proof.
  intros v p n Hn Hv. unfold set_icc. rewrite Z.lor_spec, Z.ldiff_spec, !Z.shiftl_spec by lia.
  assert (E : Z.testbit 15 (n - 20) = true).
  { assert (C : n = 20 \/ n = 21 \/ n = 22 \/ n = 23) by lia. destruct C as [-> | [-> | [-> | ->]]]; reflexivity. }
  rewrite E. cbn [negb]. rewrite andb_false_r. reflexivity.
Qed.
Lemma icc_of_range : forall v, 0 <= icc_of v < 13.
Proof. intros v. unfold icc_of. destruct (Z.testbit v 31), (v =? 0); lia. Qed.
Lemma zero_icc : forall v p, Z.testbit (set_icc (icc_of v) p) 22 = (v =? 0).
Proof.
  intros v p. pose proof (icc_of_range v). rewrite icc_in by lia. unfold icc_of. destruct (Z.testbit v 31), (v =? 0); reflexivity.
Qed.
Lemma cwp_icc : forall v p, 0 <= v < 16 -> Z.land (set_icc v p) 31 = Z.land p 31.
Proof. intros v p Hv. apply low_eq. intros n Hn. apply icc_bit; lia. Qed.

Ltac ql := solve [repeat match goal with H : context [_ mod _] |- _ => clear H | H : context [mem _] |- _ => clear H | H : context [win _] |- _ => clear H end; lia].

(** ** The loop that saves the windows *)
(** The mask of the current window after [e] steps from window 0: the code does not cut it to eight bits. *)
Definition mask (e : Z) : Z := if e <? 8 then 2 ^ e else 2 ^ (e - 8) + 2 ^ e.
Lemma fifteen : forall P : Z -> bool, forallb P (map Z.of_nat (seq 0 16)) = true -> forall e, 0 <= e < 16 -> P e = true.
Proof.
  intros P H e He. rewrite forallb_forall in H. apply H. apply in_map_iff. exists (Z.to_nat e). split; [lia|]. apply in_seq. lia.
Qed.
Lemma mask_step : forall e, 0 <= e < 15 -> Z.lor (mask e / 2 ^ 7) (u32 (mask e * 2 ^ 1)) = mask (e + 1).
Proof.
  intros e He. apply Z.eqb_eq. pose (P := fun e => if e <? 15 then Z.lor (mask e / 2 ^ 7) (u32 (mask e * 2 ^ 1)) =? mask (e + 1) else true).
  assert (F : P e = true) by (apply fifteen; [vm_compute; reflexivity|lia]). unfold P in F. destruct (Z.ltb_spec e 15); [exact F|lia].
Qed.
Lemma mask_and : forall e i, 0 <= e < 16 -> 0 <= i < 8 -> (Z.land (mask e) (2 ^ i) =? 0) = negb (e mod 8 =? i).
Proof.
  intros e i He Hi.
  pose (P := fun e => forallb (fun i => Bool.eqb (Z.land (mask e) (2 ^ i) =? 0) (negb (e mod 8 =? i))) (map Z.of_nat (seq 0 8))).
  assert (F : P e = true) by (apply fifteen; [vm_compute; reflexivity|exact He]). unfold P in F. rewrite forallb_forall in F.
  apply Bool.eqb_prop. apply F. apply in_map_iff. exists (Z.to_nat i). split; [lia|]. apply in_seq. lia.
Qed.

(** Bits of the state register that the loop leaves: all but the window and the condition codes. *)
Definition same_bits (p q : Z) : Prop := forall n, 5 <= n < 20 \/ 24 <= n -> Z.testbit p n = Z.testbit q n.
Lemma same_bits_trans : forall p q r, same_bits p q -> same_bits q r -> same_bits p r.
Proof. intros p q r H1 H2 n Hn. rewrite H1, H2 by exact Hn. reflexivity. Qed.

Lemma rotate_ok : forall c e i, glob c 2 = mask e -> 0 <= e < 15 -> glob c 1 = 2 ^ i -> 0 <= i < 8 ->
  exists c1, run [Sll 4 2 1; Srl 2 2 7; Or 2 2 4; Andcc 2 1] c = Some c1 /\ zero_flag c1 = negb ((e + 1) mod 8 =? i) /\
    cwp c1 = cwp c /\ same_bits (psr c1) (psr c) /\ win c1 = win c /\ wim c1 = wim c /\ yreg c1 = yreg c /\ mem c1 = mem c /\ acc c1 = acc c /\
    glob c1 2 = mask (e + 1) /\ (forall r, r = 1 \/ r = 3 \/ 5 <= r < 8 -> glob c1 r = glob c r).
Proof.
  intros c e i H2 He H1 Hi.
  set (ca := set_reg 2 (mask (e + 1)) (set_reg 2 (mask e / 2 ^ 7) (set_reg 4 (u32 (mask e * 2 ^ 1)) c))).
  assert (R : run [Sll 4 2 1; Srl 2 2 7; Or 2 2 4] c = Some ca).
  { cbn [run exec]. rewrite (reg_glob c 2) by lia. rewrite H2. regs. rewrite (reg_glob c 2) by lia. rewrite H2, mask_step by exact He. reflexivity. }
  assert (G2 : reg ca 2 = mask (e + 1)) by (unfold ca; regs; reflexivity).
  assert (G1 : reg ca 1 = 2 ^ i) by (unfold ca; regs; rewrite reg_glob by lia; exact H1).
  assert (P : psr ca = psr c) by (unfold ca; autorewrite with sprj; reflexivity).
  set (v := Z.land (mask (e + 1)) (2 ^ i)). pose proof (icc_of_range v) as Ir.
  exists (set_psr (set_icc (icc_of v) (psr ca)) ca). split.
  - change [Sll 4 2 1; Srl 2 2 7; Or 2 2 4; Andcc 2 1] with ([Sll 4 2 1; Srl 2 2 7; Or 2 2 4] ++ [Andcc 2 1]). rewrite run_app, R. cbn [run exec].
    rewrite G2, G1. reflexivity.
  - unfold zero_flag, cwp, same_bits. cbn [psr win wim yreg mem acc glob set_psr]. rewrite P.
    split; [rewrite zero_icc; unfold v; rewrite mask_and by lia; reflexivity|]. split; [apply cwp_icc; lia|].
    split; [intros n Hn; apply icc_bit; lia|]. unfold ca.
    split; [reflexivity|]. do 4 (split; [autorewrite with sprj; reflexivity|]).
    split; [reflexivity|]. intros r Hr. rewrite !glob_set by lia.
    destruct (Z.eqb_spec r 2); [lia|]. destruct (Z.eqb_spec r 4); [lia|]. reflexivity.
Qed.

(** One window. *)
Lemma save_one : forall c, 0 <= cwp c < 8 -> Z.testbit (wim c) (above (cwp c)) = false -> SUP c = true -> 0 <= glob c 6 < 100 ->
  win c (cwp c) 30 mod 8 = 0 -> (forall a, win c (cwp c) 30 <= a < win c (cwp c) 30 + 64 -> 1 <= acc c a) ->
  exists c2, run ([Restore; Sub 6 6 (-1)] ++ spill) c = Some c2 /\ cwp c2 = above (cwp c) /\ same_bits (psr c2) (psr c) /\ win c2 = win c /\
    wim c2 = wim c /\ yreg c2 = yreg c /\ acc c2 = acc c /\ glob c2 6 = glob c 6 + 1 /\ (forall r, 1 <= r < 8 -> r <> 6 -> glob c2 r = glob c r) /\
    (forall r, 16 <= r < 32 -> mem c2 (win c (cwp c) 30 + 4 * (r - 16)) = win c (above (cwp c)) r) /\
    (forall a, ~ win c (cwp c) 30 <= a < win c (cwp c) 30 + 64 -> mem c2 a = mem c a).
Proof.
  intros c Hc Hb HS H6 Hal Hacc. pose proof (above_range (cwp c)) as Ar.
  set (c1 := set_reg 6 (glob c 6 + 1) (set_psr (set_cwp (above (cwp c)) (psr c)) c)).
  assert (R : run [Restore; Sub 6 6 (-1)] c = Some c1).
  { cbn [run]. unfold exec at 1. rewrite Hb. unfold exec. rewrite reg_glob by lia. cbn [glob set_psr]. unfold u32. rewrite Z.mod_small by lia.
    replace (glob c 6 - -1) with (glob c 6 + 1) by lia. reflexivity. }
  assert (C1 : cwp c1 = above (cwp c)) by (unfold c1; rewrite cwp_set; apply cwp_move; exact Ar).
  assert (P1 : psr c1 = set_cwp (above (cwp c)) (psr c)) by (unfold c1; rewrite psr_set; reflexivity).
  assert (V1 : win c1 = win c) by reflexivity.
  assert (SP : reg c1 14 = win c (cwp c) 30).
  { rewrite reg_out by lia. rewrite C1, V1, below_above by exact Hc. reflexivity. }
  assert (S1 : SUP c1 = true) by (unfold SUP; rewrite P1, set_cwp_high by lia; exact HS).
  destruct (spill_ok c1) as (m & R2 & Min & Mout).
  { rewrite SP. exact Hal. }
  { rewrite SP. intros a Ha. apply may_sup; [exact S1|]. unfold c1. rewrite acc_set. apply Hacc. exact Ha. }
  rewrite SP in Min, Mout. exists (set_mem m c1). split; [rewrite run_app, R; exact R2|].
  split; [exact C1|]. split; [intros n Hn; change (psr (set_mem m c1)) with (psr c1); rewrite P1; apply set_cwp_high; lia|].
  split; [exact V1|]. cbn [wim yreg acc glob mem set_mem]. unfold c1 at 1 2 3. autorewrite with sprj.
  split; [reflexivity|]. split; [reflexivity|]. split; [reflexivity|]. split; [reflexivity|]. split.
  - intros r Hr N. unfold c1. rewrite glob_set by lia. destruct (Z.eqb_spec r 6); [lia|reflexivity].
  - split.
    + intros r Hr. rewrite Min by exact Hr. rewrite reg_win by lia. rewrite C1, V1. reflexivity.
    + intros a Ha. rewrite Mout by exact Ha. unfold c1. rewrite mem_set. reflexivity.
Qed.

(** The stack pointer of the frame that is [j] windows above the trap window [t]. *)
Definition chain (V : Z -> Z -> Z) (t j : Z) : Z := V ((t + j) mod 8) 30.
Lemma save_loop_ok : forall rest fuel c t j n i,
  0 <= t < 8 -> 0 <= j -> j + Z.of_nat rest = n -> n <= 7 -> i = (t + n + 1) mod 8 -> wim c = 2 ^ i -> glob c 1 = 2 ^ i ->
  cwp c = (t + j) mod 8 -> glob c 2 = mask (t + j) -> glob c 6 = j -> SUP c = true -> (rest < fuel)%nat ->
  (forall k, j <= k < n -> chain (win c) t k mod 8 = 0) ->
  (forall k a, j <= k < n -> chain (win c) t k <= a < chain (win c) t k + 64 -> 1 <= acc c a) ->
  (forall k l, j <= k < l -> l < n -> chain (win c) t k + 64 <= chain (win c) t l) ->
  exists c', save_loop fuel c = Some c' /\ cwp c' = (t + n) mod 8 /\ same_bits (psr c') (psr c) /\ win c' = win c /\ wim c' = wim c /\ yreg c' = yreg c /\
    acc c' = acc c /\ glob c' 6 = n /\ glob c' 3 = glob c 3 /\ glob c' 7 = glob c 7 /\
    (forall k r, j <= k < n -> 16 <= r < 32 -> mem c' (chain (win c) t k + 4 * (r - 16)) = win c ((t + k + 1) mod 8) r) /\
    (forall a, (forall k, j <= k < n -> ~ chain (win c) t k <= a < chain (win c) t k + 64) -> mem c' a = mem c a).
Proof.
  induction rest as [|rest IH]; intros fuel c t j n i Ht Hj Hn H7 Hi Hw H1 Hc H2 H6 HS Hf Hal Hacc Hgr; (destruct fuel as [|fuel]; [ql|]); cbn [save_loop];
    assert (Hi8 : 0 <= i < 8) by (rewrite Hi; apply Z.mod_pos_bound; reflexivity);
    (destruct (rotate_ok c (t + j) i H2) as (c1 & R1 & Z1 & C1 & B1 & V1 & W1 & Y1 & M1 & A1 & G2 & G1); [clear - Ht Hj H7 Hn; lia|exact H1|exact Hi8|]);
    rewrite R1, Z1.
  - assert (Ej : j = n) by (clear - Hn; lia). replace ((t + j + 1) mod 8 =? i) with true by (symmetry; apply Z.eqb_eq; rewrite Hi, Ej; reflexivity). cbn [negb].
    exists c1. split; [reflexivity|]. rewrite C1, V1, W1, Y1, A1, !G1 by ql. rewrite M1.
    split; [rewrite <- Ej; exact Hc|]. split; [exact B1|]. repeat (split; [reflexivity || (rewrite <- Ej; exact H6)|]). split; [intros; ql|reflexivity].
  - assert (Ne : (t + j + 1) mod 8 <> i) by (rewrite Hi; clear - Ht Hj H7 Hn; lia).
    apply Z.eqb_neq in Ne. rewrite Ne. cbn [negb]. apply Z.eqb_neq in Ne.
    assert (Ab : above (cwp c1) = (t + j + 1) mod 8) by (rewrite C1, Hc; unfold above, NW; clear - Ht Hj; lia).
    assert (Sp : win c1 (cwp c1) 30 = chain (win c) t j) by (rewrite V1, C1, Hc; reflexivity).
    destruct (save_one c1) as (c2 & R2 & C2 & B2 & V2 & W2 & Y2 & A2 & G6 & Go & Min & Mout).
    { rewrite C1, Hc. apply Z.mod_pos_bound. reflexivity. }
    { rewrite Ab, W1, Hw, wim_bit; [|exact Hi8|apply Z.mod_pos_bound; reflexivity]. apply Z.eqb_neq. congruence. }
    { unfold SUP. rewrite B1 by ql. exact HS. }
    { rewrite G1, H6 by ql. ql. }
    { rewrite Sp. apply Hal. ql. }
    { rewrite Sp, A1. intros a Ha. apply (Hacc j); [ql|exact Ha]. }
    rewrite Sp in Min, Mout. rewrite R2.
    destruct (IH fuel c2 t (j + 1) n i) as (c' & R & C' & B' & V' & W' & Y' & A' & E6 & E3 & E7 & Ain & Aout); try assumption; try ql.
    { rewrite Go, G1 by ql. exact H1. }
    { rewrite C2, Ab. f_equal. ql. }
    { rewrite Go, G2 by ql. f_equal. ql. }
    { rewrite G6, G1, H6 by ql. reflexivity. }
    { unfold SUP. rewrite B2, B1 by ql. exact HS. }
    { rewrite V2, V1. intros k Hk. apply Hal. ql. }
    { rewrite V2, V1, A2, A1. intros k a Hk Ha. apply (Hacc k); [ql|exact Ha]. }
    { rewrite V2, V1. intros k l Hk Hl. apply Hgr; ql. }
    rewrite V2, V1 in *. exists c'. split; [exact R|]. rewrite W', W2, W1, Y', Y2, Y1, A', A2, A1, E3, E7, !Go, !G1 by ql.
    split; [exact C'|]. split; [apply same_bits_trans with (psr c2); [exact B'|]; apply same_bits_trans with (psr c1); assumption|].
    split; [exact V'|]. repeat (split; [reflexivity || exact E6|]). split.
    + intros k r Hk Hr. destruct (Z.eq_dec k j) as [-> | N].
      * rewrite Aout.
        -- rewrite Min by exact Hr. rewrite Ab. reflexivity.
        -- intros l Hl. assert (L1 : j <= j < l) by ql. assert (L2 : l < n) by ql. pose proof (Hgr j l L1 L2). clear - H Hr. lia.
      * apply Ain; ql.
    + intros a Ha. rewrite Aout by (intros k Hk; apply Ha; ql). rewrite Mout by (apply Ha; ql). rewrite M1. reflexivity.
Qed.

(** ** Up to the loop *)
Lemma win_set_out : forall r v c w r', 8 <= r < 16 -> win (set_reg r v c) w r' = if (w =? below (cwp c)) && (r' =? r + 16) then v else win c w r'.
Proof.
  intros r v c w r' Hr. rewrite win_set by lia. destruct (Z.leb_spec 8 r); [|lia]. destruct (Z.ltb_spec r 16); [|lia].
  destruct (Z.leb_spec 16 r); [lia|]. cbn [andb]. rewrite orb_false_r. reflexivity.
Qed.
Lemma reg_psr : forall p c r, Z.land p 31 = cwp c -> reg (set_psr p c) r = reg c r.
Proof. intros p c r H. unfold reg. replace (cwp (set_psr p c)) with (cwp c) by (symmetry; exact H). reflexivity. Qed.
Definition kernel_psr (p : Z) : Z := Z.ldiff (Z.lor p 0xFE0) 0x20.
Lemma kernel_psr_cwp : forall p, Z.land (kernel_psr p) 31 = Z.land p 31.
Proof.
  intros p. unfold kernel_psr. rewrite ldiff_low; [apply lor_low; reflexivity|].
  intros n Hn. change 0x20 with (2 ^ 5). rewrite Z.pow2_bits_false by lia. reflexivity.
Qed.
Lemma kernel_psr_bit : forall p n, 5 <= n -> Z.testbit (kernel_psr p) n = if n =? 5 then false else if n <? 12 then true else Z.testbit p n.
Proof.
  intros p n Hn. unfold kernel_psr. rewrite Z.ldiff_spec, Z.lor_spec. change 0x20 with (2 ^ 5). rewrite Z.pow2_bits_eqb by lia.
  rewrite Z.eqb_sym. destruct (Z.eqb_spec n 5); cbn [negb]; [apply andb_false_r|]. rewrite andb_true_r.
  destruct (Z.ltb_spec n 12).
  - assert (C : n = 6 \/ n = 7 \/ n = 8 \/ n = 9 \/ n = 10 \/ n = 11) by lia. repeat (destruct C as [-> | C]); try subst n; apply orb_true_r.
  - rewrite (testbit_small 0xFE0 n 12) by lia. apply orb_false_r.
Qed.

Lemma pre_ok : forall k tt c, 0 <= cwp c < 8 ->
  exists c', run (trap_handle tt ++ prehandler k ++ [Rdpsr 8; Andn 8 8 0x20; Wrpsr 8]) c = Some c' /\ psr c' = kernel_psr (psr c) /\
    wim c' = wim c /\ yreg c' = yreg c /\ mem c' = mem c /\ acc c' = acc c /\ (forall r, glob c' r = glob c r) /\
    (forall w r, w = cwp c /\ r <> 16 /\ (r < 19 \/ 22 < r) \/ w = below (cwp c) /\ r <> 24 /\ r <> 30 /\ r <> 31 \/ w <> cwp c /\ w <> below (cwp c) -> win c' w r = win c w r) /\
    win c' (cwp c) 16 = wim c /\ win c' (cwp c) 19 = psr c /\ win c' (cwp c) 20 = tt /\
    win c' (below (cwp c)) 24 = kernel_psr (psr c) /\ win c' (below (cwp c)) 30 = u32 (win c (cwp c) 30 - 0x40) /\ win c' (below (cwp c)) 31 = at_save k.
Proof.
  intros k tt c Hc. set (t := cwp c) in *. pose proof (below_cwp c) as Nb. fold t in Nb.
  set (ca := set_reg 21 (Z.lor (psr c) 0xFE0) (set_reg 22 (psr c) (set_reg 14 (u32 (win c t 30 - 0x40)) (set_reg 20 tt (set_reg 19 (psr c) (set_reg 16 (wim c) c)))))).
  assert (Ca : cwp ca = t) by (unfold ca; autorewrite with sprj; reflexivity).
  assert (L1 : Z.land (Z.lor (psr c) 0xFE0) 31 = t) by (rewrite lor_low; reflexivity).
  assert (L2 : Z.land (kernel_psr (psr c)) 31 = t) by (rewrite kernel_psr_cwp; reflexivity).
  set (cb := set_psr (Z.lor (psr c) 0xFE0) ca).
  assert (Cb : cwp cb = t) by exact L1.
  set (cc := set_reg 8 (kernel_psr (psr c)) (set_reg 8 (Z.lor (psr c) 0xFE0) (set_reg 15 (at_save k) cb))).
  assert (Cc : cwp cc = t) by (unfold cc; rewrite !cwp_set; exact Cb).
  set (cd := set_psr (kernel_psr (psr c)) cc).
  assert (Wa : forall w r, win cd w r = if (w =? below t) && (r =? 24) then kernel_psr (psr c) else if (w =? below t) && (r =? 31) then at_save k else
                 if (w =? t) && (r =? 21) then Z.lor (psr c) 0xFE0 else if (w =? t) && (r =? 22) then psr c else
                 if (w =? below t) && (r =? 30) then u32 (win c t 30 - 0x40) else if (w =? t) && (r =? 20) then tt else
                 if (w =? t) && (r =? 19) then psr c else if (w =? t) && (r =? 16) then wim c else win c w r).
  { intros w r. change (win cd w r) with (win cc w r). unfold cc. rewrite !win_set_out by lia. rewrite !cwp_set, Cb. change (8 + 16) with 24. change (15 + 16) with 31.
    change (win cb w r) with (win ca w r). unfold ca. rewrite !win_set_local by lia. rewrite win_set_out by lia. rewrite !win_set_local by lia.
    rewrite !cwp_set. fold t. change (14 + 16) with 30. destruct ((w =? below t) && (r =? 24)); reflexivity. }
  exists cd. split; [|split; [reflexivity|]].
  - assert (R1 : run [Rdwim 16; Rdpsr 19; Movi 20 tt; Sub 14 30 0x40; Rdpsr 22; Ori 21 22 0xFE0] c = Some ca).
    { cbn [run exec]. autorewrite with sprj. regs. rewrite reg_win by lia. reflexivity. }
    assert (R2 : exec (Wrpsr 21) ca = Some cb).
    { unfold exec. replace (reg ca 21) with (Z.lor (psr c) 0xFE0) by (unfold ca; regs; reflexivity). rewrite L1.
      replace (t <? NW) with true by (symmetry; apply Z.ltb_lt; unfold NW; lia). reflexivity. }
    assert (R3 : run [Movi 15 (at_save k); Rdpsr 8; Andn 8 8 0x20] cb = Some cc).
    { cbn [run exec]. autorewrite with sprj. regs. reflexivity. }
    assert (R4 : exec (Wrpsr 8) cc = Some cd).
    { unfold exec. replace (reg cc 8) with (kernel_psr (psr c)) by (unfold cc; regs; reflexivity). rewrite L2.
      replace (t <? NW) with true by (symmetry; apply Z.ltb_lt; unfold NW; lia). reflexivity. }
    change (trap_handle tt ++ prehandler k ++ [Rdpsr 8; Andn 8 8 0x20; Wrpsr 8]) with
      ([Rdwim 16; Rdpsr 19; Movi 20 tt; Sub 14 30 0x40; Rdpsr 22; Ori 21 22 0xFE0] ++ [Wrpsr 21] ++ [Movi 15 (at_save k); Rdpsr 8; Andn 8 8 0x20] ++ [Wrpsr 8]).
    rewrite run_app, R1, run_app. cbn [run]. rewrite R2, run_app, R3. cbn [run]. rewrite R4. reflexivity.
  - unfold cd at 1 2 3 4 5. cbn [wim yreg mem acc glob set_psr]. unfold cc. autorewrite with sprj. unfold cb. cbn [wim yreg mem acc glob set_psr]. unfold ca. autorewrite with sprj.
    do 4 (split; [reflexivity|]). split.
    { intros r. regs. cbn [glob set_psr]. regs. reflexivity. }
    rewrite !Wa, !Z.eqb_refl. apply Z.eqb_neq in Nb. rewrite !(Z.eqb_sym t (below t)), Nb. cbn [andb Z.eqb Pos.eqb]. split; [|repeat split].
    intros w r H. rewrite Wa. apply Z.eqb_neq in Nb. clear - H Nb.
    destruct (Z.eqb_spec w t), (Z.eqb_spec w (below t)); subst; cbn [andb]; try congruence; try reflexivity; rcase; reflexivity.
Qed.

Definition own_list : list (Z * Z) :=
  [(1, -0x1c); (2, -0x18); (3, -0x14); (4, -0x10); (5, -0x0c); (6, -0x08); (7, -0x04);
   (24, -0x20); (25, -0x24); (26, -0x28); (27, -0x2c); (28, -0x30); (29, -0x34); (30, -0x38); (31, -0x3c)].
Lemma save_head_eq : save_head = [Rdpsr 8; Andn 8 8 0x20; Wrpsr 8] ++ sts own_list ++ [And 3 8 31; Movi 2 1; Sllr 2 2 3; Rdwim 1; Mov 7 15; Movi 6 0].
Proof. reflexivity. Qed.
Lemma eight_regs : forall r, 24 <= r < 32 -> r = 24 \/ r = 25 \/ r = 26 \/ r = 27 \/ r = 28 \/ r = 29 \/ r = 30 \/ r = 31.
Proof. lia. Qed.
Lemma seven_regs : forall r, 1 <= r < 8 -> r = 1 \/ r = 2 \/ r = 3 \/ r = 4 \/ r = 5 \/ r = 6 \/ r = 7.
Proof. lia. Qed.
Lemma pow_mask : forall t, 0 <= t < 8 -> u32 (1 * 2 ^ (t mod 32)) = mask t.
Proof. intros t H. eight H; reflexivity. Qed.

Lemma own_ok : forall c, 0 <= cwp c < 8 -> win c (cwp c) 30 mod 4 = 0 -> SUP c = true ->
  (forall a, win c (cwp c) 30 - 84 <= a < win c (cwp c) 30 -> 1 <= acc c a) -> Z.land (reg c 8) 31 = cwp c ->
  exists c', run (sts own_list ++ [And 3 8 31; Movi 2 1; Sllr 2 2 3; Rdwim 1; Mov 7 15; Movi 6 0]) c = Some c' /\
    psr c' = psr c /\ wim c' = wim c /\ yreg c' = yreg c /\ acc c' = acc c /\ win c' = win c /\
    glob c' 1 = wim c /\ glob c' 2 = mask (cwp c) /\ glob c' 3 = cwp c /\ glob c' 6 = 0 /\
    (forall r, 1 <= r < 8 -> mem c' (win c (cwp c) 30 - G_OFF r) = glob c r) /\
    (forall r, 24 <= r < 32 -> mem c' (win c (cwp c) 30 - I_OFF r) = win c (cwp c) r) /\
    (forall a, ~ win c (cwp c) 30 - 60 <= a < win c (cwp c) 30 -> mem c' a = mem c a).
Proof.
  intros c Hc Hal HS Hacc H8. assert (R30 : reg c 30 = win c (cwp c) 30) by (rewrite reg_win by lia; reflexivity).
  assert (Rs := sts_ok own_list c eq_refl). rewrite R30 in Rs. specialize (Rs Hal). set (s := win c (cwp c) 30) in *.
  assert (M : forall a, s - 84 <= a < s -> may c a = true) by (intros a Ha; apply may_sup; [exact HS|]; apply Hacc; exact Ha).
  specialize (Rs M). set (m := stores _ _ _) in Rs.
  set (c1 := set_mem m c) in *.
  set (c2 := set_reg 6 0 (set_reg 7 (reg c1 15) (set_reg 1 (wim c) (set_reg 2 (mask (cwp c)) (set_reg 2 1 (set_reg 3 (cwp c) c1)))))).
  assert (R2 : run [And 3 8 31; Movi 2 1; Sllr 2 2 3; Rdwim 1; Mov 7 15; Movi 6 0] c1 = Some c2).
  { cbn [run exec]. change (reg c1 8) with (reg c 8). rewrite H8. autorewrite with sprj. regs. rewrite pow_mask by exact Hc. reflexivity. }
  exists c2. split; [rewrite run_app, Rs; exact R2|].
  assert (G : forall r, r = 1 \/ r = 2 \/ r = 3 \/ r = 6 -> glob c2 r = if r =? 6 then 0 else if r =? 1 then wim c else if r =? 2 then mask (cwp c) else cwp c).
  { intros r Hr. unfold c2. rewrite !glob_set by lia. repeat (destruct Hr as [-> | Hr]); try subst r; reflexivity. }
  rewrite !G by lia. assert (Mm : mem c2 = m) by (unfold c2; autorewrite with sprj; reflexivity). rewrite Mm.
  unfold c2 at 1 2 3 4. autorewrite with sprj. do 4 (split; [reflexivity|]). split; [reflexivity|].
  do 4 (split; [reflexivity|]). unfold m. split; [|split].
  - intros r Hr. replace (s - G_OFF r) with (s + (4 * r - 32)) by (unfold G_OFF; lia). rewrite stores_at.
    apply seven_regs in Hr. repeat (destruct Hr as [-> | Hr]); try subst r; reflexivity.
  - intros r Hr. replace (s - I_OFF r) with (s + (64 - 4 * r)) by (unfold I_OFF; lia). rewrite stores_at.
    apply eight_regs in Hr. repeat (destruct Hr as [-> | Hr]); try subst r; cbn [map own_list found fold_left Z.eqb Pos.eqb fst snd]; apply reg_win; lia.
  - intros a Ha. apply stores_out. intros x Hx. apply in_map_iff in Hx. destruct Hx as ((r, o) & <- & Hx). cbn [fst snd].
    assert (Ho : -60 <= o < 0).
    { assert (F : forallb (fun x => (-60 <=? snd x) && (snd x <? 0)) own_list = true) by reflexivity. rewrite forallb_forall in F. specialize (F (r, o) Hx). cbn [snd] in F.
      apply andb_prop in F. destruct F as [F1 F2]. apply Z.leb_le in F1. apply Z.ltb_lt in F2. lia. }
    clear - Ha Ho. lia.
Qed.

(** ** After the loop *)
Definition back_psr (t p : Z) : Z := Z.lor (Z.lor (Z.ldiff p 31) t) 0x20.
Lemma back_psr_cwp : forall t p, 0 <= t < 8 -> Z.land (back_psr t p) 31 = t.
Proof.
  intros t p Ht. unfold back_psr. rewrite lor_low by reflexivity. change (Z.lor (Z.ldiff p 31) t) with (set_cwp t p). apply set_cwp_low. lia.
Qed.
Lemma back_psr_bit : forall t p n, 0 <= t < 8 -> 5 <= n -> Z.testbit (back_psr t p) n = if n =? 5 then true else Z.testbit p n.
Proof.
  intros t p n Ht Hn. unfold back_psr. rewrite Z.lor_spec, bit32 by lia. change (Z.lor (Z.ldiff p 31) t) with (set_cwp t p). rewrite set_cwp_high by lia.
  destruct (n =? 5); [apply orb_true_r|apply orb_false_r].
Qed.
Lemma tail_ok : forall k c t, 0 <= t < 8 -> glob c 3 = t -> win c t 30 mod 4 = 0 -> SUP c = true ->
  (forall a, win c t 30 - 84 <= a < win c t 30 -> 1 <= acc c a) ->
  exists c', run (save_tail ++ call_handler k) c = Some c' /\ psr c' = back_psr t (psr c) /\ wim c' = 2 ^ above t /\ yreg c' = yreg c /\ acc c' = acc c /\
    reg c' 8 = win c t 17 /\ reg c' 9 = win c t 18 /\ reg c' 10 = win c t 19 /\ reg c' 11 = win c t 20 /\ reg c' 12 = glob c 6 /\ reg c' 13 = win c t 30 /\
    reg c' 14 = Z.ldiff (u32 (kstack k - 0x40)) 0xf /\
    mem c' (win c t 30 - WIM_OFF) = win c t 16 /\ mem c' (win c t 30 - PSR_OFF) = win c t 19 /\ mem c' (win c t 30 - Y_OFF) = yreg c /\
    mem c' (win c t 30 - PC_OFF) = win c t 17 /\ mem c' (win c t 30 - NPC_OFF) = win c t 18 /\ mem c' (win c t 30 - CNT_OFF) = glob c 6 /\
    (forall a, ~ win c t 30 - 84 <= a <= win c t 30 - 64 -> mem c' a = mem c a).
Proof.
  intros k c t Ht H3 Hal HS Hacc. set (s := win c t 30) in *.
  set (c1 := set_psr (back_psr t (psr c)) (set_reg 5 (back_psr t (psr c)) (set_reg 5 (set_cwp t (psr c)) (set_reg 5 (Z.ldiff (psr c) 31) (set_reg 5 (psr c) c))))).
  assert (R1 : run [Rdpsr 5; Andn 5 5 31; Or 5 5 3; Ori 5 5 0x20; Wrpsr 5] c = Some c1).
  { cbn [run exec]. autorewrite with sprj. regs. rewrite (reg_glob c 3) by lia. rewrite H3. change (Z.lor (Z.lor (Z.ldiff (psr c) 31) t) 32) with (back_psr t (psr c)).
    rewrite back_psr_cwp by exact Ht. replace (t <? NW) with true by (symmetry; apply Z.ltb_lt; unfold NW; lia). reflexivity. }
  assert (C1 : cwp c1 = t) by (apply back_psr_cwp; exact Ht).
  assert (V1 : win c1 = win c) by reflexivity.
  assert (G1 : forall r, r = 3 \/ r = 6 -> glob c1 r = glob c r).
  { intros r Hr. unfold c1. cbn [glob set_psr]. rewrite !glob_set by lia. destruct Hr as [-> | ->]; reflexivity. }
  set (c2 := set_wim (2 ^ above t) (set_reg 5 (Z.lor (2 ^ t / 2 ^ 7) (u32 (2 ^ t * 2 ^ 1))) (set_reg 5 (2 ^ t / 2 ^ 7) (set_reg 1 (u32 (2 ^ t * 2 ^ 1)) (set_reg 5 (2 ^ t) (set_reg 5 1 c1)))))).
  assert (R2 : run [Movi 5 1; Sllr 5 5 3; Sll 1 5 1; Srl 5 5 7; Or 5 5 1; Wrwim 5] c1 = Some c2).
  { cbn [run exec]. regs. rewrite (reg_glob c1 3) by lia. rewrite G1 by (left; reflexivity). rewrite H3, pow_mask by exact Ht.
    replace (mask t) with (2 ^ t) by (unfold mask; destruct (Z.ltb_spec t 8); [reflexivity|lia]). rewrite rotate_left by exact Ht. reflexivity. }
  assert (P2 : psr c2 = back_psr t (psr c)) by (unfold c2; cbn [psr set_wim]; autorewrite with sprj; reflexivity).
  assert (C2 : cwp c2 = t) by (unfold cwp; rewrite P2; apply back_psr_cwp; exact Ht).
  assert (V2 : win c2 = win c) by reflexivity.
  assert (G2 : glob c2 6 = glob c 6) by (unfold c2; cbn [glob set_wim]; rewrite !glob_set by lia; cbn [Z.eqb Pos.eqb]; apply G1; right; reflexivity).
  assert (Q2 : yreg c2 = yreg c /\ mem c2 = mem c /\ acc c2 = acc c).
  { unfold c2, c1. cbn [yreg mem acc set_wim]. autorewrite with sprj. cbn [yreg mem acc set_psr]. autorewrite with sprj. repeat split. }
  destruct Q2 as (Y2 & M2 & A2).
  assert (S2 : SUP c2 = true) by (unfold SUP; rewrite P2, back_psr_bit by lia; exact HS).
  assert (Rw : forall d r, win d = win c -> cwp d = t -> 16 <= r < 32 -> reg d r = win c t r) by (intros d r Ed Ec Hr; rewrite reg_win by lia; rewrite Ed, Ec; reflexivity).
  pose proof (sts_ok [(16, -0x40); (19, -0x44)] c2 eq_refl) as Ra. rewrite (Rw c2 30 V2 C2) in Ra by lia. fold s in Ra.
  specialize (Ra Hal). assert (Mc : forall a, s - 84 <= a < s -> may c2 a = true) by (intros a Ha; apply may_sup; [exact S2|]; rewrite A2; apply Hacc; exact Ha).
  specialize (Ra Mc). cbn [map fst snd] in Ra. rewrite (Rw c2 16 V2 C2), (Rw c2 19 V2 C2) in Ra by lia.
  set (c3 := set_reg 11 (yreg c) (set_mem (stores (mem c2) s [(-64, win c t 16); (-68, win c t 19)]) c2)).
  assert (C3 : cwp c3 = t) by (unfold c3; rewrite cwp_set; exact C2).
  assert (P3 : psr c3 = psr c2) by (unfold c3; rewrite psr_set; reflexivity).
  assert (V3 : forall r, win c3 t r = win c t r).
  { intros r. unfold c3. rewrite win_set_out by lia. change (cwp (set_mem _ c2)) with (cwp c2). rewrite C2.
    destruct (Z.eqb_spec t (below t)) as [E|_]; [exfalso; unfold below, NW in E; clear - E Ht; lia|]. reflexivity. }
  assert (Rw3 : forall r, 16 <= r < 32 -> reg c3 r = win c t r) by (intros r Hr; rewrite reg_win by lia; rewrite C3; apply V3).
  assert (R63 : reg c3 6 = glob c 6) by (unfold c3; rewrite reg_set by lia; eqbs; rewrite reg_glob by lia; exact G2).
  assert (R113 : reg c3 11 = yreg c) by (unfold c3; rewrite reg_set by lia; reflexivity).
  pose proof (sts_ok [(11, -0x48); (17, -0x4c); (18, -0x50); (6, -0x54)] c3 eq_refl) as Rb. rewrite (Rw3 30) in Rb by lia. fold s in Rb. specialize (Rb Hal).
  assert (Md : forall a, s - 84 <= a < s -> may c3 a = true) by (intros a Ha; unfold c3; rewrite may_set; exact (Mc a Ha)).
  specialize (Rb Md). cbn [map fst snd] in Rb. rewrite (Rw3 17), (Rw3 18), R63, R113 in Rb by lia.
  set (m := stores (mem c3) s _) in Rb. set (c4 := set_mem m c3) in *.
  assert (C4 : cwp c4 = t) by exact C3.
  set (ks := Z.ldiff (u32 (kstack k - 0x40)) 0xf).
  set (c5 := set_reg 13 s (set_reg 15 (at_handler k) (set_reg 12 (glob c 6) (set_reg 11 (win c t 20) (set_reg 10 (win c t 19) (set_reg 9 (win c t 18) (set_reg 8 (win c t 17)
    (set_reg 30 ks (set_reg 14 ks (set_reg 23 ks (set_reg 23 (u32 (kstack k - 0x40)) (set_reg 23 (kstack k) (set_reg 22 s c4))))))))))))).
  assert (R5 : run (call_handler k) c4 = Some c5).
  { unfold call_handler. cbn [run exec]. regs. change (reg c4) with (reg c3). rewrite (Rw3 30), (Rw3 17), (Rw3 18), (Rw3 19), (Rw3 20), R63 by lia. reflexivity. }
  exists c5. split.
  - change save_tail with ([Rdpsr 5; Andn 5 5 31; Or 5 5 3; Ori 5 5 0x20; Wrpsr 5] ++ [Movi 5 1; Sllr 5 5 3; Sll 1 5 1; Srl 5 5 7; Or 5 5 1; Wrwim 5] ++
      sts [(16, -0x40); (19, -0x44)] ++ [Rdy 11] ++ sts [(11, -0x48); (17, -0x4c); (18, -0x50); (6, -0x54)]).
    rewrite <- !app_assoc. rewrite run_app, R1, run_app, R2, run_app, Ra.
    change (run ([Rdy 11] ++ sts [(11, -0x48); (17, -0x4c); (18, -0x50); (6, -0x54)] ++ call_handler k) (set_mem (stores (mem c2) s [(-64, win c t 16); (-68, win c t 19)]) c2))
      with (run (sts [(11, -0x48); (17, -0x4c); (18, -0x50); (6, -0x54)] ++ call_handler k) (set_reg 11 (yreg c2) (set_mem (stores (mem c2) s [(-64, win c t 16); (-68, win c t 19)]) c2))).
    rewrite Y2. fold c3. rewrite run_app, Rb. exact R5.
  - assert (M5 : mem c5 = stores (mem c) s ([(-64, win c t 16); (-68, win c t 19)] ++ [(-0x48, yreg c); (-0x4c, win c t 17); (-0x50, win c t 18); (-0x54, glob c 6)])).
    { unfold c5. autorewrite with sprj. unfold stores. rewrite fold_left_app. unfold c4. cbn [mem set_mem]. unfold m, c3. rewrite mem_set. cbn [mem set_mem]. rewrite M2. reflexivity. }
    rewrite M5. cbn [app]. unfold WIM_OFF, PSR_OFF, Y_OFF, PC_OFF, NPC_OFF, CNT_OFF.
    split; [unfold c5; autorewrite with sprj; unfold c4; cbn [psr set_mem]; rewrite P3; exact P2|].
    split; [unfold c5, c4, c3; autorewrite with sprj; cbn [wim set_mem]; autorewrite with sprj; reflexivity|].
    split; [unfold c5, c4, c3; autorewrite with sprj; cbn [yreg set_mem]; autorewrite with sprj; exact Y2|].
    split; [unfold c5, c4, c3; autorewrite with sprj; cbn [acc set_mem]; autorewrite with sprj; exact A2|].
    do 7 (split; [unfold c5; regs; reflexivity|]).
    replace (s - 64) with (s + -64) by lia. replace (s - 68) with (s + -68) by lia. replace (s - 72) with (s + -72) by lia.
    replace (s - 76) with (s + -76) by lia. replace (s - 80) with (s + -80) by lia. replace (s - 84) with (s + -84) by lia.
    rewrite !stores_at. do 6 (split; [reflexivity|]).
    intros a Ha. apply stores_out. intros x Hx. cbn [In] in Hx. repeat (destruct Hx as [<- | Hx]; [cbn [fst]; clear - Ha; lia|]). contradiction.
Qed.

(** ** From the trap to the C function *)
Lemma enter_ok : forall k tt c t n s, windows c -> t = below (cwp c) -> n = resident c -> s = win c t 30 ->
  (forall j, 0 <= j < n -> chain (win c) t j mod 8 = 0) ->
  (forall j a, 0 <= j < n -> chain (win c) t j <= a < chain (win c) t j + 64 -> 1 <= acc c a) ->
  (forall i j, 0 <= i < j -> j < n -> chain (win c) t i + 64 <= chain (win c) t j) ->
  (forall a, s - 84 <= a < s -> 1 <= acc c a) ->
  exists c', enter k tt c = Some c' /\ cwp c' = t /\
    (forall b, 5 <= b < 20 \/ 24 <= b -> Z.testbit (psr c') b = if b <? 12 then true else Z.testbit (psr c) b) /\
    wim c' = 2 ^ cwp c /\ yreg c' = yreg c /\ acc c' = acc c /\
    reg c' 8 = pc c /\ reg c' 9 = npc c /\ reg c' 11 = tt /\ reg c' 12 = n /\ reg c' 13 = s /\ reg c' 14 = Z.ldiff (u32 (kstack k - 0x40)) 0xf /\
    (forall r, 1 <= r < 8 -> mem c' (s - G_OFF r) = glob c r) /\ (forall r, 24 <= r < 32 -> mem c' (s - I_OFF r) = win c t r) /\
    mem c' (s - PC_OFF) = pc c /\ mem c' (s - NPC_OFF) = npc c /\ mem c' (s - CNT_OFF) = n /\ mem c' (s - Y_OFF) = yreg c /\
    (forall j r, 0 <= j < n -> 16 <= r < 32 -> j < 6 \/ r <> 24 /\ r <> 30 /\ r <> 31 ->
      mem c' (chain (win c) t j + 4 * (r - 16)) = win c ((cwp c + j) mod 8) r) /\
    (n = 7 -> mem c' (chain (win c) t 6 + 56) = u32 (s - 64) /\ mem c' (chain (win c) t 6 + 60) = at_save k) /\
    (forall a, ~ s - 84 <= a < s -> (forall j, 0 <= j < n -> ~ chain (win c) t j <= a < chain (win c) t j + 64) -> mem c' a = mem c a).
Proof.
  intros k tt c t n s (Hc & Hi & Hw & Hne & HET) Et En Es Hal Hacc Hgr Hown. unfold NW in *.
  destruct (trap_ok c Hc) as (C0 & P0 & W0 & Y0 & M0 & A0 & G0 & V0 & L1 & L2). rewrite <- Et in *.
  assert (Ht : 0 <= t < 8) by (rewrite Et; apply below_range).
  assert (Hn : 1 <= n <= 7) by (rewrite En; unfold resident, NW; clear - Hc Hi Hne; lia).
  assert (Ei : invalid c = (t + n + 1) mod 8) by (rewrite En, Et; unfold resident, below, NW; clear - Hc Hi Hne; lia).
  assert (Ea : above t = cwp c) by (rewrite Et; apply above_below; exact Hc).
  assert (Bb : below t = (t + 7) mod 8) by (unfold below, NW; clear - Ht; lia).
  assert (Ej : forall j, (t + j + 1) mod 8 = (cwp c + j) mod 8) by (intros j; rewrite Et; unfold below, NW; clear - Hc; lia).
  clear Et. set (c0 := trap c) in *.
  destruct (pre_ok k tt c0) as (c1 & R1 & P1 & W1 & Y1 & M1 & A1 & G1 & V1 & X16 & X19 & X20 & X24 & X30 & X31); [rewrite C0; exact Ht|]. rewrite C0 in *.
  assert (C1 : cwp c1 = t) by (unfold cwp; rewrite P1, kernel_psr_cwp; exact C0).
  assert (B1 : forall b, 5 <= b -> Z.testbit (psr c1) b = if b =? 5 then false else if b <? 12 then true else Z.testbit (psr c) b).
  { intros b Hb. rewrite P1, kernel_psr_bit by exact Hb. destruct (Z.eqb_spec b 5); [reflexivity|]. destruct (Z.ltb_spec b 12); [reflexivity|].
    rewrite P0, set_cwp_high by (clear - Ht Hb; lia). rewrite trap_psr_bit by (clear - Hb; lia).
    destruct (Z.eqb_spec b 5); [contradiction|]. destruct (Z.eqb_spec b 6); [exfalso; clear - e H; lia|]. destruct (Z.eqb_spec b 7); [exfalso; clear - e H; lia|]. reflexivity. }
  (* the windows of the thread when the loop begins *)
  assert (Vt : forall r, 24 <= r < 32 -> win c1 t r = win c t r).
  { intros r Hr. rewrite V1 by (left; split; [reflexivity|]; clear - Hr; lia). apply V0. right. clear - Hr. lia. }
  assert (V17 : win c1 t 17 = pc c) by (rewrite V1; [exact L1|left; split; [reflexivity|]; clear; lia]).
  assert (V18 : win c1 t 18 = npc c) by (rewrite V1; [exact L2|left; split; [reflexivity|]; clear; lia]).
  assert (Vj : forall j r, 0 <= j < 7 -> 16 <= r < 32 -> j < 6 \/ r <> 24 /\ r <> 30 /\ r <> 31 -> win c1 ((t + j + 1) mod 8) r = win c ((t + j + 1) mod 8) r).
  { intros j r Hj Hr Hx. rewrite V1.
    - apply V0. left. clear - Hj Ht. lia.
    - right. rewrite Bb. destruct (Z.eq_dec j 6) as [-> | N]; [left; split; [f_equal; clear; lia|]; clear - Hx; lia|].
      right. clear - Hj Ht N. lia. }
  assert (Ch : forall j, 0 <= j < n -> chain (win c1) t j = chain (win c) t j).
  { intros j Hj. unfold chain. destruct (Z.eq_dec j 0) as [-> | N].
    - rewrite Z.add_0_r, Z.mod_small by exact Ht. apply Vt. clear; lia.
    - replace (t + j) with (t + (j - 1) + 1) by (clear; lia). apply Vj; clear - Hj Hn N; lia. }
  assert (S0 : win c1 t 30 = s) by (rewrite Vt by (clear; lia); rewrite Es; reflexivity).
  assert (C0' : chain (win c) t 0 = s) by (unfold chain; rewrite Z.add_0_r, Z.mod_small by exact Ht; rewrite Es; reflexivity).
  assert (S8 : s mod 8 = 0) by (rewrite <- C0'; apply Hal; clear - Hn; lia).
  assert (R8 : reg c1 8 = psr c1) by (rewrite reg_out by (clear; lia); rewrite C1; change (8 + 16) with 24; rewrite X24, P1; reflexivity).
  assert (A10 : acc c1 = acc c) by (rewrite A1; exact A0).
  destruct (own_ok c1) as (c2 & R2 & P2 & W2 & Y2 & A2 & V2 & G21 & G22 & G23 & G26 & Mg & Mi & Mo); rewrite ?C1, ?S0 in *.
  { exact Ht. }
  { clear - S8. lia. }
  { unfold SUP. rewrite B1 by (clear; lia). reflexivity. }
  { rewrite A10. exact Hown. }
  { rewrite R8. exact C1. }
  assert (C2 : cwp c2 = t) by (unfold cwp; rewrite P2; exact C1).
  assert (W20 : wim c2 = 2 ^ ((t + n + 1) mod 8)) by (rewrite W2, W1, W0, Hw, <- Ei; reflexivity).
  assert (A20 : acc c2 = acc c) by (rewrite A2; exact A10).
  destruct (save_loop_ok (Z.to_nat n) 8 c2 t 0 n ((t + n + 1) mod 8)) as (c3 & R3 & C3 & B3 & V3 & W3 & Y3 & A3 & G36 & G33 & G37 & Min & Mout); rewrite ?V2, ?A20 in *.
  { exact Ht. }
  { clear; lia. }
  { clear - Hn. lia. }
  { clear - Hn. lia. }
  { reflexivity. }
  { exact W20. }
  { rewrite G21, <- W20, W2. reflexivity. }
  { rewrite Z.add_0_r, Z.mod_small by exact Ht. exact C2. }
  { rewrite Z.add_0_r. exact G22. }
  { exact G26. }
  { unfold SUP. rewrite P2, B1 by (clear; lia). reflexivity. }
  { clear - Hn. lia. }
  { intros j Hj. rewrite Ch by exact Hj. apply Hal. exact Hj. }
  { intros j a Hj Ha. rewrite Ch in Ha by exact Hj. apply (Hacc j); assumption. }
  { intros i j Hij Hj. rewrite !Ch by (clear - Hij Hj; lia). apply Hgr; assumption. }
  destruct (tail_ok k c3 t Ht) as (c4 & R4 & P4 & W4 & Y4 & A4 & K8 & K9 & K10 & K11 & K12 & K13 & K14 & Nw & Np & Ny & Npc & Nnpc & Nc & Nout); rewrite ?V3, ?S0, ?A3 in *.
  { rewrite G33. exact G23. }
  { clear - S8. lia. }
  { unfold SUP. rewrite B3, P2, B1 by (clear; lia). reflexivity. }
  { exact Hown. }
  assert (Up : forall j, 0 <= j < n -> s <= chain (win c) t j).
  { intros j Hj. destruct (Z.eq_dec j 0) as [-> | N]; [rewrite C0'; clear; lia|]. pose proof (Hgr 0 j ltac:(clear - Hj N; lia) ltac:(clear - Hj; lia)) as G. rewrite C0' in G. clear - G. lia. }
  assert (Keep : forall a, s - 60 <= a < s -> mem c4 a = mem c2 a).
  { intros a Ha. rewrite Nout by (clear - Ha; lia). apply Mout. intros j Hj. rewrite Ch by exact Hj. pose proof (Up j Hj) as U. clear - U Ha. lia. }
  assert (Fr : forall j r, 0 <= j < n -> 16 <= r < 32 -> mem c4 (chain (win c) t j + 4 * (r - 16)) = win c1 ((t + j + 1) mod 8) r).
  { intros j r Hj Hr. pose proof (Up j Hj) as U. rewrite Nout by (clear - U Hr; lia). rewrite <- (Ch j Hj). apply Min; assumption. }
  exists c4. split.
  { unfold enter. fold c0. rewrite save_head_eq.
    replace (trap_handle tt ++ prehandler k ++ [Rdpsr 8; Andn 8 8 0x20; Wrpsr 8] ++ sts own_list ++ [And 3 8 31; Movi 2 1; Sllr 2 2 3; Rdwim 1; Mov 7 15; Movi 6 0])
      with ((trap_handle tt ++ prehandler k ++ [Rdpsr 8; Andn 8 8 0x20; Wrpsr 8]) ++ sts own_list ++ [And 3 8 31; Movi 2 1; Sllr 2 2 3; Rdwim 1; Mov 7 15; Movi 6 0]) by reflexivity.
    rewrite run_app, R1, R2. cbn [bind]. rewrite R3. cbn [bind]. exact R4. }
  split; [unfold cwp; rewrite P4; apply back_psr_cwp; exact Ht|]. split.
  { intros b Hb. rewrite P4, back_psr_bit; [|exact Ht|clear - Hb; lia]. destruct (Z.eqb_spec b 5) as [-> | N]; [reflexivity|].
    rewrite B3 by exact Hb. rewrite P2, B1 by (clear - Hb; lia). destruct (Z.eqb_spec b 5); [contradiction|reflexivity]. }
  split; [rewrite W4, Ea; reflexivity|]. split; [rewrite Y4, Y3, Y2, Y1; exact Y0|]. split; [rewrite A4; reflexivity|].
  split; [rewrite K8; exact V17|]. split; [rewrite K9; exact V18|].
  split; [rewrite K11, X20; reflexivity|]. split; [rewrite K12; exact G36|]. split; [exact K13|]. split; [exact K14|].
  split. { intros r Hr. rewrite Keep by (unfold G_OFF; clear - Hr; lia). rewrite Mg by exact Hr. rewrite G1. apply G0. }
  split. { intros r Hr. rewrite Keep by (unfold I_OFF; clear - Hr; lia). rewrite Mi by exact Hr. apply Vt. exact Hr. }
  split; [rewrite Npc; exact V17|]. split; [rewrite Nnpc; exact V18|]. split; [rewrite Nc; exact G36|].
  split; [rewrite Ny, Y3, Y2, Y1; exact Y0|].
  split. { intros j r Hj Hr Hx. rewrite Fr by assumption. rewrite Vj; [rewrite Ej; reflexivity|clear - Hj Hn; lia|exact Hr|exact Hx]. }
  split.
  { intros N7. pose proof (Fr 6 30 ltac:(clear - N7; lia) ltac:(clear; lia)) as F1. pose proof (Fr 6 31 ltac:(clear - N7; lia) ltac:(clear; lia)) as F2.
    change (4 * (30 - 16)) with 56 in F1. change (4 * (31 - 16)) with 60 in F2. rewrite F1, F2.
    replace ((t + 6 + 1) mod 8) with (below t) by (rewrite Bb; f_equal; clear; lia). split; [rewrite X30|exact X31].
    f_equal. rewrite V0 by (right; clear; lia). rewrite <- Es. reflexivity. }
  intros a Ha Hb. rewrite Nout by (clear - Ha; lia). rewrite Mout by (intros j Hj; rewrite Ch by exact Hj; exact (Hb j Hj)).
  rewrite Mo by (clear - Ha; lia). rewrite M1, M0. reflexivity.
Qed.

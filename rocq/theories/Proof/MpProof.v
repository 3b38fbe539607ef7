(** Proofs about the discovery and the start of the processors. *)
From Verif Require Import Model.Base Proof.Tac Spec.MpTable Model.MpBoot.

Definition octets (M : Z -> Z) : Prop := forall a, 0 <= M a < 256.

Lemma bytes_app : forall M a l l', bytes_at M a (l ++ l') <-> bytes_at M a l /\ bytes_at M (a + Z.of_nat (length l)) l'.
Proof.
  intros M a l l'. unfold bytes_at. split.
  - intros H. split; intros i Hi.
    + specialize (H i). rewrite app_length in H. rewrite H by lia. rewrite app_nth1 by lia. reflexivity.
    + specialize (H (length l + i)%nat). rewrite app_length in H. rewrite app_nth2_plus in H. rewrite <- H by lia. f_equal. lia.
  - intros (H & H') i Hi. rewrite app_length in Hi. destruct (Nat.lt_ge_cases i (length l)) as [L|L].
    + rewrite app_nth1 by lia. apply H. lia.
    + rewrite app_nth2 by lia. rewrite <- H' by lia. f_equal. lia.
Qed.
Lemma bytes_in : forall M M' a l, (forall b, a <= b < a + Z.of_nat (length l) -> M' b = M b) -> bytes_at M a l -> bytes_at M' a l.
Proof. intros M M' a l E H i Hi. rewrite E by lia. apply H. exact Hi. Qed.
Lemma bytes_nth : forall M a l i, bytes_at M a l -> 0 <= i < Z.of_nat (length l) -> M (a + i) = nth (Z.to_nat i) l 0.
Proof. intros M a l i H Hi. rewrite <- H by lia. f_equal. lia. Qed.

Lemma word2_le : forall M a v, 0 <= v < 65536 -> bytes_at M a (le2 v) -> word2 M a = v.
Proof.
  intros M a v Hv H. unfold word2. pose proof (H 0%nat ltac:(cbn; lia)) as A. pose proof (H 1%nat ltac:(cbn; lia)) as B. cbn [nth le2] in A, B.
  change (Z.of_nat 0) with 0 in A. change (Z.of_nat 1) with 1 in B. rewrite Z.add_0_r in A. rewrite A, B. clear - Hv. lia.
Qed.
Lemma word4_le : forall M a v, 0 <= v < 2 ^ 32 -> bytes_at M a (le4 v) -> word4 M a = v.
Proof.
  intros M a v Hv H. unfold le4 in H. apply bytes_app in H. destruct H as (A & B). change (Z.of_nat (length (le2 v))) with 2 in B.
  unfold word4, word2. pose proof (A 0%nat ltac:(cbn; lia)) as A0. pose proof (A 1%nat ltac:(cbn; lia)) as A1. cbn [nth le2] in A0, A1.
  change (Z.of_nat 0) with 0 in A0. change (Z.of_nat 1) with 1 in A1. rewrite Z.add_0_r in A0.
  pose proof (word2_le M (a + 2) (v / 65536) ltac:(clear - Hv; lia) B) as C. unfold word2 in C. rewrite C, A0, A1. clear - Hv. lia.
Qed.

(** ** The search *)
Lemma mp_here_spec : forall M a, mp_here M a = true <-> bytes_at M a mp_sig.
Proof.
  intros M a. unfold mp_here, bytes_at, mp_sig. split.
  - intros H i Hi. rewrite !andb_true_iff in H. destruct H as (((A & B) & C) & D). apply Z.eqb_eq in A, B, C, D. cbn [length] in Hi.
    destruct i as [|[|[|[|i]]]]; [rewrite Z.add_0_r; exact A|exact B|exact C|exact D|lia].
  - intros H. pose proof (H 0%nat ltac:(cbn; lia)) as A. pose proof (H 1%nat ltac:(cbn; lia)) as B. pose proof (H 2%nat ltac:(cbn; lia)) as C. pose proof (H 3%nat ltac:(cbn; lia)) as D.
    cbn [nth] in A, B, C, D. change (Z.of_nat 0) with 0 in A. change (Z.of_nat 1) with 1 in B. change (Z.of_nat 2) with 2 in C. change (Z.of_nat 3) with 3 in D.
    rewrite Z.add_0_r in A. rewrite A, B, C, D. reflexivity.
Qed.
Lemma first_found : forall M base k i j, i <= j < i + Z.of_nat k -> bytes_at M (base + j) mp_sig -> (forall b, i <= b < j -> ~ bytes_at M (base + b) mp_sig) -> first_mp M base k i = Some j.
Proof.
  intros M base k. induction k as [|k IH]; intros i j Hj H N; [lia|]. cbn [first_mp]. destruct (mp_here M (base + i)) eqn:E.
  - apply mp_here_spec in E. f_equal. destruct (Z.eq_dec i j) as [e|e]; [exact e|]. exfalso. apply (N i); [lia|exact E].
  - apply IH; [|exact H|intros b Hb; apply N; lia]. destruct (Z.eq_dec i j) as [-> |e]; [|lia]. exfalso. apply mp_here_spec in H. rewrite H in E. discriminate.
Qed.
Lemma first_none : forall M base k i, (forall b, i <= b < i + Z.of_nat k -> ~ bytes_at M (base + b) mp_sig) -> first_mp M base k i = None.
Proof.
  intros M base k. induction k as [|k IH]; intros i N; [reflexivity|]. cbn [first_mp]. destruct (mp_here M (base + i)) eqn:E.
  - apply mp_here_spec in E. exfalso. apply (N i); [lia|exact E].
  - apply IH. intros b Hb. apply N. lia.
Qed.
Lemma ebda_eq : forall M, octets M -> (let e := Z.lor (Z.shiftl (M 0x40f) 8) (M 0x40e) in if e <? 0x80000 then u32 (Z.shiftl e 4) else e) = ebda M.
Proof.
  intros M O. pose proof (O 0x40e) as A. pose proof (O 0x40f) as B.
  assert (E : Z.lor (Z.shiftl (M 0x40f) 8) (M 0x40e) = M 0x40e + 256 * M 0x40f).
  { assert (L : Z.land (Z.shiftl (M 0x40f) 8) (M 0x40e) = 0).
    { apply Z.bits_inj'. intros n Hn. rewrite Z.land_spec, Z.shiftl_spec, Z.bits_0 by lia. destruct (Z.lt_ge_cases n 8) as [L|L].
      - rewrite Z.testbit_neg_r by lia. reflexivity.
      - replace (Z.testbit (M 0x40e) n) with false; [apply andb_false_r|]. symmetry. destruct (Z.eq_dec (M 0x40e) 0) as [-> |N]; [apply Z.bits_0|].
        apply Z.bits_above_log2; [lia|]. apply Z.log2_lt_pow2; [lia|]. pose proof (Z.pow_le_mono_r 2 8 n ltac:(lia) L). change (2 ^ 8) with 256 in *. lia. }
    rewrite <- Z.lxor_lor, <- Z.add_nocarry_lxor by exact L. rewrite Z.shiftl_mul_pow2 by lia. change (2 ^ 8) with 256. lia. }
  cbv zeta. rewrite E. replace (_ <? 0x80000) with true by (symmetry; apply Z.ltb_lt; lia). rewrite Z.shiftl_mul_pow2 by lia. unfold ebda, u32.
  change (2 ^ 4) with 16. rewrite Z.mod_small; [reflexivity|]. lia.
Qed.
Lemma ebda_range : forall M, octets M -> 0 <= ebda M < 2 ^ 20.
Proof. intros M O. pose proof (O 0x40e) as A. pose proof (O 0x40f) as B. unfold ebda. change (2 ^ 20) with 1048576. lia. Qed.
Lemma search_ebda_eq : forall M, octets M -> search_ebda M = if ebda M =? 0 then 0 else match first_mp M (ebda M) (Z.to_nat 1021) 0 with Some i => i | None => 0 end.
Proof. intros M O. unfold search_ebda. pose proof (ebda_eq M O) as E. cbv zeta in E |- *. rewrite E. reflexivity. Qed.

(** ** The entries *)
Definition size (es : list entry) : Z := Z.of_nat (length (concat (map coded es))).
Lemma put4_out : forall M a v b, ~ a <= b < a + 4 -> put4 M a v b = M b.
Proof. intros M a v b H. unfold put4. rewrite !upd_other by lia. reflexivity. Qed.
Lemma io_apic_out : forall M a b, ~ a <= b < a + 4 -> io_apic M a b = M b.
Proof. intros M a b H. unfold io_apic. destruct (_ =? _); [reflexivity|]. rewrite !put4_out by lia. reflexivity. Qed.
Lemma count_cons : forall p e l, count p (e :: l) = (if p e then 1 else 0) + count p l.
Proof. intros p e l. unfold count. cbn [filter]. destruct (p e); cbn [length]; lia. Qed.

Lemma entries_ok : forall es a M procs en, bytes_at M a (concat (map coded es)) -> Forall well es ->
  exists M', entries (length es) a M procs en = Some (M', procs + count is_cpu es, en + count usable es) /\ (forall b, ~ a <= b < a + size es -> M' b = M b).
Proof.
  intros es. induction es as [|e es IH]; intros a M procs en H W.
  - exists M. split; [|reflexivity]. cbn [entries length]. unfold count. cbn. rewrite !Z.add_0_r. reflexivity.
  - apply Forall_cons_iff in W. destruct W as (We & W). cbn [map concat] in H. apply bytes_app in H. destruct H as (He & H).
    assert (Sz : size (e :: es) = Z.of_nat (length (coded e)) + size es) by (unfold size; cbn [map concat]; rewrite app_length; lia).
    cbn [length entries]. rewrite !count_cons.
    assert (T : M a = nth 0 (coded e) 0) by (pose proof (bytes_nth M a (coded e) 0 He) as T0; rewrite Z.add_0_r in T0; apply T0; destruct e; cbn; lia).
    destruct e as [i v f r|r|i v f r|r|r]; cbn [coded nth app] in T; cbn [is_cpu usable]; rewrite T; cbn [well] in We.
    + assert (F : M (a + 3) = f) by (rewrite (bytes_nth M a _ 3 He) by (cbn; lia); reflexivity). rewrite F. cbn [Z.eqb].
      assert (L : Z.of_nat (length (coded (Cpu i v f r))) = 20) by (cbn [coded length app]; rewrite We; reflexivity). rewrite L in *.
      destruct (IH (a + 20) M (procs + 1) (if Z.testbit f 0 then en + 1 else en) H W) as (M' & E & O). exists M'. split.
      * rewrite E. f_equal. f_equal; [f_equal; lia|]. destruct (Z.testbit f 0); lia.
      * intros b Hb. apply O. rewrite Sz in Hb. lia.
    + cbn [Z.eqb Pos.eqb orb]. assert (L : Z.of_nat (length (coded (Bus r))) = 8) by (cbn [coded length app]; rewrite We; reflexivity). rewrite L in *.
      destruct (IH (a + 8) M procs en H W) as (M' & E & O). exists M'. split; [rewrite E; reflexivity|]. intros b Hb. apply O. rewrite Sz in Hb. lia.
    + cbn [Z.eqb Pos.eqb orb]. assert (L : Z.of_nat (length (coded (IoApic i v f r))) = 8) by (cbn [coded length app]; rewrite We; reflexivity). rewrite L in *.
      destruct (IH (a + 8) (io_apic M a) procs en) as (M' & E & O); [|exact W|].
      * apply (bytes_in M); [|exact H]. intros b Hb. apply io_apic_out. lia.
      * exists M'. split; [rewrite E; reflexivity|]. intros b Hb. rewrite Sz in Hb. rewrite O by lia. apply io_apic_out. pose proof (Nat2Z.is_nonneg (length (concat (map coded es)))). unfold size in Hb. lia.
    + cbn [Z.eqb Pos.eqb orb]. assert (L : Z.of_nat (length (coded (IoInt r))) = 8) by (cbn [coded length app]; rewrite We; reflexivity). rewrite L in *.
      destruct (IH (a + 8) M procs en H W) as (M' & E & O). exists M'. split; [rewrite E; reflexivity|]. intros b Hb. apply O. rewrite Sz in Hb. lia.
    + cbn [Z.eqb Pos.eqb orb]. assert (L : Z.of_nat (length (coded (LocalInt r))) = 8) by (cbn [coded length app]; rewrite We; reflexivity). rewrite L in *.
      destruct (IH (a + 8) M procs en H W) as (M' & E & O). exists M'. split; [rewrite E; reflexivity|]. intros b Hb. apply O. rewrite Sz in Hb. lia.
Qed.
Lemma usable_le : forall es, count usable es <= count is_cpu es.
Proof. intros es. induction es as [|e es IH]; [reflexivity|]. rewrite !count_cons. destruct e as [i v f r|r|i v f r|r|r]; cbn [usable is_cpu]; try lia. destruct (Z.testbit f 0); lia. Qed.
Lemma count_nonneg : forall p es, 0 <= count p es.
Proof. intros p es. unfold count. lia. Qed.

(** No structure in the extended area, and the first signature of the ROM at [a]. *)
Definition no_ebda (M : Z -> Z) : Prop := ebda M = 0 \/ forall i, 0 <= i < 1021 -> ~ bytes_at M (ebda M + i) mp_sig.
Definition in_rom (M : Z -> Z) (a : Z) : Prop := 0xf0000 <= a < 0xffffc /\ bytes_at M a mp_sig /\ forall b, 0xf0000 <= b < a -> ~ bytes_at M b mp_sig.
Lemma no_ebda_0 : forall M, octets M -> no_ebda M -> search_ebda M = 0.
Proof. intros M O [E|N]; rewrite search_ebda_eq by exact O; [rewrite E; reflexivity|]. rewrite first_none; [destruct (_ =? _); reflexivity|]. intros b Hb. apply N. lia. Qed.
Lemma search_bios_ok : forall M a, in_rom M a -> search_bios M = a.
Proof.
  intros M a (R & H & N). unfold search_bios. rewrite (first_found M 0xf0000 _ 0 (a - 0xf0000)); [lia|rewrite Z2Nat.id by lia; lia| |].
  - replace (0xf0000 + (a - 0xf0000)) with a by lia. exact H.
  - intros b Hb. apply N. lia.
Qed.

Lemma discover_ok : forall NB M a t lapic es, octets M -> no_ebda M -> in_rom M a -> bytes_at M (a + 4) (le4 t) -> 0 <= t < 2 ^ 32 -> 0 <= lapic < 2 ^ 32 ->
  Z.of_nat (length es) < 65536 -> table M t lapic es -> 0 < NB < 256 ->
  if (count is_cpu es <=? NB) && (count usable es =? NB)
  then exists M', discover NB M = Found M' lapic NB /\ (forall b, ~ t + 44 <= b < t + 44 + size es -> M' b = M b)
  else discover NB M = Stop.
Proof.
  intros NB M a t lapic es O N R P Ht Hl Hn [C L E W] HN. unfold discover. rewrite (no_ebda_0 M O N). cbn [Z.eqb]. rewrite (search_bios_ok M a R). cbv zeta.
  destruct R as (R & _). replace (a =? 0) with false by (symmetry; apply Z.eqb_neq; lia). rewrite (word4_le M (a + 4) t Ht P).
  assert (Hn' : 0 <= Z.of_nat (length es) < 65536) by (clear - Hn; lia). rewrite (word2_le M (t + 34) _ Hn' C). rewrite Nat2Z.id.
  destruct (entries_ok es (t + 44) M 0 0 E W) as (M' & -> & X). rewrite !Z.add_0_l.
  pose proof (usable_le es). pose proof (count_nonneg usable es).
  assert (L' : word4 M' (t + 36) = lapic) by (apply word4_le; [exact Hl|]; apply (bytes_in M); [|exact L]; intros b Hb; change (Z.of_nat (length (le4 lapic))) with 4 in Hb; apply X; lia).
  destruct (Z.leb_spec (count is_cpu es) NB) as [Hc|Hc]; [|reflexivity]. cbn [andb]. unfold u8. rewrite Z.mod_small by (lia).
  destruct (Z.eqb_spec (count usable es) NB) as [U|U]; [|reflexivity]. exists M'. rewrite L', U. split; [reflexivity|exact X].
Qed.

(** ** The start *)
Lemma arrive_ok : forall NB order self k ix sp, 0 < NB < 256 -> (forall i, In i (self :: order) -> 0 <= i < NB) -> NoDup (self :: order) -> 0 < k -> k + Z.of_nat (length order) <= NB ->
  (forall i, In i order -> ix i = 0) -> (forall i, sp i = 0) -> exists b, arrive NB order {| incr := k; idx := ix; spin := sp |} = Some b /\
    incr b = u8 (k + Z.of_nat (length order)) /\ (forall i, spin b i = 0) /\ (forall i, ~ In i order -> idx b i = ix i) /\
    (forall j, (j < length order)%nat -> idx b (nth j order 0) = k + Z.of_nat j).
Proof.
  intros NB order. induction order as [|id r IH]; intros self k ix sp HN R D Hk Hl Z1 Z2.
  - exists {| incr := k; idx := ix; spin := sp |}. cbn [arrive length incr idx spin Z.of_nat] in *. rewrite Z.add_0_r. unfold u8. rewrite Z.mod_small by (lia).
    repeat split; auto. intros j Hj. lia.
  - cbn [arrive length] in *. pose proof (R id ltac:(right; left; reflexivity)) as Ri. unfold main_ap. cbn [incr idx spin].
    replace (NB <=? id) with false by (symmetry; apply Z.leb_gt; lia). cbv zeta. rewrite upd_same. replace (NB <=? k) with false by (symmetry; apply Z.leb_gt; lia).
    rewrite (Z1 id ltac:(left; reflexivity)). rewrite Z2. rewrite !upd_same. rewrite (upd_other _ _ 0 _ k) by lia. rewrite (upd_other _ _ 0 _ k) by lia. rewrite Z2. cbn [Z.add Z.sub Z.opp Z.pos_sub Z.eqb].
    apply NoDup_cons_iff in D. destruct D as (D1 & D). pose proof D as D'. apply NoDup_cons_iff in D'. destruct D' as (D2 & D3).
    unfold u8 at 1. rewrite Z.mod_small by (lia).
    destruct (IH id (k + 1) (upd ix id k) (upd (upd (upd (upd sp 0 1) 0 0) k 1) k 0)) as (b & E & I & Sp & O & X); [exact HN|intros i Hi; apply R; right; exact Hi|exact D|lia|lia| | |].
    + intros i Hi. rewrite upd_other by (intros ->; contradiction). apply Z1. right. exact Hi.
    + intros i. unfold upd. destruct (i =? k); [reflexivity|]. destruct (i =? 0); [reflexivity|apply Z2].
    + exists b. split; [exact E|]. split; [rewrite I; f_equal; lia|]. split; [exact Sp|]. split.
      * intros i Hi. rewrite O by (intros C; apply Hi; right; exact C). apply upd_other. intros ->. apply Hi. left. reflexivity.
      * intros j Hj. destruct j as [|j]; [cbn [nth]; rewrite O by exact D2; rewrite upd_same; lia|]. cbn [nth]. rewrite X by lia. lia.
Qed.
Lemma start_ok : forall NB self order, 0 < NB < 256 -> (forall i, In i (self :: order) -> 0 <= i < NB) -> NoDup (self :: order) -> 1 + Z.of_nat (length order) = NB ->
  exists b, start NB self order = Some b /\ (forall i, spin b i = 0) /\ idx b self = 0 /\ (forall j, (j < length order)%nat -> idx b (nth j order 0) = 1 + Z.of_nat j).
Proof.
  intros NB self order HN R D L. unfold start. pose proof (R self ltac:(left; reflexivity)) as Rs. replace (NB <=? self) with false by (symmetry; apply Z.leb_gt; lia).
  destruct (arrive_ok NB order self 1 (upd (fun _ => 0) self 0) (fun _ => 0) HN R D ltac:(lia) ltac:(lia)) as (b & E & I & Sp & O & X); [intros i _; unfold upd; destruct (_ =? _); reflexivity|reflexivity|].
  exists b. rewrite E, I, L. unfold u8. rewrite Z.mod_small by (lia). rewrite Z.eqb_refl. split; [reflexivity|]. split; [exact Sp|]. split; [|exact X].
  rewrite O; [apply upd_same|]. apply NoDup_cons_iff in D. destruct D as (D & _). exact D.
Qed.

(** Loading a well-formed file. *)
From Verif Require Import Model.Base Model.Libc Model.Loader Spec.LibcSpec Spec.LoaderSpec Proof.Tac Proof.MemFnProof.

Lemma word_range : forall m a, (forall x, is_byte (m x)) -> 0 <= word m a < 2 ^ 32.
Proof. intros m a B. unfold word, is_byte in *. pose proof (B a). pose proof (B (a + 1)). pose proof (B (a + 2)). pose proof (B (a + 3)). change (2 ^ 32) with 4294967296. change (256 ^ 2) with 65536. change (256 ^ 3) with 16777216. lia. Qed.

Lemma half_range : forall m a, (forall x, is_byte (m x)) -> 0 <= half m a < 65536.
Proof. intros m a B. unfold half, is_byte in *. pose proof (B a). pose proof (B (a + 1)). lia. Qed.

Lemma load32_word : forall m a, 0 <= a -> a + 4 <= 2 ^ 32 -> load32 m (u32 a) = word m a.
Proof. intros. unfold load32, word. rewrite !u32_id by (rewrite ?u32_id; lia). reflexivity. Qed.

Lemma load16_half : forall m a, 0 <= a -> a + 2 <= 2 ^ 32 -> load16 m (u32 a) = half m a.
Proof. intros. unfold load16, half. rewrite !u32_id by (rewrite ?u32_id; lia). reflexivity. Qed.

Lemma word_ext : forall m m' a, (forall k, 0 <= k < 4 -> m' (a + k) = m (a + k)) -> word m' a = word m a.
Proof. intros m m' a H. unfold word. rewrite <- (Z.add_0_r a) at 1 5. rewrite !H by lia. rewrite Z.add_0_r. reflexivity. Qed.
Lemma half_ext : forall m m' a, (forall k, 0 <= k < 2 -> m' (a + k) = m (a + k)) -> half m' a = half m a.
Proof. intros m m' a H. unfold half. rewrite <- (Z.add_0_r a) at 1 3. rewrite !H by lia. rewrite Z.add_0_r. reflexivity. Qed.

Section Load.
  Variables (m0 : mem) (f fsize base psize : Z).
  Hypothesis W : well_formed m0 f fsize base psize.

  (** The file has not been written to. *)
  Definition file_same (m : mem) : Prop := forall x, f <= x < f + fsize -> m x = m0 x.

  Lemma segment_step : forall m i, file_same m -> 0 <= i < seg_count m0 f -> let s := seg m0 f i in
    let m' := load_segment m f base (u32 (u32 (f + e_phoff m f) + 32 * i)) in
    e_phoff m f = seg_table m0 f /\ e_phnum m f = seg_count m0 f /\
    (forall k, 0 <= k < sg_filesz s -> m' (base + sg_vaddr s + k) = m0 (f + sg_offset s + k)) /\
    (forall k, sg_filesz s <= k < sg_memsz s -> m' (base + sg_vaddr s + k) = 0) /\
    (forall x, ~ (base + sg_vaddr s <= x < base + sg_vaddr s + sg_memsz s) -> m' x = m x).
  Proof.
    intros m i F Hi s m'.
    destruct W as (B & (Ff1 & Ff2 & Ff3) & (Fb1 & Fb2 & Fb3) & Hb & Hf & Apart & Mg & Hs & Tab & Segs & Dis). destruct (Segs i Hi) as (S1 & S2 & S3 & S4). fold s in S1, S2, S3, S4.
    assert (TB : 0 <= seg_table m0 f < 2 ^ 32) by (apply word_range; exact B).
    assert (E1 : e_phoff m f = seg_table m0 f).
    { unfold e_phoff, seg_table. rewrite load32_word by lia. apply word_ext. intros k Hk. apply F. lia. }
    assert (E2 : e_phnum m f = seg_count m0 f).
    { unfold e_phnum, seg_count. rewrite load16_half by lia. apply half_ext. intros k Hk. apply F. lia. }
    split; [exact E1|]. split; [exact E2|].
    set (h := f + seg_table m0 f + 32 * i) in *.
    assert (Hh : f <= h /\ h + 32 <= f + fsize) by lia.
    assert (U : u32 (u32 (f + e_phoff m f) + 32 * i) = h) by (rewrite E1, (u32_id (f + _)) by lia; apply u32_id; lia).
    assert (R : forall m1 o, file_same m1 -> 0 <= o <= 28 -> load32 m1 (u32 (h + o)) = word m0 (h + o)).
    { intros m1 o F1 Ho. rewrite load32_word by lia. apply word_ext. intros k Hk. apply F1. lia. }
    assert (Q : forall o, 0 <= word m0 (h + o) < 2 ^ 32) by (intros; now apply word_range).
    change (sg_filesz s) with (word m0 (h + 16)) in *. change (sg_memsz s) with (word m0 (h + 20)) in *.
    change (sg_vaddr s) with (word m0 (h + 8)) in *. change (sg_offset s) with (word m0 (h + 4)) in *.
    pose proof (Q 16) as Q16. pose proof (Q 20) as Q20. pose proof (Q 8) as Q8. pose proof (Q 4) as Q4. clear Q.
    unfold m'. rewrite U. unfold load_segment, p_vaddr, p_filesz, p_offset, p_memsz. rewrite !(R m _ F) by lia.
    set (fs := word m0 (h + 16)) in *. set (ms := word m0 (h + 20)) in *. set (va := word m0 (h + 8)) in *. set (off := word m0 (h + 4)) in *.
    rewrite (u32_id (va + base)), (u32_id (off + f)) by lia.
    assert (C : copied m (memcpy_i386 m (va + base) (off + f) fs) (va + base) (off + f) fs).
    { apply memcpy_i386_spec; unfold fits; try lia. intros x X1 X2. lia. }
    set (m1 := memcpy_i386 m (va + base) (off + f) fs) in *. clearbody m1. destruct C as [C1 C2].
    assert (F1 : file_same m1) by (intros x Hx; rewrite C2 by lia; now apply F).
    rewrite !(R m1 _ F1) by lia. fold fs ms. rewrite (u32_id (va + base + fs)), (u32_id (ms - fs)) by lia.
    unfold memset. change (u8 0) with 0.
    pose proof (set_bytes_spec (Z.to_nat (ms - fs)) m1 (va + base + fs) 0) as P. rewrite Z2Nat.id in P by lia.
    destruct P as [P1 P2]; [unfold fits; lia|]. split; [|split].
    - intros k Hk. rewrite P2 by lia. replace (base + va + k) with (va + base + k) by lia. rewrite C1 by lia. replace (off + f + k) with (f + off + k) by lia. apply F. lia.
    - intros k Hk. replace (base + va + k) with (va + base + fs + (k - fs)) by lia. apply P1. lia.
    - intros x Hx. rewrite P2 by lia. apply C2. lia.
  Qed.

  (** After [i] segments. *)
  Definition upto (i : Z) (m : mem) : Prop :=
    (forall j k, 0 <= j < i -> let s := seg m0 f j in
       (0 <= k < sg_filesz s -> m (base + sg_vaddr s + k) = m0 (f + sg_offset s + k)) /\
       (sg_filesz s <= k < sg_memsz s -> m (base + sg_vaddr s + k) = 0)) /\
    (forall x, (forall j, 0 <= j < i -> ~ (base + sg_vaddr (seg m0 f j) <= x < base + sg_vaddr (seg m0 f j) + sg_memsz (seg m0 f j))) -> m x = m0 x).

  Lemma seg_nonneg : forall i, 0 <= sg_vaddr (seg m0 f i) /\ 0 <= sg_filesz (seg m0 f i) /\ 0 <= sg_memsz (seg m0 f i).
  Proof. destruct W as (B & _). intros i. cbn. repeat split; apply word_range; exact B. Qed.

  Lemma upto_file : forall i m, 0 <= i <= seg_count m0 f -> upto i m -> file_same m.
  Proof.
    intros i m Hi [_ U] x Hx. apply U. intros j Hj.
    destruct W as (B & (Ff1 & Ff2 & Ff3) & (Fb1 & Fb2 & Fb3) & Hb & Hf & Apart & Mg & Hs & Tab & Segs & Dis). destruct (Segs j ltac:(lia)) as (S1 & S2 & S3 & _).
    pose proof (seg_nonneg j). lia.
  Qed.

  Lemma loop_ok : forall fuel i m, upto i m -> 0 <= i <= seg_count m0 f -> seg_count m0 f - i < Z.of_nat fuel ->
    upto (seg_count m0 f) (load_loop fuel i m f base (u32 (f + seg_table m0 f))).
  Proof.
    assert (NN : e_phnum m0 f = seg_count m0 f).
    { destruct W as (B & (Ff1 & Ff2 & Ff3) & _ & Hb & Hf & _ & _ & Hs & _). unfold e_phnum, seg_count. apply load16_half; lia. }
    induction fuel as [|fuel IH]; intros i m U Hi Hf; [lia|]. cbn [load_loop].
    pose proof (upto_file i m Hi U) as F.
    assert (E : e_phnum m f = seg_count m0 f).
    { destruct W as (B & (Ff1 & Ff2 & Ff3) & _ & Hb & Hf' & _ & _ & Hs & _). unfold e_phnum, seg_count. rewrite load16_half by lia. apply half_ext. intros k Hk. apply F. lia. }
    rewrite E. destruct (Z.ltb_spec i (seg_count m0 f)) as [L|L]; [|replace (seg_count m0 f) with i by lia; exact U].
    destruct (segment_step m i F ltac:(lia)) as (P0 & _ & P1 & P2 & P3). rewrite P0 in P1, P2, P3.
    set (m' := load_segment m f base (u32 (u32 (f + seg_table m0 f) + 32 * i))) in *. clearbody m'.
    destruct W as (B & (Ff1 & Ff2 & Ff3) & (Fb1 & Fb2 & Fb3) & Hb & Hff & Apart & Mg & Hs & Tab & Segs & Dis).
    destruct U as [U1 U2]. apply IH; [|lia|lia]. split.
    - intros j k Hj s. destruct (Z.eq_dec j i) as [->|Nj]; [split; [apply P1|apply P2]|].
      assert (K : forall k, 0 <= k < sg_memsz s -> m' (base + sg_vaddr s + k) = m (base + sg_vaddr s + k)).
      { intros k' Hk'. apply P3. intros X. apply (Dis i j (sg_vaddr s + k') ltac:(lia) ltac:(lia) ltac:(lia)); unfold s in X, Hk' |- *; lia. }
      pose proof (seg_nonneg j) as NJ. destruct (Segs j ltac:(lia)) as (S1 & _). fold s in NJ, S1.
      destruct (U1 j k ltac:(lia)) as [V1 V2]. fold s in V1, V2. split; intros Hk; rewrite K by lia; [now apply V1|now apply V2].
    - intros x Hx. rewrite P3 by (apply Hx; lia). apply U2. intros j Hj. apply Hx. lia.
  Qed.

  Lemma elf_load_ok : exists m', elf_load m0 f base = Some (m', word m0 (f + 24)) /\ loaded m0 m' f base /\
    (forall x, ~ (base <= x < base + psize) -> m' x = m0 x).
  Proof.
    pose proof W as (B & (Ff1 & Ff2 & Ff3) & (Fb1 & Fb2 & Fb3) & Hb & Hf & Apart & Mg & Hs & Tab & Segs & Dis).
    pose proof (half_range m0 (f + 44) B) as CR. fold (seg_count m0 f) in CR.
    assert (MG : elf_magic m0 f = true).
    { unfold elf_magic, has_magic, bytes_at in *. rewrite !u32_id by lia.
      pose proof (Mg 0%nat ltac:(cbn; lia)) as M0. pose proof (Mg 1%nat ltac:(cbn; lia)) as M1.
      pose proof (Mg 2%nat ltac:(cbn; lia)) as M2. pose proof (Mg 3%nat ltac:(cbn; lia)) as M3.
      cbn [nth Z.of_nat] in M0, M1, M2, M3. change (Z.of_nat 0) with 0 in M0. rewrite Z.add_0_r in M0.
      change (Z.pos (Pos.of_succ_nat 0)) with 1 in M1. change (Z.pos (Pos.of_succ_nat 1)) with 2 in M2. change (Z.pos (Pos.of_succ_nat 2)) with 3 in M3.
      rewrite M0, M1, M2, M3. reflexivity. }
    unfold elf_load. rewrite MG. unfold e_phoff, e_entry. rewrite !load32_word by lia. fold (seg_table m0 f).
    pose proof (loop_ok (Z.to_nat 65536) 0 m0) as L. rewrite Z2Nat.id in L by lia.
    assert (U0 : upto 0 m0) by (split; [intros; lia|reflexivity]).
    specialize (L U0 ltac:(lia) ltac:(lia)). set (m' := load_loop _ _ _ _ _ _) in *. clearbody m'. destruct L as [L1 L2].
    exists m'. split; [reflexivity|]. split.
    - split.
      + intros i k Hi _. apply L1. exact Hi.
      + intros x Hx. apply L2. intros j Hj X. destruct (Segs j Hj) as (_ & _ & _ & S4).
        destruct (Z.eq_dec (sg_type (seg m0 f j)) PT_LOAD) as [ET|NT]; [exact (Hx j Hj ET X)|]. rewrite S4 in X by exact NT. lia.
    - intros x Hx. apply L2. intros j Hj X. destruct (Segs j Hj) as (S1 & S2 & S3 & _). pose proof (seg_nonneg j). lia.
  Qed.
End Load.

(** memset that goes round the end of the address space. *)
Lemma set_bytes_wrap : forall n m d v x, 0 <= d < 2 ^ 32 -> 0 <= x < 2 ^ 32 -> (x - d) mod 2 ^ 32 < Z.of_nat n ->
  Z.of_nat n <= 2 ^ 32 -> set_bytes n m d v x = v.
Proof.
  assert (K : forall n m d v x, 0 <= d < 2 ^ 32 -> 0 <= x < 2 ^ 32 -> (exists k, 0 <= k < Z.of_nat n /\ u32 (d + k) = x) \/ m x = v ->
    set_bytes n m d v x = v).
  { induction n as [|n IH]; intros m d v x Hd Hx H.
    - destruct H as [(k & Hk & _)|H]; [lia|exact H].
    - cbn [set_bytes]. apply IH; [unfold u32; apply Z.mod_pos_bound; reflexivity|exact Hx|].
      destruct H as [(k & Hk & E)|H].
      + destruct (Z.eq_dec k 0) as [->|Nk].
        * right. rewrite Z.add_0_r, u32_id in E by exact Hd. subst d. apply upd_same.
        * left. exists (k - 1). split; [lia|]. rewrite <- E. unfold u32. rewrite Zplus_mod_idemp_l. f_equal. lia.
      + right. unfold upd. destruct (x =? d); auto. }
  intros n m d v x Hd Hx H Hn. apply K; [exact Hd|exact Hx|]. left. exists ((x - d) mod 2 ^ 32).
  split; [split; [apply Z.mod_pos_bound; reflexivity|exact H]|].
  unfold u32. rewrite Zplus_mod_idemp_r. replace (d + (x - d)) with x by lia. now apply Z.mod_small.
Qed.

Lemma file_pos_mono : forall sizes n d, (forall i, 0 <= sizes i) -> file_pos sizes n <= file_pos sizes (n + d) /\ 0 <= file_pos sizes n.
Proof.
  intros sizes n d H. split.
  - induction d as [|d IH]; [rewrite Nat.add_0_r; lia|]. rewrite Nat.add_succ_r. cbn [file_pos]. pose proof (H (Z.of_nat (n + d))). lia.
  - induction n as [|n IH]; cbn [file_pos]; [lia|]. pose proof (H (Z.of_nat n)). lia.
Qed.

Lemma archive_pos : forall sizes n k, (forall i, 0 <= sizes i) -> file_pos sizes (k + n) < 2 ^ 32 ->
  archive_offset n (Z.of_nat k) (file_pos sizes k) sizes = file_pos sizes (k + n).
Proof.
  intros sizes n. induction n as [|n IH]; intros k H L; cbn [archive_offset]; [now rewrite Nat.add_0_r|].
  replace (k + S n)%nat with (S k + n)%nat in * by lia. rewrite u32_id.
  - replace (Z.of_nat k + 1) with (Z.of_nat (S k)) by lia. change (file_pos sizes k + sizes (Z.of_nat k)) with (file_pos sizes (S k)). now apply IH.
  - change (file_pos sizes k + sizes (Z.of_nat k)) with (file_pos sizes (S k)). pose proof (file_pos_mono sizes (S k) n H). lia.
Qed.

Lemma memset_wrap : forall m d n x, 0 <= d < 2 ^ 32 -> 0 <= x < 2 ^ 32 -> 0 <= n <= 2 ^ 32 -> (x - d) mod 2 ^ 32 < n -> memset m d 0 n x = 0.
Proof. intros m d n x Hd Hx Hn H. unfold memset. change (u8 0) with 0. apply set_bytes_wrap; rewrite ?Z2Nat.id by lia; try assumption; lia. Qed.

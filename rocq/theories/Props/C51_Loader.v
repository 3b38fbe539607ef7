(** C51: loading a partition writes exactly the loadable segments of its file, filled with zeros up to their size in memory,
    and nothing outside the memory of the partition.

    True for well-formed files whose segments fit. Nothing of this is checked, except that the file as a whole is not
    larger than the partition. *)
From Verif Require Import Model.Base Model.Libc Model.Loader Spec.LibcSpec Spec.LoaderSpec Proof.Tac Proof.MemFnProof Proof.LoaderProof.

(** File [n] of an archive at [a] goes to the partition at [base]. *)
Theorem C51_load_partial : forall m a sizes n psize base, (forall i, 0 <= sizes i) -> 0 <= a -> file_pos sizes n < 2 ^ 32 ->
  well_formed m (a + file_pos sizes n) (sizes (Z.of_nat n)) base psize ->
  let '(_, m', entry) := load_partition m a sizes (Z.of_nat n) psize base in
  loaded m m' (a + file_pos sizes n) base /\ (forall x, ~ (base <= x < base + psize) -> m' x = m x) /\
  entry = word m (a + file_pos sizes n + 24).
Proof.
  intros m a sizes n psize base Hs Ha Hl W. unfold load_partition.
  pose proof (archive_pos sizes n 0 Hs Hl) as P. cbn [file_pos Nat.add Z.of_nat] in P. change (Z.of_nat 0) with 0 in P. rewrite Nat2Z.id, P.
  pose proof (file_pos_mono sizes n 0 Hs) as [_ FP].
  rewrite u32_id by (destruct W as (_ & (W1 & W2 & W3) & _ & _ & W4 & _ & _ & W5 & _); lia).
  destruct (elf_load_ok m _ _ _ _ W) as (m' & E & L & O). rewrite E. auto.
Qed.
Print Assumptions C51_load_partial.

(** Loading again, whatever the partition has done to its memory, gives the same segments. *)
Theorem C51_reload_partial : forall m m1 f fsize base psize m' e m1' e1, well_formed m f fsize base psize ->
  (forall x, is_byte (m1 x)) -> (forall x, ~ (base <= x < base + psize) -> m1 x = m x) ->
  elf_load m f base = Some (m', e) -> elf_load m1 f base = Some (m1', e1) ->
  e1 = e /\ forall i k, 0 <= i < seg_count m f -> sg_type (seg m f i) = PT_LOAD -> 0 <= k < sg_memsz (seg m f i) ->
    m1' (base + sg_vaddr (seg m f i) + k) = m' (base + sg_vaddr (seg m f i) + k).
Proof.
  intros m m1 f fsize base psize m' e m1' e1 W B1 S E E1.
  pose proof W as (B & (Ff1 & Ff2 & Ff3) & (Fb1 & Fb2 & Fb3) & Hb & Hf & Apart & Mg & Hs & Tab & Segs & Dis).
  assert (F : forall x, f <= x < f + fsize -> m1 x = m x) by (intros; apply S; lia).
  assert (T : seg_table m1 f = seg_table m f) by (apply word_ext; intros; apply F; lia).
  assert (C : seg_count m1 f = seg_count m f) by (apply half_ext; intros; apply F; lia).
  pose proof (word_range m (f + 28) B) as TR. fold (seg_table m f) in TR.
  assert (G : forall i, 0 <= i < seg_count m f -> seg m1 f i = seg m f i).
  { intros i Hi. unfold seg. rewrite T. f_equal; apply word_ext; intros; apply F; lia. }
  assert (W1 : well_formed m1 f fsize base psize).
  { unfold well_formed. rewrite T, C. split; [exact B1|]. split; [repeat split; assumption|]. split; [repeat split; assumption|].
    split; [assumption|]. split; [assumption|]. split; [assumption|]. split; [|split; [assumption|split; [assumption|split]]].
    - intros k Hk. rewrite <- (Mg k Hk). apply F. cbn [length] in Hk. lia.
    - intros i Hi. rewrite G by exact Hi. apply Segs. exact Hi.
    - intros i j x Hi Hj. rewrite !G by assumption. apply Dis; assumption. }
  destruct (elf_load_ok m f fsize base psize W) as (m2 & R & (L & _) & _). rewrite R in E. inversion E; subst m2 e. clear E.
  destruct (elf_load_ok m1 f fsize base psize W1) as (m2 & R1 & (L1 & _) & _). rewrite R1 in E1. inversion E1; subst m2 e1. clear E1.
  split; [apply word_ext; intros; apply F; lia|].
  intros i k Hi Ty Hk. destruct (L i k Hi Ty) as [X1 X2]. specialize (L1 i k). rewrite C, G in L1 by exact Hi. destruct (L1 Hi Ty) as [Y1 Y2].
  destruct (Z_lt_le_dec k (sg_filesz (seg m f i))).
  - rewrite X1, Y1 by lia. apply F. destruct (Segs i Hi) as (S1 & S2 & S3 & _). assert (0 <= sg_offset (seg m f i)) by (apply word_range; exact B). lia.
  - rewrite X2, Y2 by lia. reflexivity.
Qed.
Print Assumptions C51_reload_partial.

(** A file of 88 bytes at 4096 with one program header and four bytes behind it; sevens elsewhere. *)
Definition num4 (x : Z) : list Z := [x mod 256; x / 256 mod 256; x / 65536 mod 256; x / 16777216 mod 256].
Definition demo_file (type vaddr filesz memsz : Z) : list Z :=
  [127; 69; 76; 70] ++ repeat 0 20 ++ num4 16 ++ num4 52 ++ repeat 0 12 ++ [1; 0] ++ repeat 0 6 ++
  num4 type ++ num4 84 ++ num4 vaddr ++ num4 0 ++ num4 filesz ++ num4 memsz ++ repeat 0 8 ++ [1; 2; 3; 4].
Definition demo_mem (type vaddr filesz memsz : Z) : Z -> Z :=
  fun x => if (4096 <=? x) && (x <? 4096 + 88) then nth (Z.to_nat (x - 4096)) (demo_file type vaddr filesz memsz) 0 else 7.

Lemma demo_bytes : forall t v fs ms x, is_byte (demo_mem t v fs ms x).
Proof.
  intros. unfold demo_mem. destruct (_ && _); [|unfold is_byte; lia].
  assert (F : Forall is_byte (demo_file t v fs ms)).
  { unfold demo_file, num4. repeat (apply Forall_app; split); repeat (apply Forall_cons; [unfold is_byte; try lia; apply Z.mod_pos_bound; lia|]); constructor. }
  destruct (Nat.lt_ge_cases (Z.to_nat (x - 4096)) (length (demo_file t v fs ms))) as [L|L].
  - rewrite Forall_forall in F. apply F. now apply nth_In.
  - rewrite nth_overflow by exact L. unfold is_byte. lia.
Qed.

Example C51_example : well_formed (demo_mem 1 16 4 20) 4096 88 8192 128 /\
  match elf_load (demo_mem 1 16 4 20) 4096 8192 with
  | Some (m', e) => e = 16 /\ map m' [8207; 8208; 8211; 8212; 8227; 8228] = [7; 1; 4; 0; 0; 7]
  | None => False
  end.
Proof.
  split.
  - split; [apply demo_bytes|]. split; [unfold fits; lia|]. split; [unfold fits; lia|]. split; [lia|]. split; [lia|]. split; [lia|].
    split; [intros k Hk; do 4 (destruct k as [|k]; [reflexivity|]); cbn in Hk; lia|]. split; [lia|].
    assert (C : seg_count (demo_mem 1 16 4 20) 4096 = 1) by (vm_compute; reflexivity).
    split; [vm_compute; discriminate|]. rewrite C. split.
    + intros i Hi. replace i with 0 by lia. vm_compute. repeat split; try discriminate. intros H. now destruct H.
    + intros i j x Hi Hj N. lia.
  - vm_compute. split; reflexivity.
Qed.

(** The loader accepts (no error is reported) what then writes outside the partition: the size in memory is not looked at. *)
Theorem C51_outside_refuted : ~ forall m a sizes psize base m' e, (forall x, is_byte (m x)) -> fits a (sizes 0) -> fits base psize ->
  a + sizes 0 <= base -> load_partition m a sizes 0 psize base = (false, m', e) -> forall x, ~ (base <= x < base + psize) -> m' x = m x.
Proof.
  intros H. specialize (H (demo_mem 1 0 4 129) 4096 (fun _ => 88) 128 8192).
  destruct (load_partition (demo_mem 1 0 4 129) 4096 (fun _ => 88) 0 128 8192) as [[err m'] e] eqn:E.
  assert (X : fst (fst (load_partition (demo_mem 1 0 4 129) 4096 (fun _ => 88) 0 128 8192)) = false /\
              snd (fst (load_partition (demo_mem 1 0 4 129) 4096 (fun _ => 88) 0 128 8192)) 8320 = 0) by (vm_compute; split; reflexivity).
  rewrite E in X. cbn [fst snd] in X. destruct X as [-> X].
  specialize (H m' e (demo_bytes _ _ _ _) ltac:(unfold fits; lia) ltac:(unfold fits; lia) ltac:(lia) eq_refl 8320 ltac:(lia)).
  rewrite X in H. vm_compute in H. discriminate H.
Qed.
Print Assumptions C51_outside_refuted.

(** A segment that is not to be loaded (PT_NOTE, 4) is loaded, too. *)
Theorem C51_type_refuted : ~ forall m f fsize base m' e, (forall x, is_byte (m x)) -> fits f fsize -> fits base 128 -> f + fsize <= base ->
  elf_load m f base = Some (m', e) -> (forall i, 0 <= i < seg_count m f -> sg_type (seg m f i) <> PT_LOAD) -> forall x, m' x = m x.
Proof.
  intros H. specialize (H (demo_mem 4 0 4 4) 4096 88 8192).
  destruct (elf_load (demo_mem 4 0 4 4) 4096 8192) as [[m' e]|] eqn:E.
  2: { unfold elf_load in E. replace (elf_magic (demo_mem 4 0 4 4) 4096) with true in E by (vm_compute; reflexivity). discriminate E. }
  assert (X : match elf_load (demo_mem 4 0 4 4) 4096 8192 with Some (m', _) => m' 8192 = 1 | None => False end) by (vm_compute; reflexivity).
  rewrite E in X.
  specialize (H m' e (demo_bytes _ _ _ _) ltac:(unfold fits; lia) ltac:(unfold fits; lia) ltac:(lia) eq_refl).
  assert (T : forall i, 0 <= i < seg_count (demo_mem 4 0 4 4) 4096 -> sg_type (seg (demo_mem 4 0 4 4) 4096 i) <> PT_LOAD).
  { assert (C : seg_count (demo_mem 4 0 4 4) 4096 = 1) by (vm_compute; reflexivity). rewrite C. intros i Hi. replace i with 0 by lia. vm_compute. discriminate. }
  specialize (H T 8192). rewrite X in H. vm_compute in H. discriminate H.
Qed.
Print Assumptions C51_type_refuted.

(** A size in memory smaller than the size in the file makes the loader clear all memory but the segment, the kernel
    included. *)
Theorem C51_clear_refuted : ~ forall m ph file base, (forall x, is_byte (m x)) -> fits base 128 -> forall x, 0 <= x < 2 ^ 32 ->
  ~ (base <= x < base + 128) -> m x <> 0 -> load_segment m file base ph x <> 0.
Proof.
  intros H. specialize (H (demo_mem 1 0 4 3) 4148 4096 8192 (demo_bytes _ _ _ _) ltac:(unfold fits; lia) 1000000 ltac:(lia) ltac:(lia) ltac:(vm_compute; discriminate)).
  apply H. unfold load_segment. set (m1 := memcpy_i386 _ _ _ _).
  replace (p_filesz m1 4148) with 4 by (vm_compute; reflexivity). replace (p_memsz m1 4148) with 3 by (vm_compute; reflexivity).
  replace (u32 (u32 (p_vaddr (demo_mem 1 0 4 3) 4148 + 8192) + 4)) with 8196 by (vm_compute; reflexivity).
  clearbody m1. change (u32 (3 - 4)) with 4294967295. apply memset_wrap; [lia|lia|lia|vm_compute; reflexivity].
Qed.
Print Assumptions C51_clear_refuted.

(** A file with another magic number is not reported: the partition starts at address 0 with nothing loaded. *)
Theorem C51_magic_refuted : ~ forall m a sizes psize base m' e, fits a (sizes 0) -> a + sizes 0 <= base ->
  load_partition m a sizes 0 psize base = (false, m', e) -> has_magic m a.
Proof.
  intros H. specialize (H (fun _ => 0) 4096 (fun _ => 88) 128 8192 (fun _ => 0) 0 ltac:(unfold fits; lia) ltac:(lia) eq_refl).
  specialize (H 0%nat ltac:(cbn; lia)). discriminate H.
Qed.
Print Assumptions C51_magic_refuted.

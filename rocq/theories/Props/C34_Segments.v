(** C34: the segments of a partition cover exactly its memory.

    False: the size is installed as the limit, and the limit of a segment is its last offset. The exact
    extent is given below; all bytes of the partition are covered unless its size is 2^20, and at most
    4096 bytes behind it are covered too. *)
From Verif Require Import Model.Base Model.Mem Spec.MemSpec Proof.Tac Proof.MemProof.

(** The full statement. *)
Definition C34_statement : Prop := forall np p b s g g' o, is_u32 b -> is_u32 s ->
  create_space np p b s g = Some g' ->
  (seg_allows (desc_bits (g' (gdt_data np p))) o <-> 0 <= o < s).

(** A partition of 64 KB can access the byte behind its memory. *)
Theorem C34_refuted : ~ C34_statement.
Proof.
  intros H. specialize (H 1 0 1048576 65536 gdt_init _ 65536 ltac:(split; lia) ltac:(split; lia) eq_refl).
  assert (X : seg_allows (desc_bits (set_segment 1048576 65536 GDTE_DATA 3)) 65536).
  { apply segment_allows; [split; lia|]. split; [lia|]. reflexivity. }
  apply H in X. lia.
Qed.
Print Assumptions C34_refuted.

(** A partition of 1 MB can access its first byte only. *)
Theorem C34_megabyte_refuted : ~ (forall np p b s g g' o, is_u32 b -> is_u32 s ->
  create_space np p b s g = Some g' -> 0 <= o < s -> seg_allows (desc_bits (g' (gdt_data np p))) o).
Proof.
  intros H. specialize (H 1 0 1048576 1048576 gdt_init _ 1 ltac:(split; lia) ltac:(split; lia) eq_refl ltac:(lia)).
  apply (segment_allows 1048576 1048576 GDTE_DATA 1) in H; [|split; lia]. vm_compute in H. destruct H. discriminate.
Qed.
Print Assumptions C34_megabyte_refuted.

Lemma C34_lookup : forall np p b s g g', create_space np p b s g = Some g' ->
  g' (gdt_code np p) = set_segment b s GDTE_CODE 3 /\ g' (gdt_data np p) = set_segment b s GDTE_DATA 3.
Proof.
  intros np p b s g g' H. apply create_space_some in H. destruct H as (-> & _).
  split; [rewrite upd_other by (unfold gdt_code, gdt_data; lia)|]; apply upd_same.
Qed.

(** What holds: the segments start at the base, every byte of the partition is accessible (size 2^20
    excepted), and nothing beyond 4096 bytes behind the partition is. *)
Theorem C34_partial : forall np p b s g g', is_u32 b -> is_u32 s -> create_space np p b s g = Some g' ->
  forall i, i = gdt_code np p \/ i = gdt_data np p ->
  let w := desc_bits (g' i) in
  seg_base w = b /\
  (s <> 2 ^ 20 -> forall o, 0 <= o < s -> seg_allows w o) /\
  (forall o, seg_allows w o -> 0 <= o < s + 4096).
Proof.
  intros np p b s g g' Hb Hs H i Hi w. destruct (C34_lookup _ _ _ _ _ _ H) as (E1 & E2).
  assert (E : exists t, g' i = set_segment b s t 3). { destruct Hi as [-> | ->]; eexists; eassumption. }
  destruct E as (t & E). unfold w. rewrite E. split; [now apply segment_base|].
  destruct (Z.eq_dec s (2 ^ 20)) as [Es|Es].
  - split; [contradiction|]. intros o Ho. apply segment_allows in Ho; [|assumption]. unfold covered in Ho.
    destruct (Z.ltb_spec s (2 ^ 20)); [lia|]. destruct (Z.eqb_spec s (2 ^ 20)); lia.
  - pose proof (covered_ge s Hs Es). split.
    + intros _ o Ho. apply segment_allows; [assumption|lia].
    + intros o Ho. apply segment_allows in Ho; [|assumption]. lia.
Qed.
Print Assumptions C34_partial.

(** The exact extent. *)
Theorem C34_extent : forall np p b s g g', is_u32 b -> is_u32 s -> create_space np p b s g = Some g' ->
  forall i o, i = gdt_code np p \/ i = gdt_data np p -> 0 <= o ->
  let w := desc_bits (g' i) in
  (s < 2 ^ 20 -> (seg_allows w o <-> o <= s)) /\
  (s = 2 ^ 20 -> (seg_allows w o <-> o = 0)) /\
  (2 ^ 20 < s -> (seg_allows w o <-> o / 4096 <= s / 4096)).
Proof.
  intros np p b s g g' Hb Hs H i o Hi Ho w. destruct (C34_lookup _ _ _ _ _ _ H) as (E1 & E2).
  assert (E : exists t, g' i = set_segment b s t 3). { destruct Hi as [-> | ->]; eexists; eassumption. }
  destruct E as (t & E). unfold w. rewrite E. rewrite segment_allows by assumption. unfold covered.
  split; [|split]; intros Hc.
  - rewrite (proj2 (Z.ltb_lt s (2 ^ 20))) by assumption. lia.
  - subst s. change (2 ^ 20 <? 2 ^ 20) with false. rewrite Z.eqb_refl. cbn iota. lia.
  - destruct (Z.ltb_spec s (2 ^ 20)); [lia|]. destruct (Z.eqb_spec s (2 ^ 20)); [lia|].
    pose proof (Z.div_mod o 4096 ltac:(lia)). pose proof (Z.mod_pos_bound o 4096 ltac:(lia)). nia.
Qed.
Print Assumptions C34_extent.

(** The code segment is executable, the data segment writable; the other entries of the table, in
    particular the kernel's, are unchanged. *)
Theorem C34_kinds : forall np p b s g g', create_space np p b s g = Some g' ->
  seg_executable (desc_bits (g' (gdt_code np p))) /\ seg_writable (desc_bits (g' (gdt_data np p))) /\
  forall i, i <> gdt_code np p -> i <> gdt_data np p -> g' i = g i.
Proof.
  intros np p b s g g' H. destruct (C34_lookup _ _ _ _ _ _ H) as (E1 & E2). rewrite E1, E2.
  unfold seg_executable, seg_writable.
  change 43 with (40 + 3). change 42 with (40 + 2). change 41 with (40 + 1).
  rewrite !field_type by lia. split; [reflexivity|]. split; [repeat split; reflexivity|].
  intros i H1 H2. apply create_space_some in H. destruct H as (-> & _). now rewrite !upd_other by assumption.
Qed.
Print Assumptions C34_kinds.

(** Available 32-bit TSS, Intel SDM volume 3, 3.5 and 8.2.2: a system descriptor of type 9. *)
Definition seg_tss (w : Z) : Prop := bits w 44 1 = 0 /\ bits w 43 1 = 1 /\ bits w 42 1 = 0 /\ bits w 41 1 = 0 /\ bits w 40 1 = 1.
(** The task state segment of each processor is a system segment at its address, which no user program can load (its
    privilege level is 0), and the other entries are unchanged. *)
Theorem C34_tss : forall proc addr size g g', is_u32 addr -> 0 <= size < 2 ^ 20 -> d_granularity (g (gdt_tss proc)) = 0 ->
  tss_init proc addr size g = Some g' ->
  let w := desc_bits (g' (gdt_tss proc)) in
  seg_base w = addr /\ seg_limit w = size /\ seg_present w /\ seg_tss w /\ bits w 45 2 = 0 /\
  forall i, i <> gdt_tss proc -> g' i = g i.
Proof.
  intros proc addr size g g' Ha Hs Hg H w. unfold tss_init, gdt_write in H. destruct (_ && _) in H; [|discriminate].
  injection H as <-. unfold w. rewrite upd_same. unfold set_system. rewrite Hg. unfold is_u32 in Ha.
  split.
  { unfold seg_base. rewrite field_base_low, field_base_high. cbn [d_base_low d_base_high].
    rewrite land_24, land_255, Z.shiftr_div_pow2 by lia. rewrite !Z.mod_mod by lia. rewrite (Z.mod_small (addr / 2 ^ 24)).
    - pose proof (Z.div_mod addr (2 ^ 24)). lia.
    - split; [apply Z.div_pos; lia|apply Z.div_lt_upper_bound; lia]. }
  split.
  { unfold seg_limit. rewrite field_limit_low, field_limit_high, field_granularity. cbn [d_limit_low d_limit_high d_granularity].
    change (0 mod 2 ^ 1 =? 1) with false. cbv iota zeta. rewrite land_65535, land_255, Z.shiftr_div_pow2, Z.mod_mod by lia.
    assert (0 <= size / 2 ^ 16 < 2 ^ 4) by (split; [apply Z.div_pos; lia|apply Z.div_lt_upper_bound; lia]).
    rewrite (Z.mod_small (size / 2 ^ 16) (2 ^ 8)) by lia. rewrite (Z.mod_small (size / 2 ^ 16)) by lia.
    pose proof (Z.div_mod size (2 ^ 16)). lia. }
  split; [unfold seg_present; rewrite field_present; reflexivity|]. split.
  { unfold seg_tss. rewrite field_s. change 43 with (40 + 3). change 42 with (40 + 2). change 41 with (40 + 1). change 40 with (40 + 0).
    rewrite !field_type by lia. repeat split; reflexivity. }
  split; [rewrite field_dpl; reflexivity|]. intros i Hi. now rewrite upd_other.
Qed.
Print Assumptions C34_tss.
Example C34_tss_demo : exists g', tss_init 1 1193046 104 gdt_init = Some g' /\ desc_bits (g' 4) = 150711280468072.
Proof. eexists. split; [reflexivity|]. vm_compute. reflexivity. Qed.

(** A partition of 10 MB at 16 MB. *)
Example C34_demo :
  match create_space 2 3 (2 ^ 24) (10 * 2 ^ 20) gdt_init with
  | Some g => seg_base (desc_bits (g (gdt_data 2 3))) = 2 ^ 24 /\
              seg_limit (desc_bits (g (gdt_data 2 3))) = 10 * 2 ^ 20 + 4095 /\
              desc_bits (g (gdt_data 2 3)) = 126367970891926016
  | None => False
  end.
Proof. vm_compute. repeat split; reflexivity. Qed.

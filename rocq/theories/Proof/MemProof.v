(** Segment descriptors, selectors and pointers. *)
From Verif Require Import Model.Base Model.Mem Spec.MemSpec Proof.Tac.

(** ** Bit-fields *)
Lemma bits_head : forall n v l, 0 <= n -> bits (pack ((n, v) :: l)) 0 n = v mod 2 ^ n.
Proof.
  intros n v l Hn. unfold bits. cbn [pack]. change (2 ^ 0) with 1. rewrite Z.div_1_r.
  pose proof (Z.pow_pos_nonneg 2 n ltac:(lia) Hn).
  rewrite Z.mul_comm, Z.mod_add by lia. apply Z.mod_mod. lia.
Qed.
Lemma bits_skip : forall m v l lo n, 0 <= m -> m <= lo -> bits (pack ((m, v) :: l)) lo n = bits (pack l) (lo - m) n.
Proof.
  intros m v l lo n Hm Hlo. unfold bits. cbn [pack]. f_equal.
  replace lo with (m + (lo - m)) at 1 by lia. rewrite Z.pow_add_r by lia.
  pose proof (Z.pow_pos_nonneg 2 m ltac:(lia) Hm). pose proof (Z.pow_pos_nonneg 2 (lo - m) ltac:(lia) ltac:(lia)).
  rewrite <- Z.div_div by lia. f_equal.
  rewrite Z.mul_comm, Z.div_add by lia. rewrite Z.div_small; [lia|]. apply Z.mod_pos_bound. lia.
Qed.

Ltac fld := unfold desc_bits; repeat (rewrite bits_skip by lia; try (progress (match goal with
  |- context [bits _ (?a - ?b) _] => let c := eval vm_compute in (a - b) in change (a - b) with c end)));
  rewrite bits_head by lia.

Lemma field_limit_low : forall d, bits (desc_bits d) 0 16 = d_limit_low d mod 2 ^ 16. Proof. intros. fld. reflexivity. Qed.
Lemma field_base_low : forall d, bits (desc_bits d) 16 24 = d_base_low d mod 2 ^ 24. Proof. intros. fld. reflexivity. Qed.
Lemma field_s : forall d, bits (desc_bits d) 44 1 = d_s d mod 2 ^ 1. Proof. intros. fld. reflexivity. Qed.
Lemma field_dpl : forall d, bits (desc_bits d) 45 2 = d_dpl d mod 2 ^ 2. Proof. intros. fld. reflexivity. Qed.
Lemma field_present : forall d, bits (desc_bits d) 47 1 = d_present d mod 2 ^ 1. Proof. intros. fld. reflexivity. Qed.
Lemma field_limit_high : forall d, bits (desc_bits d) 48 4 = d_limit_high d mod 2 ^ 4. Proof. intros. fld. reflexivity. Qed.
Lemma field_granularity : forall d, bits (desc_bits d) 55 1 = d_granularity d mod 2 ^ 1. Proof. intros. fld. reflexivity. Qed.
Lemma field_base_high : forall d, bits (desc_bits d) 56 8 = d_base_high d mod 2 ^ 8. Proof. intros. fld. reflexivity. Qed.

(** One bit inside a field. *)
Lemma bits_inner : forall n v l lo k, 0 <= lo -> 0 <= k -> lo + k <= n ->
  bits (pack ((n, v) :: l)) lo k = bits v lo k.
Proof.
  intros n v l lo k Hlo Hk Hn. unfold bits. cbn [pack].
  pose proof (Z.pow_pos_nonneg 2 lo ltac:(lia) Hlo). pose proof (Z.pow_pos_nonneg 2 k ltac:(lia) Hk).
  assert (E : forall a b, a mod 2 ^ n = b mod 2 ^ n -> (a / 2 ^ lo) mod 2 ^ k = (b / 2 ^ lo) mod 2 ^ k).
  { intros a b Hab. rewrite <- !Z.shiftr_div_pow2, <- !Z.land_ones by lia. rewrite <- !Z.land_ones in Hab by lia.
    apply Z.bits_inj'. intros i Hi. rewrite !Z.land_spec, !Z.shiftr_spec by lia.
    destruct (Z_lt_dec i k).
    - assert (G := f_equal (fun x => Z.testbit x (i + lo)) Hab). cbn beta in G. rewrite !Z.land_spec in G.
      rewrite !Z.ones_spec_low in * by lia. rewrite !andb_true_r in G. now rewrite G.
    - rewrite !Z.ones_spec_high by lia. now rewrite !andb_false_r. }
  apply E. pose proof (Z.pow_pos_nonneg 2 n ltac:(lia) ltac:(lia)).
  rewrite Z.mul_comm, Z.mod_add by lia. apply Z.mod_mod. lia.
Qed.
Ltac fldi := unfold desc_bits; repeat (rewrite bits_skip by lia; try (progress (match goal with
  |- context [bits _ (?a - ?b) _] => let c := eval vm_compute in (a - b) in change (a - b) with c end)));
  rewrite bits_inner by lia.
Lemma field_type : forall d i, 0 <= i < 4 -> bits (desc_bits d) (40 + i) 1 = bits (d_type d) i 1.
Proof.
  intros d i Hi. unfold desc_bits. do 2 rewrite bits_skip by lia. replace (40 + i - 16 - 24) with i by lia.
  now rewrite bits_inner by lia.
Qed.

Lemma land_mask : forall x n, 0 <= n -> Z.land x (2 ^ n - 1) = x mod 2 ^ n.
Proof. intros x n Hn. rewrite <- Z.land_ones by assumption. f_equal. rewrite Z.ones_equiv. lia. Qed.
Lemma land_65535 : forall x, Z.land x 65535 = x mod 2 ^ 16. Proof. intros. now apply (land_mask x 16). Qed.
Lemma land_24 : forall x, Z.land x 16777215 = x mod 2 ^ 24. Proof. intros. now apply (land_mask x 24). Qed.
Lemma land_255 : forall x, Z.land x 255 = x mod 2 ^ 8. Proof. intros. now apply (land_mask x 8). Qed.
Lemma land_15 : forall x, Z.land x 15 = x mod 2 ^ 4. Proof. intros. now apply (land_mask x 4). Qed.

(** ** What the installed descriptors allow *)
Lemma segment_base : forall b s t p, is_u32 b -> seg_base (desc_bits (set_segment b s t p)) = b.
Proof.
  intros b s t p Hb. unfold seg_base. rewrite field_base_low, field_base_high. cbn [d_base_low d_base_high set_segment].
  rewrite land_24, land_255, Z.shiftr_div_pow2 by lia. unfold is_u32 in Hb.
  rewrite !Z.mod_mod by lia. rewrite (Z.mod_small (b / 2 ^ 24)).
  - pose proof (Z.div_mod b (2 ^ 24)). lia.
  - split; [apply Z.div_pos; lia|apply Z.div_lt_upper_bound; lia].
Qed.

(** The offsets allowed by a descriptor of "size" [s]: the size is used as the limit, and the
    granularity test is strict. *)
Definition covered (s : Z) : Z :=
  if s <? 2 ^ 20 then s + 1 else if s =? 2 ^ 20 then 1 else (s / 4096 + 1) * 4096.

Lemma segment_limit : forall b s t p, is_u32 s -> seg_limit (desc_bits (set_segment b s t p)) = covered s - 1.
Proof.
  intros b s t p Hs. unfold seg_limit, is_u32 in *. rewrite field_limit_low, field_limit_high, field_granularity.
  cbn [d_limit_low d_limit_high d_granularity set_segment]. unfold covered.
  rewrite !land_65535, land_255, land_15, !Z.shiftr_div_pow2 by lia.
  destruct (Z.ltb_spec (2 ^ 20) s).
  - change (1 mod 2 ^ 1 =? 1) with true. cbn iota.
    destruct (Z.ltb_spec s (2 ^ 20)); [lia|]. destruct (Z.eqb_spec s (2 ^ 20)); [lia|].
    assert (0 <= s / 2 ^ 12 < 2 ^ 20) by (split; [apply Z.div_pos; lia|apply Z.div_lt_upper_bound; lia]).
    assert (E : s / 2 ^ 28 = s / 2 ^ 12 / 2 ^ 16) by (rewrite Z.div_div by lia; reflexivity).
    rewrite E. rewrite !Z.mod_mod by lia. change 4096 with (2 ^ 12).
    set (q := s / 2 ^ 12) in *. rewrite (Z.mod_small (q / 2 ^ 16)).
    + pose proof (Z.div_mod q (2 ^ 16)). lia.
    + split; [apply Z.div_pos; lia|apply Z.div_lt_upper_bound; lia].
  - change (0 mod 2 ^ 1 =? 1) with false. cbn iota. rewrite Z.mod_mod by lia.
    assert (E : (s / 2 ^ 16) mod 2 ^ 8 = s / 2 ^ 16).
    { apply Z.mod_small. split; [apply Z.div_pos; lia|apply Z.div_lt_upper_bound; lia]. }
    rewrite E. destruct (Z.ltb_spec s (2 ^ 20)).
    + rewrite (Z.mod_small (s / 2 ^ 16)).
      * pose proof (Z.div_mod s (2 ^ 16)). lia.
      * split; [apply Z.div_pos; lia|apply Z.div_lt_upper_bound; lia].
    + assert (s = 2 ^ 20) by lia. subst s. rewrite Z.eqb_refl. reflexivity.
Qed.

Lemma segment_user : forall b s t, seg_present (desc_bits (set_segment b s t 3)) /\ seg_user (desc_bits (set_segment b s t 3)).
Proof.
  intros b s t. unfold seg_present, seg_user. rewrite field_present, field_s, field_dpl. repeat split; reflexivity.
Qed.
Lemma segment_allows : forall b s t o, is_u32 s -> (seg_allows (desc_bits (set_segment b s t 3)) o <-> 0 <= o < covered s).
Proof.
  intros b s t o Hs. unfold seg_allows. rewrite segment_limit by assumption. destruct (segment_user b s t). split; [lia|].
  intros H1. repeat split; try apply H0; try assumption; lia.
Qed.

Lemma covered_ge : forall s, is_u32 s -> s <> 2 ^ 20 -> s < covered s <= s + 4096.
Proof.
  intros s Hs Hn. unfold covered, is_u32 in *. destruct (Z.ltb_spec s (2 ^ 20)); [lia|].
  destruct (Z.eqb_spec s (2 ^ 20)); [contradiction|]. pose proof (Z.div_mod s 4096 ltac:(lia)).
  pose proof (Z.mod_pos_bound s 4096 ltac:(lia)). lia.
Qed.

(** ** The table *)
Lemma create_space_some : forall np p a s g g', create_space np p a s g = Some g' ->
  g' = upd (upd g (gdt_code np p) (set_segment a s GDTE_CODE 3)) (gdt_data np p) (set_segment a s GDTE_DATA 3) /\
  0 <= gdt_code np p /\ gdt_data np p < GDT_SIZE.
Proof.
  intros np p a s g g' H. unfold create_space, gdt_write in H. destruct (_ && _) eqn:B1; [|discriminate].
  destruct ((0 <=? gdt_data np p) && (gdt_data np p <? GDT_SIZE)) eqn:B2; [|discriminate]. injection H as <-.
  rewrite andb_true_iff in B1, B2. split; [reflexivity|]. lia.
Qed.

(** ** Selectors *)
Lemma build_selector_shift : forall seg tbl rpl, Z.shiftr (build_selector seg tbl rpl) 3 = seg.
Proof.
  intros seg tbl rpl. unfold build_selector. rewrite !Z.shiftr_lor. rewrite Z.shiftr_shiftl_l by lia.
  change (3 - 3) with 0. rewrite Z.shiftl_0_r. rewrite Z.shiftr_shiftl_r by lia. change (3 - 2) with 1.
  assert (H1 : 0 <= Z.land tbl 1 < 2) by (change 1 with (2 ^ 1 - 1); rewrite land_mask by lia; apply Z.mod_pos_bound; lia).
  assert (H2 : 0 <= Z.land rpl 3 < 4) by (change 3 with (2 ^ 2 - 1); rewrite land_mask by lia; apply Z.mod_pos_bound; lia).
  assert (E1 : Z.shiftr (Z.land tbl 1) 1 = 0) by (rewrite Z.shiftr_div_pow2 by lia; apply Z.div_small; lia).
  assert (E2 : Z.shiftr (Z.land rpl 3) 3 = 0) by (rewrite Z.shiftr_div_pow2 by lia; apply Z.div_small; lia).
  rewrite E1, E2. now rewrite !Z.lor_0_r.
Qed.
Lemma partition_of_index : forall np p cs, 0 <= np <= 255 -> 0 <= p <= 255 ->
  Z.shiftr cs 3 = gdt_code np p \/ Z.shiftr cs 3 = gdt_data np p -> partition_of np cs = p.
Proof.
  intros np p cs Hnp Hp H. unfold partition_of, u8, u32. assert (E : (Z.shiftr cs 3 - 3 - np) / 2 = p /\ 0 <= Z.shiftr cs 3 - 3 - np < 2 ^ 32).
  { destruct H as [-> | ->]; unfold gdt_code, gdt_data.
    - replace (3 + np + 2 * p - 3 - np) with (p * 2) by lia. split; [apply Z.div_mul; lia|lia].
    - replace (3 + np + 2 * p + 1 - 3 - np) with (1 + p * 2) by lia. split; [rewrite Z.div_add by lia; reflexivity|lia]. }
  destruct E as (E1 & E2). rewrite (Z.mod_small (Z.shiftr cs 3 - 3 - np)) by assumption. rewrite E1. apply Z.mod_small. lia.
Qed.

(** ** Pointers *)
Lemma ptr_accept : forall nparts psize pid ptr size, is_u32 ptr -> is_u32 size -> is_u32 (psize pid) ->
  (ptr_in_partition nparts psize pid ptr size = true <-> pid < nparts /\ ptr + size <= psize pid).
Proof.
  intros nparts psize pid ptr size H1 H2 H3. unfold ptr_in_partition, is_u32 in *.
  destruct (Z.leb_spec nparts pid); [split; [discriminate|lia]|].
  destruct (Z.ltb_spec (psize pid) size); [split; [discriminate|lia]|].
  unfold u32. rewrite !Z.mod_small by lia. rewrite Z.leb_le. lia.
Qed.
Lemma inside_iff : forall p n hi, 0 <= p -> 0 < n -> (inside p n 0 hi <-> p + n <= hi).
Proof.
  intros p n hi Hp Hn. unfold inside. split; intros H.
  - specialize (H (n - 1)). lia.
  - intros k Hk. lia.
Qed.

(** The hashed page table of the PowerPC port holds pages of the right partitions only. *)
From Verif Require Import Model.Base Model.Ppc Spec.PpcMmu Proof.Tac.

(** ** Bits *)
Lemma land_hi20 : forall x, 0 <= x < 2 ^ 32 -> Z.land x 0xfffff000 = x / 4096 * 4096.
Proof.
  intros x Hx. change 0xfffff000 with (Z.shiftl (Z.ones 20) 12).
  apply Z.bits_inj'. intros n Hn. rewrite Z.land_spec. change 4096 with (2 ^ 12).
  rewrite <- Z.shiftl_mul_pow2, <- Z.shiftr_div_pow2 by lia.
  rewrite !Z.shiftl_spec by lia.
  destruct (Z.ltb_spec n 12) as [L | L].
  - rewrite !Z.testbit_neg_r with (n := n - 12) by lia. apply andb_false_r.
  - rewrite Z.shiftr_spec by lia. replace (n - 12 + 12) with n by lia.
    destruct (Z.ltb_spec n 32) as [K | K].
    + rewrite Z.ones_spec_low by lia. apply andb_true_r.
    + rewrite Z.ones_spec_high by lia. rewrite andb_false_r. symmetry.
      destruct (Z.eq_dec x 0) as [-> | E]; [apply Z.bits_0|].
      apply Z.bits_above_log2; [lia|]. apply Z.log2_lt_pow2; [lia|].
      apply Z.lt_le_trans with (2 ^ 32); [lia|]. apply Z.pow_le_mono_r; lia.
Qed.

Lemma land_mod : forall x k, 0 <= k -> Z.land x (2 ^ k - 1) = x mod 2 ^ k.
Proof. intros x k Hk. rewrite <- Z.land_ones by lia. now rewrite Z.ones_equiv, Z.sub_1_r. Qed.

Lemma testbit_div : forall w k, 0 <= k -> Z.testbit w k = ((w / 2 ^ k) mod 2 =? 1).
Proof.
  intros w k Hk. rewrite Z.testbit_eqb by lia. reflexivity.
Qed.

Lemma land_bit : forall w k, 0 <= k -> (Z.land w (2 ^ k) =? 0) = negb ((w / 2 ^ k) mod 2 =? 1).
Proof.
  intros w k Hk. rewrite <- testbit_div by lia.
  destruct (Z.testbit w k) eqn:E; cbn [negb].
  - apply Z.eqb_neq. intros H. assert (B : Z.testbit (Z.land w (2 ^ k)) k = true)
      by (rewrite Z.land_spec, E, Z.pow2_bits_true by lia; reflexivity).
    rewrite H, Z.bits_0 in B. discriminate.
  - apply Z.eqb_eq. apply Z.bits_inj'. intros n Hn. rewrite Z.land_spec, Z.bits_0.
    destruct (Z.eq_dec n k) as [-> | N]; [now rewrite E|].
    rewrite Z.pow2_bits_false by lia. apply andb_false_r.
Qed.

(** Disjoint bit-fields add up. *)
Lemma lor_add : forall k a b, 0 <= k -> 0 <= b < 2 ^ k -> Z.lor (2 ^ k * a) b = 2 ^ k * a + b.
Proof.
  intros k a b Hk Hb. rewrite Z.add_nocarry_lxor, Z.lxor_lor; [reflexivity| |];
    apply Z.bits_inj'; intros n Hn; rewrite Z.land_spec, Z.bits_0, Z.mul_comm;
    (destruct (Z.ltb_spec n k);
     [ rewrite Z.mul_pow2_bits_low by lia; reflexivity
     | replace (Z.testbit b n) with false; [apply andb_false_r|];
       symmetry; destruct (Z.eq_dec b 0) as [-> | E]; [apply Z.bits_0|];
       apply Z.bits_above_log2; [lia|]; apply Z.log2_lt_pow2; [lia|];
       apply Z.lt_le_trans with (2 ^ k); [lia|]; apply Z.pow_le_mono_r; lia ]).
Qed.

Lemma lxor_mod : forall a b k, 0 <= k -> Z.lxor a b mod 2 ^ k = Z.lxor (a mod 2 ^ k) (b mod 2 ^ k).
Proof.
  intros a b k Hk. rewrite <- !Z.land_ones by lia.
  apply Z.bits_inj'. intros n Hn. rewrite Z.land_spec, !Z.lxor_spec, !Z.land_spec.
  destruct (Z.testbit (Z.ones k) n); now rewrite ?andb_true_r, ?andb_false_r.
Qed.
Lemma lxor_inj : forall a b c, Z.lxor a b = Z.lxor a c -> b = c.
Proof.
  intros a b c H.
  assert (K : forall x, Z.lxor a (Z.lxor a x) = x)
    by (intros x; now rewrite <- Z.lxor_assoc, Z.lxor_nilpotent, Z.lxor_0_l).
  rewrite <- (K b), <- (K c). now rewrite H.
Qed.

(** ** Words of an entry *)
Definition first_word (p va : Z) : Z := 2 ^ 31 + 128 * p + (va / 2 ^ 22) mod 64.
Definition group_of (p va : Z) : Z := Z.lxor p (page_index va) mod 1024.

Lemma first_word_ok : forall p va, 0 <= p < 256 ->
  Z.lor (Z.lor 0x80000000 (u32 (Z.shiftl p 7))) (Z.land (Z.shiftr va 22) 0x3f) = first_word p va.
Proof.
  intros p va Hp. unfold first_word, u32. rewrite Z.shiftl_mul_pow2, Z.shiftr_div_pow2 by lia.
  change 0x3f with (2 ^ 6 - 1). rewrite land_mod by lia. rewrite (Z.mod_small (p * _)) by lia.
  replace 0x80000000 with (2 ^ 31 * 1) by reflexivity.
  rewrite (lor_add 31) by lia.
  replace (2 ^ 31 * 1 + p * 2 ^ 7) with (2 ^ 7 * (2 ^ 24 + p)) by lia.
  pose proof (Z.mod_pos_bound (va / 2 ^ 22) (2 ^ 6) ltac:(lia)) as B.
  rewrite (lor_add 7) by lia. change 64 with (2 ^ 6). lia.
Qed.

Lemma group_ok : forall p va, 0 <= p < 256 ->
  u32 (pt_base + u32 (Z.shiftl (Z.land (Z.lxor (Z.land p 0x7ffff) (Z.land (Z.shiftr va 12) 0xffff)) pt_mask) 6))
  = group_of p va * 64.
Proof.
  intros p va Hp. unfold group_of, page_index, pt_base, pt_mask, u32.
  change 0x7ffff with (2 ^ 19 - 1). change 0xffff with (2 ^ 16 - 1). change 0x3ff with (2 ^ 10 - 1).
  rewrite !land_mod, Z.shiftl_mul_pow2, Z.shiftr_div_pow2 by lia.
  rewrite (Z.mod_small p) by lia.
  pose proof (Z.mod_pos_bound (Z.lxor p ((va / 2 ^ 12) mod 2 ^ 16)) (2 ^ 10) ltac:(lia)) as B.
  change 1024 with (2 ^ 10). set (g := Z.lxor _ _ mod 2 ^ 10) in *. clearbody g.
  rewrite Z.add_0_l, !(Z.mod_small (g * 2 ^ 6)) by lia. lia.
Qed.

Lemma first_word_fields : forall p va, 0 <= p < 256 ->
  (first_word p va / 2 ^ 31) mod 2 = 1 /\ (first_word p va / 2 ^ 7) mod 2 ^ 24 = p /\
  (first_word p va / 2 ^ 6) mod 2 = 0 /\ first_word p va mod 2 ^ 6 = (va / 2 ^ 22) mod 64.
Proof.
  intros p va Hp. unfold first_word.
  pose proof (Z.mod_pos_bound (va / 2 ^ 22) 64 ltac:(lia)) as B.
  set (q := (va / 2 ^ 22) mod 64) in *. clearbody q.
  change (2 ^ 31) with 2147483648. change (2 ^ 24) with 16777216. change (2 ^ 7) with 128. change (2 ^ 6) with 64.
  repeat split; lia.
Qed.

(** ** The loop *)
Definition valid (w : Z) : bool := (w / 2 ^ 31) mod 2 =? 1.
Lemma insert_loop_some : forall n i a w0 w1 m m', insert_loop n i a w0 w1 m = Some m' ->
  exists j, i <= j < i + Z.of_nat n /\ valid (m (a + 8 * j)) = false /\
            m' = upd (upd m (a + 8 * j + 4) w1) (a + 8 * j) w0.
Proof.
  induction n as [|n IH]; intros i a w0 w1 m m' H; cbn [insert_loop] in H; [discriminate|].
  change 0x80000000 with (2 ^ 31) in H. rewrite land_bit in H by lia.
  fold (valid (m (a + 8 * i))) in H. destruct (valid (m (a + 8 * i))) eqn:V; cbn [negb] in H.
  - apply IH in H. destruct H as (j & Hj & R). exists j. split; [lia|exact R].
  - exists i. split; [lia|]. split; [exact V|congruence].
Qed.
Lemma insert_loop_none : forall n i a w0 w1 m, insert_loop n i a w0 w1 m = None ->
  forall j, i <= j < i + Z.of_nat n -> valid (m (a + 8 * j)) = true.
Proof.
  induction n as [|n IH]; intros i a w0 w1 m H j Hj; cbn [insert_loop] in H; [lia|].
  change 0x80000000 with (2 ^ 31) in H. rewrite land_bit in H by lia.
  fold (valid (m (a + 8 * i))) in H. destruct (valid (m (a + 8 * i))) eqn:V; cbn [negb] in H; [|discriminate].
  destruct (Z.eq_dec j i) as [-> | N]; [exact V|]. apply (IH _ _ _ _ _ H). lia.
Qed.

(** ** Invariant *)
Definition spaces_ok (s : ppc) : Prop := forall p, 0 <= p < nb_spaces s ->
  sp_base (space_of s p) mod 4096 = 0 /\ 2 ^ 16 <= sp_base (space_of s p) /\ 0 <= sp_size (space_of s p) /\
  sp_base (space_of s p) + (sp_size (space_of s p) + 4095) / 4096 * 4096 <= 2 ^ 32.
Definition entry_ok (s : ppc) (g i : Z) : Prop :=
  exists p va, 0 <= p < nb_spaces s /\ 0 <= va < sp_size (space_of s p) /\ va mod 4096 = 0 /\
    pp_mem s (g * 64 + 8 * i) = first_word p va /\
    pp_mem s (g * 64 + 8 * i + 4) = sp_base (space_of s p) + va + 0x182 /\ group_of p va = g.
Record inv (sr0 : Z -> Z) (s : ppc) : Prop := {
  inv_nb : 0 < nb_spaces s <= 256;
  inv_sp : spaces_ok s;
  inv_cur : 0 <= pp_cur s < nb_spaces s;
  inv_sr : forall i, pp_sr s i = if i =? 0 then 2 ^ 29 + pp_cur s else sr0 i;
  inv_tab : forall g i, 0 <= g < 1024 -> 0 <= i < 8 -> valid (pp_mem s (g * 64 + 8 * i)) = true -> entry_ok s g i }.
(** No page is in the table twice. *)
Definition no_double (s : ppc) : Prop :=
  forall g i j, 0 <= g < 1024 -> 0 <= i < 8 -> 0 <= j < 8 -> i <> j ->
    valid (pp_mem s (g * 64 + 8 * i)) = true -> valid (pp_mem s (g * 64 + 8 * j)) = true ->
    pp_mem s (g * 64 + 8 * i) <> pp_mem s (g * 64 + 8 * j).

Lemma kp_or : forall p, 0 <= p < 256 -> Z.lor SR_KP p = 2 ^ 29 + p.
Proof. intros p Hp. unfold SR_KP. change (Z.shiftl 1 29) with (2 ^ 29 * 1). rewrite lor_add by lia. lia. Qed.

Lemma inv_switch : forall sr0 s p, inv sr0 s -> 0 <= p < nb_spaces s -> inv sr0 (ppc_switch p s).
Proof.
  intros sr0 s p [A B C D E] Hp. unfold ppc_switch. constructor; cbn [pp_cur pp_sr pp_mem]; try assumption.
  intros i. unfold upd. rewrite D. destruct (Z.eqb_spec i 0); [|reflexivity]. apply kp_or.
  clear - A Hp. lia.
Qed.

(** Entries that the processor finds. *)
Lemma group_hits_in : forall m a vsid h api w1, In w1 (group_hits m a vsid h api) <->
  exists i, 0 <= i < 8 /\ entry_matches (m (a + 8 * i)) vsid h api = true /\ w1 = m (a + 8 * i + 4).
Proof.
  intros m a vsid h api w1. unfold group_hits. rewrite in_flat_map. split.
  - intros (i & Hi & Hw). exists i. split; [cbn in Hi; intuition lia|].
    destruct (entry_matches _ _ _ _); [|easy]. destruct Hw as [<- | []]. now split.
  - intros (i & Hi & Hm & ->). exists i. split; [cbn; lia|]. rewrite Hm. now left.
Qed.
Lemma group_address_0 : forall hash, group_address sdr1 hash = hash mod 1024 * 64.
Proof.
  intros hash. unfold group_address. replace sdr1 with 0 by reflexivity.
  change (0 mod 2 ^ 9) with 0. rewrite Z.land_0_r. change (0 / 2 ^ 16) with 0. change (2 ^ 10) with 1024. lia.
Qed.
Lemma matches_valid : forall w vsid h api, entry_matches w vsid h api = true -> valid w = true.
Proof. intros w vsid h api H. unfold entry_matches in H. unfold valid. rewrite !andb_true_iff in H. tauto. Qed.

Lemma page_split : forall va ea, (va / 2 ^ 22) mod 64 = page_index ea / 2 ^ 10 ->
  page_index va mod 1024 = page_index ea mod 1024 -> page_index va = page_index ea.
Proof.
  intros va ea. unfold page_index.
  change (2 ^ 22) with 4194304. change (2 ^ 10) with 1024. change (2 ^ 12) with 4096. change (2 ^ 16) with 65536.
  intros H1 H2.
  assert (Q : va / 4194304 = va / 4096 / 1024) by (rewrite Z.div_div by lia; reflexivity).
  rewrite Q in H1. set (v := va / 4096) in *. set (e := ea / 4096) in *. clearbody v e. clear - H1 H2. lia.
Qed.

Lemma hits_inv : forall sr0 s sr ea w1, inv sr0 s -> 0 <= ea < 2 ^ 32 ->
  In w1 (page_hits (pp_mem s) sdr1 sr ea) ->
  exists va, let p := sr mod 2 ^ 24 in
    0 <= p < nb_spaces s /\ 0 <= va < sp_size (space_of s p) /\ va mod 4096 = 0 /\
    w1 = sp_base (space_of s p) + va + 0x182 /\ page_index va = page_index ea.
Proof.
  intros sr0 s sr ea w1 I He H. unfold page_hits in H. rewrite !group_address_0 in H.
  set (p := sr mod 2 ^ 24) in *. cbv zeta in H.
  apply in_app_iff in H. destruct H as [H | H]; apply group_hits_in in H; destruct H as (i & Hi & Hm & ->).
  - set (g := Z.lxor (p mod 2 ^ 19) (page_index ea) mod 1024) in *.
    assert (Hg : 0 <= g < 1024) by (apply Z.mod_pos_bound; lia).
    destruct (inv_tab _ _ I g i Hg Hi (matches_valid _ _ _ _ Hm)) as (q & va & Hq & Hva & Ha & E0 & E1 & Eg).
    rewrite E0 in Hm. unfold entry_matches in Hm. rewrite !andb_true_iff, !Z.eqb_eq in Hm.
    pose proof (inv_nb _ _ I) as Nb.
    destruct (first_word_fields q va ltac:(lia)) as (_ & F2 & _ & F4). rewrite F2, F4 in Hm.
    destruct Hm as (((_ & Hp) & _) & Hapi). subst q. exists va. cbv zeta.
    split; [exact Hq|]. split; [exact Hva|]. split; [exact Ha|]. split; [exact E1|].
    apply page_split; [exact Hapi|].
    unfold group_of in Eg. subst g. rewrite (Z.mod_small p (2 ^ 19)) in Eg by lia.
    change 1024 with (2 ^ 10) in Eg. rewrite !lxor_mod in Eg by lia. apply lxor_inj in Eg.
    change 1024 with (2 ^ 10). exact Eg.
  - exfalso. set (h2 := 2 ^ 19 - 1 - _) in *.
    assert (Hg : 0 <= h2 mod 1024 < 1024) by (apply Z.mod_pos_bound; lia).
    destruct (inv_tab _ _ I _ i Hg Hi (matches_valid _ _ _ _ Hm)) as (q & va & Hq & Hva & Ha & E0 & E1 & Eg).
    rewrite E0 in Hm. unfold entry_matches in Hm. rewrite !andb_true_iff, !Z.eqb_eq in Hm.
    pose proof (inv_nb _ _ I) as Nb.
    destruct (first_word_fields q va ltac:(lia)) as (_ & _ & F3 & _). rewrite F3 in Hm. lia.
Qed.

(** The second words written by the fault handler. *)
Lemma second_word : forall base va, base mod 4096 = 0 -> va mod 4096 = 0 -> 0 <= base -> 0 <= va ->
  base + va + 4096 <= 2 ^ 32 ->
  Z.lor (Z.land (u32 (base + va)) 0xfffff000) 0x182 = base + va + 0x182.
Proof.
  intros base va Hb Hv H0 H1 H2. unfold u32. rewrite Z.mod_small by lia. rewrite land_hi20 by lia.
  replace ((base + va) / 4096 * 4096) with (2 ^ 12 * ((base + va) / 4096)) by (change (2 ^ 12) with 4096; ring).
  rewrite lor_add by lia. change (2 ^ 12) with 4096. lia.
Qed.

Lemma fault_none_cause : forall ea s, page_fault ea (2 ^ 31) s = None /\ page_fault ea (2 ^ 27) s = None.
Proof. intros. split; reflexivity. Qed.

(** What a served page fault does. *)
Lemma fault_serve : forall sr0 s ea s', inv sr0 s -> 0 <= ea < 2 ^ 32 ->
  page_fault ea (2 ^ 30) s = Some s' ->
  exists i, let p := pp_cur s in let va := ea / 4096 * 4096 in let a := group_of p va * 64 in
    0 <= i < 8 /\ ea < sp_size (space_of s p) /\ valid (pp_mem s (a + 8 * i)) = false /\
    s' = mkPpc (pp_spaces s) p (pp_sr s)
      (upd (upd (pp_mem s) (a + 8 * i + 4) (sp_base (space_of s p) + va + 0x182)) (a + 8 * i) (first_word p va)).
Proof.
  intros sr0 s ea s' I He H. unfold page_fault in H. change (Z.land (2 ^ 30) (Z.shiftl 1 30) =? 0) with false in H.
  cbv iota in H. pose proof (inv_cur _ _ I) as C. pose proof (inv_nb _ _ I) as Nb.
  destruct (inv_sp _ _ I _ C) as (S1 & S2 & S3 & S4).
  set (p := pp_cur s) in *. set (sp := space_of s p) in *. cbv zeta in H.
  destruct (Z.ltb_spec ea (sp_size sp)) as [L | L]; [|discriminate].
  rewrite land_hi20 in H by lia. set (va := ea / 4096 * 4096) in *.
  assert (V1 : va mod 4096 = 0) by (subst va; apply Z.mod_mul; lia).
  assert (V2 : 0 <= va <= ea) by (subst va; clear - He; lia).
  rewrite second_word in H by (clearbody va; clear - V1 V2 S1 S2 S3 S4 L; lia).
  unfold insert_pte in H. cbv zeta in H. rewrite group_ok, first_word_ok in H by lia.
  destruct (insert_loop 8 0 _ _ _ _) as [m|] eqn:E; [|discriminate].
  apply insert_loop_some in E. destruct E as (i & Hi & Vi & ->). exists i. cbv zeta.
  split; [lia|]. split; [exact L|]. split; [exact Vi|]. injection H as <-. reflexivity.
Qed.

Lemma page_index_down : forall ea, page_index (ea / 4096 * 4096) = page_index ea.
Proof. intros ea. unfold page_index. change (2 ^ 12) with 4096. rewrite Z.div_mul by lia. reflexivity. Qed.

Lemma inv_fault : forall sr0 s ea s', inv sr0 s -> 0 <= ea < 2 ^ 32 ->
  page_fault ea (2 ^ 30) s = Some s' -> inv sr0 s'.
Proof.
  intros sr0 s ea s' I He H. destruct (fault_serve _ _ _ _ I He H) as (i & Hi & L & Vi & ->). cbv zeta in *.
  destruct I as [A B C D E]. set (p := pp_cur s) in *. set (va := ea / 4096 * 4096) in *.
  set (g0 := group_of p va) in *.
  assert (G0 : 0 <= g0 < 1024) by (apply Z.mod_pos_bound; lia).
  constructor; cbn [pp_cur pp_sr pp_mem pp_spaces]; try assumption.
  intros g j Hg Hj V. unfold upd in V.
  assert (N4 : g * 64 + 8 * j <> g0 * 64 + 8 * i + 4) by (clear; lia).
  destruct (Z.eqb_spec (g * 64 + 8 * j) (g0 * 64 + 8 * i)) as [X | X].
  - assert (g = g0 /\ j = i) as [-> ->] by (clear - X Hg Hj G0 Hi; lia).
    exists p, va. split; [exact C|]. unfold space_of; cbn [pp_spaces].
    split; [unfold va; clear - He L; unfold space_of in L; lia|].
    split; [unfold va; apply Z.mod_mul; lia|]. cbn [pp_mem]. unfold upd.
    rewrite Z.eqb_refl. split; [reflexivity|].
    destruct (Z.eqb_spec (g0 * 64 + 8 * i + 4) (g0 * 64 + 8 * i)); [lia|]. rewrite Z.eqb_refl. now split.
  - destruct (Z.eqb_spec (g * 64 + 8 * j) (g0 * 64 + 8 * i + 4)) as [Y | Y]; [contradiction|].
    destruct (E g j Hg Hj V) as (q & vb & Q1 & Q2 & Q3 & Q4 & Q5 & Q6).
    exists q, vb. split; [exact Q1|]. split; [exact Q2|]. split; [exact Q3|]. cbn [pp_mem]. unfold upd.
    assert (N5 : g * 64 + 8 * j + 4 <> g0 * 64 + 8 * i) by (clear; lia).
    assert (N6 : g * 64 + 8 * j + 4 <> g0 * 64 + 8 * i + 4) by lia.
    rewrite (proj2 (Z.eqb_neq _ _) X), (proj2 (Z.eqb_neq _ _) Y), (proj2 (Z.eqb_neq _ _) N5),
      (proj2 (Z.eqb_neq _ _) N6).
    split; [exact Q4|]. split; [exact Q5|exact Q6].
Qed.

Lemma no_double_fault : forall sr0 s ea s', inv sr0 s -> no_double s -> 0 <= ea < 2 ^ 32 ->
  (forall w1, ~ In w1 (group_hits (pp_mem s) (group_of (pp_cur s) ea * 64) (pp_cur s) 0 (page_index ea / 2 ^ 10))) ->
  page_fault ea (2 ^ 30) s = Some s' -> no_double s'.
Proof.
  intros sr0 s ea s' I F He NH H. destruct (fault_serve _ _ _ _ I He H) as (i & Hi & L & Vi & ->). cbv zeta in *.
  pose proof (inv_nb _ _ I) as Nb. pose proof (inv_cur _ _ I) as C.
  set (p := pp_cur s) in *. set (va := ea / 4096 * 4096) in *.
  set (g0 := group_of p va) in *.
  assert (G0 : 0 <= g0 < 1024) by (apply Z.mod_pos_bound; lia).
  assert (GE : group_of p ea = g0) by (unfold g0, group_of, va; now rewrite page_index_down).
  rewrite GE in NH.
  assert (NEW : forall j, 0 <= j < 8 -> valid (pp_mem s (g0 * 64 + 8 * j)) = true ->
                pp_mem s (g0 * 64 + 8 * j) <> first_word p va).
  { intros j Hj Vj Ej. apply (NH (pp_mem s (g0 * 64 + 8 * j + 4))). apply group_hits_in. exists j.
    split; [exact Hj|]. split; [|reflexivity]. rewrite Ej. unfold entry_matches.
    destruct (first_word_fields p va ltac:(lia)) as (-> & -> & -> & ->).
    rewrite !Z.eqb_refl. cbn [andb]. apply Z.eqb_eq. rewrite <- (page_index_down ea). fold va.
    unfold page_index. change (2 ^ 22) with 4194304. change (2 ^ 10) with 1024. change (2 ^ 12) with 4096.
    change (2 ^ 16) with 65536.
    assert (Q : va / 4194304 = va / 4096 / 1024) by (rewrite Z.div_div by lia; reflexivity).
    rewrite Q. set (v := va / 4096). clearbody v. clear. lia. }
  intros g j k Hg Hj Hk Hne Vj Vk. cbn [pp_mem] in *. unfold upd in *.
  assert (M4 : forall x, g * 64 + 8 * x <> g0 * 64 + 8 * i + 4) by (clear; lia).
  rewrite !(proj2 (Z.eqb_neq _ _) (M4 _)) in *.
  destruct (Z.eqb_spec (g * 64 + 8 * j) (g0 * 64 + 8 * i)) as [X | X];
    destruct (Z.eqb_spec (g * 64 + 8 * k) (g0 * 64 + 8 * i)) as [Y | Y].
  - clear - X Y Hne. lia.
  - assert (g = g0) as -> by (clear - X Hg Hj G0 Hi; lia). apply not_eq_sym. now apply NEW.
  - assert (g = g0) as -> by (clear - Y Hg Hk G0 Hi; lia). now apply NEW.
  - now apply F.
Qed.

Lemma nohits_group : forall m sr ea, page_hits m sdr1 sr ea = [] -> 0 <= sr mod 2 ^ 24 < 256 ->
  forall w1, ~ In w1 (group_hits m (group_of (sr mod 2 ^ 24) ea * 64) (sr mod 2 ^ 24) 0 (page_index ea / 2 ^ 10)).
Proof.
  intros m sr ea H Hp w1 K. unfold page_hits in H. cbv zeta in H. apply app_eq_nil in H. destruct H as [H _].
  rewrite group_address_0, (Z.mod_small _ (2 ^ 19)) in H by lia. unfold group_of in K. now rewrite H in K.
Qed.

Lemma sr_cur : forall sr0 s ea, inv sr0 s -> ea / 2 ^ 28 = 0 ->
  pp_sr s (ea / 2 ^ 28) mod 2 ^ 24 = pp_cur s /\ direct_store (pp_sr s (ea / 2 ^ 28)) = false.
Proof.
  intros sr0 s ea I E. rewrite E, (inv_sr _ _ I). cbn [Z.eqb]. pose proof (inv_cur _ _ I). pose proof (inv_nb _ _ I).
  unfold direct_store. change (2 ^ 29) with 536870912. change (2 ^ 24) with 16777216. change (2 ^ 31) with 2147483648.
  split; [|apply Z.eqb_neq]; lia.
Qed.

Definition small (s : ppc) : Prop := Forall (fun sp => sp_size sp <= 2 ^ 28) (pp_spaces s).
Lemma small_size : forall s p, small s -> sp_size (space_of s p) <= 2 ^ 28.
Proof.
  intros s p H. unfold space_of. destruct (Nat.lt_ge_cases (Z.to_nat p) (length (pp_spaces s))) as [L | L].
  - exact (proj1 (Forall_forall _ _) H _ (nth_In _ _ L)).
  - rewrite nth_overflow by exact L. cbn. lia.
Qed.

Lemma inv_step : forall sr0 s e s', inv sr0 s -> legal (nb_spaces s) e -> pstep e s = Some s' ->
  inv sr0 s' /\ pp_spaces s' = pp_spaces s.
Proof.
  intros sr0 s e s' I Le H. destruct e as [p | write ea]; cbn [pstep legal] in *.
  - injection H as <-. split; [now apply inv_switch|reflexivity].
  - cbv zeta in H. destruct (direct_store _); [discriminate|].
    destruct (page_hits _ _ _ ea) as [|w l] eqn:PH.
    + assert (Hs : page_fault ea (2 ^ 30) s = Some s') by exact H.
      destruct (fault_serve _ _ _ _ I Le Hs) as (i & _ & _ & _ & Es). cbv zeta in Es.
      split; [exact (inv_fault _ _ _ _ I Le Hs)|now rewrite Es].
    + destruct (forallb _ _); [|discriminate]. injection H as <-. now split.
Qed.

(** In partitions of at most 256 MB a page fault happens in segment 0, for a page that is not in the table. *)
Lemma no_double_step : forall sr0 s e s', inv sr0 s -> no_double s -> small s -> legal (nb_spaces s) e ->
  pstep e s = Some s' -> no_double s'.
Proof.
  intros sr0 s e s' I F Sm Le H. destruct e as [p | write ea]; cbn [pstep legal] in *.
  - injection H as <-. exact F.
  - set (sr := pp_sr s (ea / 2 ^ 28)) in *. cbv zeta in H.
    destruct (direct_store sr); [discriminate|].
    destruct (page_hits (pp_mem s) sdr1 sr ea) as [|w l] eqn:PH.
    + assert (Hs : page_fault ea (2 ^ 30) s = Some s') by exact H.
      destruct (fault_serve _ _ _ _ I Le Hs) as (i & _ & L & _ & Es). cbv zeta in *.
      pose proof (small_size s (pp_cur s) Sm) as Z28.
      assert (E0 : ea / 2 ^ 28 = 0) by (apply Z.div_small; lia).
      destruct (sr_cur _ _ _ I E0) as [Ec _]. fold sr in Ec.
      pose proof (inv_cur _ _ I). pose proof (inv_nb _ _ I).
      apply (no_double_fault sr0 s ea s' I F Le); [|exact Hs].
      rewrite <- Ec. apply nohits_group; [exact PH|]. rewrite Ec. lia.
    + destruct (forallb _ _); [|discriminate]. injection H as <-. exact F.
Qed.

Lemma inv_run : forall sr0 l s s', inv sr0 s -> Forall (legal (nb_spaces s)) l -> prun l s = Some s' ->
  inv sr0 s' /\ pp_spaces s' = pp_spaces s /\ (no_double s -> small s -> no_double s').
Proof.
  intros sr0 l. induction l as [|e l IH]; intros s s' I Le H; cbn [prun] in H; [injection H as <-; now split|].
  inversion Le as [|? ? L1 L2]; subst. destruct (pstep e s) as [s1|] eqn:E; [|discriminate].
  destruct (inv_step _ _ _ _ I L1 E) as [I1 E1].
  destruct (IH s1 s' I1) as (I2 & E2 & F2); [|exact H|].
  - unfold nb_spaces. now rewrite E1.
  - split; [exact I2|]. split; [congruence|]. intros F Sm. apply F2.
    + exact (no_double_step _ _ _ _ I F Sm L1 E).
    + unfold small. now rewrite E1.
Qed.

(** ** Isolation *)
Lemma reach_own : forall sr0 s write ea pa, inv sr0 s ->
  (forall i, 1 <= i < 16 -> direct_store (sr0 i) = true \/ nb_spaces s <= sr0 i mod 2 ^ 24) ->
  reaches s write ea pa -> owned s (pp_cur s) pa.
Proof.
  intros sr0 s write ea pa I SR (He & Hd & w1 & Hin & _ & ->).
  destruct (hits_inv _ _ _ _ _ I He Hin) as (va & Hp & Hva & Ha & -> & _). cbv zeta in *.
  assert (E0 : ea / 2 ^ 28 = 0).
  { destruct (Z.eq_dec (ea / 2 ^ 28) 0) as [E | N]; [exact E|]. exfalso.
    assert (R : 1 <= ea / 2 ^ 28 < 16).
    { change (2 ^ 28) with 268435456 in *. change (2 ^ 32) with 4294967296 in He. clear - He N. lia. }
    rewrite (inv_sr _ _ I), (proj2 (Z.eqb_neq _ _) N) in Hd, Hp.
    destruct (SR _ R) as [D | D]; [congruence|]. clear - D Hp. lia. }
  destruct (sr_cur _ _ _ I E0) as [Ec _]. rewrite Ec in *.
  destruct (inv_sp _ _ I _ (inv_cur _ _ I)) as (S1 & S2 & S3 & S4). unfold owned.
  set (sp := space_of s (pp_cur s)) in *.
  change (2 ^ 12) with 4096. change (2 ^ 16) with 65536 in *.
  clear - Hva Ha S1 S2 S3. lia.
Qed.

(** In partitions of at most 256 MB the page is the one that was asked for. *)
Lemma reach_exact : forall sr0 s write ea pa, inv sr0 s -> small s -> ea < 2 ^ 28 ->
  reaches s write ea pa -> pa = sp_base (space_of s (pp_cur s)) + ea.
Proof.
  intros sr0 s write ea pa I Sm L (He & Hd & w1 & Hin & _ & ->).
  destruct (hits_inv _ _ _ _ _ I He Hin) as (va & Hp & Hva & Ha & -> & Hpg). cbv zeta in *.
  assert (E0 : ea / 2 ^ 28 = 0) by (apply Z.div_small; lia).
  destruct (sr_cur _ _ _ I E0) as [Ec _]. rewrite Ec in *.
  pose proof (small_size s (pp_cur s) Sm) as Z28.
  destruct (inv_sp _ _ I _ (inv_cur _ _ I)) as (S1 & S2 & S3 & S4).
  set (sp := space_of s (pp_cur s)) in *. unfold page_index in Hpg.
  change (2 ^ 12) with 4096 in *. change (2 ^ 28) with 268435456 in *. change (2 ^ 16) with 65536 in *.
  assert (Q : va / 4096 = ea / 4096).
  { assert (0 <= va / 4096 < 65536) by (clear - Hva Z28; lia).
    assert (0 <= ea / 4096 < 65536) by (clear - He L; lia).
    rewrite !Z.mod_small in Hpg by assumption. exact Hpg. }
  clear - Q Ha S1. lia.
Qed.

(** ** Service *)
Definition blocks (s : ppc) : list Z :=
  flat_map (fun p => map (fun a => 2 ^ 31 + 128 * p + Z.of_nat a)
    (seq 0 (Z.to_nat ((sp_size (space_of s p) + 2 ^ 22 - 1) / 2 ^ 22)))) (map Z.of_nat (seq 0 (length (pp_spaces s)))).
Definition count (l : list pspace) : Z := fold_right (fun sp n => (sp_size sp + 2 ^ 22 - 1) / 2 ^ 22 + n) 0 l.

Lemma blocks_length : forall s, Forall (fun sp => 0 <= sp_size sp) (pp_spaces s) ->
  Z.of_nat (length (blocks s)) = count (pp_spaces s).
Proof.
  intros s. unfold blocks, space_of. generalize (pp_spaces s) as l. clear s.
  assert (G : forall l k f, (forall n, (n < length l)%nat -> f (Z.of_nat (k + n)) = nth n l (mkSpace 0 0)) ->
    Forall (fun sp => 0 <= sp_size sp) l ->
    Z.of_nat (length (flat_map (fun p => map (fun a => 2 ^ 31 + 128 * p + Z.of_nat a)
      (seq 0 (Z.to_nat ((sp_size (f p) + 2 ^ 22 - 1) / 2 ^ 22)))) (map Z.of_nat (seq k (length l))))) = count l).
  { induction l as [|x l IH]; intros k f Hf Hs; [reflexivity|].
    inversion Hs as [|? ? H1 H2]; subst. cbn [length seq map flat_map count fold_right]. rewrite app_length, map_length, seq_length.
    rewrite Nat2Z.inj_add. rewrite (IH (S k) f); [| |exact H2].
    - replace k with (k + 0)%nat at 1 by lia. rewrite (Hf 0%nat) by (cbn; lia). cbn [nth].
      fold (count l). rewrite Z2Nat.id; [reflexivity|]. apply Z.div_pos; lia.
    - intros n Hn. replace (S k + n)%nat with (k + S n)%nat by lia. rewrite (Hf (S n)) by (cbn; lia). reflexivity. }
  intros l Hs. apply (G l 0%nat (fun p => nth (Z.to_nat p) l (mkSpace 0 0))); [|exact Hs].
  intros n Hn. cbn [Nat.add]. now rewrite Nat2Z.id.
Qed.

Lemma in_blocks : forall s p va, 0 <= p < nb_spaces s -> 0 <= va < sp_size (space_of s p) ->
  sp_size (space_of s p) <= 2 ^ 28 -> In (first_word p va) (blocks s).
Proof.
  intros s p va Hp Hva Hz. unfold blocks. apply in_flat_map. exists p. split.
  - apply in_map_iff. exists (Z.to_nat p). split; [apply Z2Nat.id; lia|]. apply in_seq. unfold nb_spaces in Hp. lia.
  - apply in_map_iff. exists (Z.to_nat (va / 2 ^ 22)). unfold first_word.
    set (z := sp_size (space_of s p)) in *. clearbody z.
    change (2 ^ 22) with 4194304 in *. change (2 ^ 28) with 268435456 in *.
    assert (B : 0 <= va / 4194304 < 64) by (clear - Hva Hz; lia).
    rewrite Z2Nat.id, (Z.mod_small (va / 4194304)) by lia. split; [reflexivity|]. apply in_seq.
    split; [lia|]. cbn [Nat.add]. apply Z2Nat.inj_lt; [lia| |].
    + apply Z.div_pos; lia.
    + clear - Hva. lia.
Qed.

Definition eight : list Z := [0; 1; 2; 3; 4; 5; 6; 7].
Lemma in_eight : forall i, In i eight <-> 0 <= i < 8.
Proof. intros i. unfold eight. cbn [In]. lia. Qed.

Lemma NoDup_map_inj : forall (f : Z -> Z) l, NoDup l ->
  (forall x y, In x l -> In y l -> x <> y -> f x <> f y) -> NoDup (map f l).
Proof.
  intros f l ND. induction ND as [|x l Hx ND IH]; intros H; cbn [map]; [constructor|].
  constructor.
  - intros K. apply in_map_iff in K. destruct K as (y & E & Hy). apply (H y x); [now right|now left| |exact E].
    intros ->. contradiction.
  - apply IH. intros a b Ha Hb. apply H; now right.
Qed.

Lemma fault_served : forall sr0 s ea, inv sr0 s -> no_double s -> small s -> count (pp_spaces s) <= 8 ->
  0 <= ea < sp_size (space_of s (pp_cur s)) ->
  (forall w1, ~ In w1 (group_hits (pp_mem s) (group_of (pp_cur s) ea * 64) (pp_cur s) 0 (page_index ea / 2 ^ 10))) ->
  exists s', page_fault ea (2 ^ 30) s = Some s'.
Proof.
  intros sr0 s ea I F Sm Cn He NH. unfold page_fault. change (Z.land (2 ^ 30) (Z.shiftl 1 30) =? 0) with false.
  cbv iota zeta. pose proof (inv_nb _ _ I) as Nb. pose proof (inv_cur _ _ I) as C.
  set (p := pp_cur s) in *. pose proof (small_size s p Sm) as Z28.
  destruct (Z.ltb_spec ea (sp_size (space_of s p))) as [L | L]; [|lia].
  rewrite (land_hi20 ea) by lia. set (va := ea / 4096 * 4096) in *.
  assert (Hva : 0 <= va <= ea) by (unfold va; clear - He; lia).
  destruct (insert_pte _ _ _ _) as [m|] eqn:E; [eexists; reflexivity|]. exfalso.
  unfold insert_pte in E. cbv zeta in E. rewrite group_ok in E by lia.
  set (g := group_of p va) in *.
  assert (GE : group_of p ea = g) by (unfold g, group_of, va; now rewrite page_index_down).
  rewrite GE in NH.
  assert (Hg : 0 <= g < 1024) by (apply Z.mod_pos_bound; lia).
  pose proof (insert_loop_none _ _ _ _ _ _ E) as V. cbn [Z.of_nat] in V.
  set (f := fun i => pp_mem s (g * 64 + 8 * i)).
  assert (ND : NoDup (first_word p va :: map f eight)).
  { constructor.
    - intros K. apply in_map_iff in K. destruct K as (j & Ej & Hj). apply in_eight in Hj. unfold f in Ej.
      apply (NH (pp_mem s (g * 64 + 8 * j + 4))). apply group_hits_in. exists j.
      split; [exact Hj|]. split; [|reflexivity]. rewrite Ej. unfold entry_matches.
      destruct (first_word_fields p va ltac:(lia)) as (-> & -> & -> & ->).
      rewrite !Z.eqb_refl. cbn [andb]. apply Z.eqb_eq. rewrite <- (page_index_down ea). fold va.
      unfold page_index. change (2 ^ 22) with 4194304. change (2 ^ 10) with 1024. change (2 ^ 12) with 4096.
      change (2 ^ 16) with 65536.
      assert (Q : va / 4194304 = va / 4096 / 1024) by (rewrite Z.div_div by lia; reflexivity).
      rewrite Q. set (v := va / 4096). clearbody v. clear. lia.
    - apply NoDup_map_inj.
      + unfold eight. repeat constructor; cbn [In]; lia.
      + intros x y Hx Hy Hne. apply in_eight in Hx, Hy. unfold f. apply F; try assumption; apply V; lia. }
  assert (IN : incl (first_word p va :: map f eight) (blocks s)).
  { intros w [<- | K].
    - apply in_blocks; [exact C|lia|exact Z28].
    - apply in_map_iff in K. destruct K as (j & <- & Hj). apply in_eight in Hj. unfold f.
      destruct (inv_tab _ _ I g j Hg Hj (V j ltac:(lia))) as (q & vb & Q1 & Q2 & Q3 & -> & _).
      apply in_blocks; [exact Q1|exact Q2|now apply small_size]. }
  pose proof (NoDup_incl_length ND IN) as LE. cbn [length] in LE. rewrite map_length in LE. cbn [length eight] in LE.
  assert (BL : Z.of_nat (length (blocks s)) = count (pp_spaces s)).
  { apply blocks_length. apply Forall_forall. intros x Hx. apply (In_nth _ _ (mkSpace 0 0)) in Hx.
    destruct Hx as (n & Hn & Ex).
    destruct (inv_sp _ _ I (Z.of_nat n)) as (_ & _ & S3 & _); [unfold nb_spaces; lia|].
    unfold space_of in S3. rewrite Nat2Z.id, Ex in S3. exact S3. }
  lia.
Qed.

Lemma access_served : forall sr0 s write ea, inv sr0 s -> no_double s -> small s -> count (pp_spaces s) <= 8 ->
  0 <= ea < sp_size (space_of s (pp_cur s)) ->
  exists s', pstep (EAccess write ea) s = Some s' /\ reaches s' write ea (sp_base (space_of s (pp_cur s)) + ea).
Proof.
  intros sr0 s write ea I F Sm Cn He. cbn [pstep]. pose proof (inv_nb _ _ I) as Nb. pose proof (inv_cur _ _ I) as C.
  pose proof (small_size s (pp_cur s) Sm) as Z28.
  assert (E0 : ea / 2 ^ 28 = 0) by (apply Z.div_small; lia).
  assert (Le : 0 <= ea < 2 ^ 32) by lia.
  destruct (sr_cur _ _ _ I E0) as [Ec Ed]. set (sr := pp_sr s (ea / 2 ^ 28)) in *. cbv zeta. rewrite Ed.
  assert (PP : forall x, user_may write sr (x + 0x182) = true \/ x mod 4096 <> 0).
  { intros x. destruct (Z.eq_dec (x mod 4096) 0) as [Ex | Ex]; [left|now right].
    unfold user_may. replace ((x + 0x182) mod 4) with 2 by lia. reflexivity. }
  assert (AL : forall va, va mod 4096 = 0 -> (sp_base (space_of s (pp_cur s)) + va) mod 4096 = 0).
  { intros va Hv. destruct (inv_sp _ _ I _ C) as (S1 & _). clear - Hv S1. lia. }
  destruct (page_hits (pp_mem s) sdr1 sr ea) as [|w l] eqn:PH.
  - assert (NH : forall w1, ~ In w1 (group_hits (pp_mem s) (group_of (pp_cur s) ea * 64) (pp_cur s) 0
                              (page_index ea / 2 ^ 10))).
    { rewrite <- Ec. apply nohits_group; [exact PH|]. rewrite Ec. lia. }
    destruct (fault_served _ _ _ I F Sm Cn He NH) as (s' & Es). exists s'. split; [exact Es|].
    destruct (fault_serve _ _ _ _ I Le Es) as (i & Hi & _ & _ & E'). cbv zeta in E'.
    unfold reaches. cbv zeta. rewrite E'. cbn [pp_sr pp_mem]. fold sr. split; [exact Le|]. split; [exact Ed|].
    set (p := pp_cur s) in *. set (va := ea / 4096 * 4096) in *.
    exists (sp_base (space_of s p) + va + 0x182).
    assert (Hv : va mod 4096 = 0) by (unfold va; apply Z.mod_mul; lia). specialize (AL va Hv).
    split; [|split].
    + unfold page_hits. cbv zeta. rewrite Ec. apply in_app_iff. left. apply group_hits_in. exists i.
      rewrite group_address_0, (Z.mod_small p) by lia.
      assert (GE : Z.lxor p (page_index ea) mod 1024 = group_of p va)
        by (unfold group_of, va; now rewrite page_index_down).
      rewrite GE. split; [exact Hi|]. rewrite upd_same. split.
      * unfold entry_matches. destruct (first_word_fields p va ltac:(lia)) as (-> & -> & -> & ->).
        rewrite !Z.eqb_refl. cbn [andb]. apply Z.eqb_eq. rewrite <- (page_index_down ea). fold va.
        unfold page_index. change (2 ^ 22) with 4194304. change (2 ^ 10) with 1024. change (2 ^ 12) with 4096.
        change (2 ^ 16) with 65536.
        assert (Q : va / 4194304 = va / 4096 / 1024) by (rewrite Z.div_div by lia; reflexivity).
        rewrite Q. set (v := va / 4096). clearbody v. clear. lia.
      * rewrite upd_other by lia. now rewrite upd_same.
    + destruct (PP (sp_base (space_of s p) + va)) as [K | K]; [exact K|contradiction].
    + change (2 ^ 12) with 4096. fold p. set (b := sp_base (space_of s p)) in *. unfold va in *.
      clear - AL. lia.
  - assert (HI : forall x, In x (w :: l) -> user_may write sr x = true).
    { intros x Hx. rewrite <- PH in Hx. destruct (hits_inv _ _ _ _ _ I Le Hx) as (va & _ & _ & Ha & -> & _).
      rewrite Ec. specialize (AL va Ha). destruct (PP (sp_base (space_of s (pp_cur s)) + va)); [assumption|contradiction]. }
    rewrite (proj2 (forallb_forall _ _)) by exact HI. exists s. split; [reflexivity|].
    assert (R : reaches s write ea (w / 2 ^ 12 * 2 ^ 12 + ea mod 2 ^ 12)).
    { unfold reaches. cbv zeta. fold sr. split; [exact Le|]. split; [exact Ed|]. exists w. rewrite PH.
      split; [now left|]. split; [apply HI; now left|reflexivity]. }
    assert (L28 : ea < 2 ^ 28) by (clear - He Z28; lia).
    pose proof (reach_exact _ _ _ _ _ I Sm L28 R) as X. rewrite <- X. exact R.
Qed.

(** ** Boot *)
Lemma alloc_ok : forall heap sz, 0 <= heap -> 0 <= sz -> heap + sz + 4096 <= 2 ^ 32 - 4096 ->
  exists a, ppc_alloc heap sz = (a, a + sz) /\ heap <= a <= heap + 4095 /\ a mod 4096 = 0.
Proof.
  intros heap sz H1 H2 H3. exists ((heap + 4095) / 4096 * 4096). unfold ppc_alloc, u32.
  rewrite (Z.mod_small (heap + 4095)) by lia. rewrite land_hi20 by lia.
  assert (B : heap <= (heap + 4095) / 4096 * 4096 <= heap + 4095) by (clear; lia).
  rewrite Z.mod_small by lia. split; [reflexivity|]. split; [exact B|]. apply Z.mod_mul. lia.
Qed.

Lemma room_pos : forall l, Forall (fun r => 0 <= req_size r) l -> 0 <= room l.
Proof. intros l H. induction H as [|x l Hx Hl IH]; cbn [room]; lia. Qed.

Definition ceil_page (sz : Z) : Z := (sz + 4095) / 4096 * 4096.
Lemma boot_spaces_ok : forall l heap, 0 <= heap -> Forall (fun r => 0 <= req_size r) l ->
  heap + room l <= 2 ^ 32 - 4096 ->
  Forall (fun sp => sp_base sp mod 4096 = 0 /\ heap <= sp_base sp /\ 0 <= sp_size sp /\
                    sp_base sp + ceil_page (sp_size sp) <= 2 ^ 32) (ppc_boot_spaces l heap) /\
  ForallOrdPairs (fun x y => sp_base x + ceil_page (sp_size x) <= sp_base y) (ppc_boot_spaces l heap).
Proof.
  induction l as [|r l IH]; intros heap H1 H2 H3; [split; constructor|].
  inversion H2 as [|? ? R1 R2]; subst. cbn [room] in H3. pose proof (room_pos _ R2) as RP.
  destruct (alloc_ok heap (req_size r) H1 R1 ltac:(lia)) as (a & Ea & Ba & Aa).
  destruct (IH (a + req_size r) ltac:(lia) R2 ltac:(lia)) as [G1 G2].
  assert (G3 : Forall (fun sp => sp_base sp mod 4096 = 0 /\ heap <= sp_base sp /\ 0 <= sp_size sp /\
                    sp_base sp + ceil_page (sp_size sp) <= 2 ^ 32) (ppc_boot_spaces l (a + req_size r))).
  { eapply Forall_impl; [|exact G1]. cbv beta. intros sp (Q1 & Q2 & Q3 & Q4). repeat split; try assumption. lia. }
  destruct r as [sz | sz]; cbn [ppc_boot_spaces req_size] in *; rewrite Ea; [|now split].
  split; constructor; try assumption; cbn [sp_base sp_size].
  - unfold ceil_page. clear - H3 R1 RP Ba Aa. change (2 ^ 32) with 4294967296 in *. lia.
  - eapply Forall_impl; [|exact G1]. cbv beta. intros sp (Q1 & Q2 & _). unfold ceil_page.
    clear - Q1 Q2 Aa. lia.
Qed.

Lemma boot_spaces_inv : forall reqs heap sr m, fits reqs heap -> spaces_ok (ppc_boot reqs heap sr m).
Proof.
  intros reqs heap sr m (F1 & F2 & F3) p Hp.
  destruct (boot_spaces_ok reqs heap ltac:(lia) F2 F3) as [G _].
  unfold nb_spaces, space_of in *. cbn [ppc_boot ppc_switch pp_spaces] in *.
  assert (L : (Z.to_nat p < length (ppc_boot_spaces reqs heap))%nat) by (clear - Hp; lia).
  pose proof (proj1 (Forall_forall _ _) G (nth (Z.to_nat p) (ppc_boot_spaces reqs heap) (mkSpace 0 0))
    (nth_In _ _ L)) as (Q1 & Q2 & Q3 & Q4).
  unfold ceil_page in Q4. repeat split; try assumption. lia.
Qed.

Lemma boot_inv : forall reqs heap sr m, fits reqs heap -> table_empty m ->
  0 < Z.of_nat (length (ppc_boot_spaces reqs heap)) <= 256 ->
  inv sr (ppc_boot reqs heap sr m) /\ no_double (ppc_boot reqs heap sr m).
Proof.
  intros reqs heap sr m Hf He Hn.
  assert (NV : forall g i, 0 <= g < 1024 -> 0 <= i < 8 -> valid (m (g * 64 + 8 * i)) = false).
  { intros g i Hg Hi. unfold valid. rewrite He; [reflexivity| |].
    - change (2 ^ 16) with 65536. lia.
    - replace (g * 64 + 8 * i) with ((g * 8 + i) * 8) by ring. apply Z.mod_mul. lia. }
  split.
  - constructor.
    + exact Hn.
    + now apply boot_spaces_inv.
    + unfold nb_spaces. cbn [ppc_boot ppc_switch pp_spaces pp_cur]. lia.
    + intros i. cbn [ppc_boot ppc_switch pp_sr pp_cur]. unfold upd. destruct (i =? 0); reflexivity.
    + intros g i Hg Hi V. cbn [ppc_boot ppc_switch pp_mem] in V. rewrite (NV g i Hg Hi) in V. discriminate.
  - intros g i j Hg Hi Hj _ V. cbn [ppc_boot ppc_switch pp_mem] in V. rewrite (NV g i Hg Hi) in V. discriminate.
Qed.

Lemma ordered_nth : forall A (R : A -> A -> Prop) l d i j, ForallOrdPairs R l -> (i < j < length l)%nat ->
  R (nth i l d) (nth j l d).
Proof.
  intros A R l d i j H. revert i j. induction H as [|x l Hx Hl IH]; intros i j Hij; cbn [length] in Hij; [lia|].
  destruct j as [|j]; [lia|]. destruct i as [|i]; cbn [nth].
  - apply (proj1 (Forall_forall _ _) Hx). apply nth_In. lia.
  - apply IH. lia.
Qed.

Lemma owned_disjoint : forall reqs heap s p q pa, fits reqs heap -> pp_spaces s = ppc_boot_spaces reqs heap ->
  0 <= p < nb_spaces s -> 0 <= q < nb_spaces s -> owned s p pa -> owned s q pa -> p = q.
Proof.
  intros reqs heap s p q pa (F1 & F2 & F3) Es Hp Hq O1 O2.
  destruct (boot_spaces_ok reqs heap ltac:(lia) F2 F3) as [_ G]. unfold owned, nb_spaces, space_of in *.
  rewrite Es in *. fold (ceil_page (sp_size (nth (Z.to_nat p) (ppc_boot_spaces reqs heap) (mkSpace 0 0)))) in O1.
  fold (ceil_page (sp_size (nth (Z.to_nat q) (ppc_boot_spaces reqs heap) (mkSpace 0 0)))) in O2.
  destruct (Z.lt_trichotomy p q) as [L | [E | L]]; [|exact E|]; exfalso.
  - pose proof (ordered_nth _ _ _ (mkSpace 0 0) (Z.to_nat p) (Z.to_nat q) G ltac:(lia)) as K. cbv beta in K. lia.
  - pose proof (ordered_nth _ _ _ (mkSpace 0 0) (Z.to_nat q) (Z.to_nat p) G ltac:(lia)) as K. cbv beta in K. lia.
Qed.

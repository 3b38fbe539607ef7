(** The square roots of zeros, of negative numbers, of infinities and NaN. *)
From Verif Require Import Model.Base Spec.Ieee Spec.LibmSpec Model.Float Model.Libm Model.LibmRoot
  Proof.FloatProof Proof.FloatRound Proof.FloatScale Proof.FloatRoot Proof.LibmfProof Proof.LibmfRint Proof.LibmSign Proof.LibmNext Proof.LibmScale Proof.LibmdProof.

Definition sqrt_other (F : fmt) (x : Z) (c : option Z) : Prop :=
  (is_zero F x -> c = Some x) /\
  (is_inf F x -> neg F x = false -> c = Some x) /\
  (is_nan F x -> exists r, c = Some r /\ is_nan F r) /\
  (neg F x = true -> ~ is_zero F x -> exists r, c = Some r /\ is_nan F r).

Lemma s_field : forall x, word single x -> Z.land (get_float x) 2139095040 = absw single x / 8388608 * 8388608.
Proof.
  intros x W. rewrite (s_get x W). destruct (s_split x W) as [_ B]. set (a := absw single x) in *. clearbody a.
  change 2139095040 with ((2 ^ 8 - 1) * 2 ^ 23). rewrite land_field by lia. change (2 ^ 8) with 256. change (2 ^ 23) with 8388608. f_equal.
  pose proof (Z.div_mod a 8388608 ltac:(lia)). pose proof (Z.mod_pos_bound a 8388608 ltac:(lia)).
  destruct (neg single x); [|apply Z.mod_small; lia].
  replace (a - 2147483648) with (a + (-256) * 8388608) by ring. rewrite Z.div_add by lia. symmetry. apply Z.mod_unique with (-1); lia.
Qed.

Theorem sqrtf_other : forall x, word single x -> sqrt_other single x (c_sqrtf x).
Proof.
  intros x W. destruct (s_split x W) as [Ex B]. unfold sqrt_other, is_zero, is_inf, is_nan. rewrite s_infw.
  unfold c_sqrtf. cbv zeta. rewrite s_field by exact W. rewrite (s_land_abs x W).
  pose proof (Z.div_mod (absw single x) 8388608 ltac:(lia)) as DM. pose proof (Z.mod_pos_bound (absw single x) 8388608 ltac:(lia)) as BM.
  destruct (Z.eqb_spec (absw single x / 8388608 * 8388608) 2139095040) as [E|N].
  - assert (NF : ~ finite single x) by (unfold finite; rewrite s_infw; lia).
    destruct (square_plus single s_mb s_eb s_range x W NF) as [P1 P2]. unfold is_nan, is_inf in P1, P2. rewrite s_infw in P1, P2.
    split; [intros; lia|]. split; [intros I S; now rewrite P2|]. split; intros H; [|intros _]; eexists; (split; [reflexivity|]); apply P1; auto.
  - assert (L : absw single x < 2139095040) by lia. rewrite (s_get x W). split; [|split; [lia|split; [lia|]]].
    + intros Z. rewrite Z. destruct (neg single x); reflexivity.
    + intros S Nz. rewrite S. destruct (Z.eqb_spec (absw single x) 0); [contradiction|]. rewrite andb_false_r.
      destruct (Z.leb_spec (absw single x - 2147483648) 0); [|lia]. destruct (Z.ltb_spec (absw single x - 2147483648) 0); [|lia]. cbn [andb].
      eexists. split; [reflexivity|]. rewrite <- s_infw. rewrite (fsub_self single s_mb s_eb s_range) by (try assumption; unfold finite; rewrite s_infw; lia).
      vm_compute. reflexivity.
Qed.

Theorem sqrt_other_spec : forall x, word double x -> sqrt_other double x (c_sqrt false x).
Proof.
  intros x W. destruct (d_bound x W) as [Ex B]. unfold sqrt_other, is_zero, is_inf, is_nan. rewrite d_infw.
  destruct (d_hi_abs x W) as (_ & _ & Ll & Hh & _). pose proof (d_hi_val x W) as Hv.
  unfold c_sqrt. cbv zeta. rewrite Ll, Hv.
  set (a := absw double x) in *.
  pose proof (Z.div_mod a 4294967296 ltac:(lia)) as DM. pose proof (Z.mod_pos_bound a 4294967296 ltac:(lia)) as BM.
  set (h := a / 4294967296) in *. set (l := a mod 4294967296) in *.
  assert (Hb : 0 <= h < 2147483648) by lia.
  assert (G : s32 ((if neg double x then 2147483648 else 0) + h) = (if neg double x then h - 2147483648 else h)).
  { destruct (neg double x); [|apply s32_id; lia].
    destruct (s32_cases (2147483648 + h) ltac:(change (2 ^ 32) with 4294967296; lia)) as [[A ->]|[A ->]]; lia. }
  assert (Fd : Z.land (if neg double x then h - 2147483648 else h) 2146435072 = h / 1048576 * 1048576).
  { clear - Hb. change 2146435072 with ((2 ^ 11 - 1) * 2 ^ 20). rewrite land_field by lia. change (2 ^ 11) with 2048. change (2 ^ 20) with 1048576. f_equal.
    pose proof (Z.div_mod h 1048576 ltac:(lia)). pose proof (Z.mod_pos_bound h 1048576 ltac:(lia)).
    destruct (neg double x); [|apply Z.mod_small; lia].
    replace (h - 2147483648) with (h + (-2048) * 1048576) by ring. rewrite Z.div_add by lia. symmetry. apply Z.mod_unique with (-1); lia. }
  assert (Al : Z.land (if neg double x then h - 2147483648 else h) 2147483647 = h).
  { clear - Hb. change 2147483647 with (2 ^ 31 - 1). rewrite land_low by lia. change (2 ^ 31) with 2147483648.
    destruct (neg double x); [|apply Z.mod_small; lia]. symmetry. apply Z.mod_unique with (-1); lia. }
  rewrite G, Fd, Al.
  pose proof (Z.div_mod h 1048576 ltac:(lia)) as DM2. pose proof (Z.mod_pos_bound h 1048576 ltac:(lia)) as BM2.
  destruct (Z.eqb_spec (h / 1048576 * 1048576) 2146435072) as [E|N].
  - assert (NF : ~ finite double x) by (unfold finite; rewrite d_infw; subst a; lia).
    destruct (square_plus double d_mb d_eb d_range x W NF) as [P1 P2]. unfold is_nan, is_inf in P1, P2. rewrite d_infw in P1, P2. fold a in P1, P2.
    split; [intros; lia|]. split; [intros I S; now rewrite P2|]. split; intros H; [|intros _]; eexists; (split; [reflexivity|]); apply P1; auto.
  - assert (L : a < 9218868437227405312) by lia. split; [|split; [lia|split; [lia|]]].
    + intros Z. assert (h = 0) as -> by lia. assert (l = 0) as -> by lia. destruct (neg double x); reflexivity.
    + intros S Nz. rewrite S.
      assert (Nl : (Z.lor h l =? 0) = false) by (apply Z.eqb_neq; rewrite Z.lor_eq_0_iff; lia). rewrite Nl, andb_false_r.
      destruct (Z.leb_spec (h - 2147483648) 0); [|lia]. destruct (Z.ltb_spec (h - 2147483648) 0); [|lia]. cbn [andb].
      eexists. split; [reflexivity|]. rewrite <- d_infw. rewrite (fsub_self double d_mb d_eb d_range) by (try assumption; unfold finite; rewrite d_infw; fold a; lia).
      vm_compute. reflexivity.
Qed.

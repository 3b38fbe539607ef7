(** roundf in terms of floorf; NaN and infinities. *)
From Verif Require Import Model.Base Spec.Ieee Spec.LibmSpec Model.Float Model.Libm
  Proof.FloatProof Proof.LibmfProof Proof.LibmfRint.

Section Round.
Variable F : fmt.
Hypothesis Hmb : 1 <= mb F.
Hypothesis Heb : 3 <= eb F.
Hypothesis Hrange : mb F + 2 <= bias F.
Variable floor : Z -> Z.
Hypothesis Hfloor : forall w, word F w -> finite F w -> floor_of F w (floor w).
Variables hw ow : Z.
Hypothesis Wh : word F hw.
Hypothesis Fh : finite F hw.
Hypothesis Vh : 2 * val F hw = one F.
Hypothesis Wo : word F ow.
Hypothesis Fo : finite F ow.
Hypothesis Vo : val F ow = one F.
Set Default Proof Using "All".

(** The body of roundf and round. *)
Definition round_body (x : Z) : Z :=
  if fle F 0 x then
    let t := floor x in
    if fle F hw (fsub F x t) then fadd F t ow else t
  else
    let x := fneg F x in
    let t := floor x in
    let t := if fle F hw (fsub F x t) then fadd F t ow else t in
    fneg F t.

Lemma zero_word : word F 0 /\ finite F 0 /\ val F 0 = 0.
Proof.
  pose proof (p2 (mb F + eb F) ltac:(lia)) as P. pose proof (infw_lt F Hmb Heb Hrange) as I.
  destruct (word_of F Hmb Heb Hrange false 0) as (W & N & A); [pose proof (infw_big F Hmb Heb Hrange); lia|].
  unfold sbit in W, N, A. cbn [Z.add] in *. split; [exact W|].
  pose proof (infw_big F Hmb Heb Hrange). split.
  - unfold finite. rewrite A. lia.
  - unfold val. rewrite N, A. apply (mag_0 F Hmb Heb Hrange).
Qed.

Lemma round_body_finite : forall x, word F x -> finite F x -> round_of F x (round_body x).
Proof.
  intros x W Fx. unfold round_body. pose proof (one_pos F Hmb Heb Hrange) as O.
  destruct zero_word as (W0 & F0 & V0).
  rewrite (fle_val F Hmb Heb Hrange) by assumption. rewrite V0.
  destruct (Hfloor x W Fx) as (Wt & Ft & Nt & n & Vt & Bt).
  destruct (word_split F Hmb Heb Hrange x W) as [Ex Bx].
  pose proof (mag_nonneg F Hmb Heb Hrange (absw F x) ltac:(lia)) as G.
  pose proof (val_neg F Hmb Heb Hrange x W) as Vx.
  destruct (Z.leb_spec 0 (val F x)) as [L|L].
  - destruct (neg F x) eqn:N; cbn [sgn_of] in Vx.
    + (* -0 *)
      assert (val F x = 0) as Z by lia. assert (n = 0) as -> by nia.
      assert (Et : val F x + val F (fneg F (floor x)) = 0).
      { rewrite (fneg_val F Hmb Heb Hrange) by assumption. lia. }
      destruct (fsub_finite F Hmb Heb Hrange x (floor x) Wt Fx Ft) as [-> Fnt].
      destruct (fneg_fin F Hmb Heb Hrange (floor x) Wt) as (Wnt & _ & _).
      destruct (fadd_repr F Hmb Heb Hrange x (fneg F (floor x)) 0 0 W Wnt Fx Fnt) as (Ws & Fs & Vs & _).
      { pose proof (M_pos F Hmb Heb Hrange). lia. }
      { lia. }
      { lia. }
      rewrite (fle_val F Hmb Heb Hrange) by assumption.
      replace (val F hw <=? val F (fadd F x (fneg F (floor x)))) with false by (symmetry; apply Z.leb_gt; lia).
      unfold round_of. rewrite N. repeat split; try assumption; try apply Wt. exists 0. split; [lia|].
      rewrite Z. unfold nearest_away. lia.
    + destruct (round_core F Hmb Heb Hrange x (floor x) n hw ow) as (R1 & R2 & R3 & R4); try assumption.
      unfold round_of. rewrite N. repeat split; try assumption; apply R1.
  - assert (N : neg F x = true) by (destruct (neg F x); [reflexivity|cbn [sgn_of] in Vx; lia]).
    clear Wt Ft Nt n Vt Bt.
    destruct (fneg_fin F Hmb Heb Hrange x W) as (Wy & Ny & Ay).
    pose proof (fneg_val F Hmb Heb Hrange x W) as Vy.
    assert (Fy : finite F (fneg F x)) by (unfold finite in *; now rewrite Ay).
    set (y := fneg F x) in *. rewrite N in Ny. cbn [negb] in Ny.
    destruct (Hfloor y Wy Fy) as (Wt & Ft & Nt & n & Vt & Bt).
    destruct (round_core F Hmb Heb Hrange y (floor y) n hw ow) as (R1 & R2 & R3 & q & R4 & R5); try assumption.
    { now rewrite Nt, Ny. }
    cbv zeta. match goal with |- round_of _ _ (fneg F ?r) => set (rr := r) in * end.
    destruct (fneg_fin F Hmb Heb Hrange rr R1) as (Wr & Nr & Ar).
    unfold round_of. split; [exact Wr|]. split; [unfold finite in *; now rewrite Ar|].
    split; [now rewrite Nr, R3, N|]. exists (- q).
    rewrite (fneg_val F Hmb Heb Hrange rr R1). split; [lia|].
    rewrite Vy in R5. clear - R5. unfold nearest_away in *.
    replace (Z.abs (val F x - - q * one F)) with (Z.abs (- val F x - q * one F)) by lia.
    split; [tauto|]. intros H. apply R5 in H. lia.
Qed.

End Round.

Lemma s_half : word single f_half /\ finite single f_half /\ 2 * val single f_half = one single.
Proof. vm_compute. repeat split; congruence. Qed.

Lemma s_onew : word single f_one /\ finite single f_one /\ val single f_one = one single.
Proof. vm_compute. repeat split; congruence. Qed.

(** fpclassify.c tells the classes apart. *)
Lemma fpclassifyf_spec : forall w, word single w ->
  (c_fpclassifyf w = FP_ZERO <-> is_zero single w) /\
  (c_fpclassifyf w = FP_SUBNORMAL <-> subnormal single w) /\
  (c_fpclassifyf w = FP_NORMAL <-> normal single w) /\
  (c_fpclassifyf w = FP_INFINITE <-> is_inf single w) /\
  (c_fpclassifyf w = FP_NAN <-> is_nan single w).
Proof.
  intros w W. destruct (s_split w W) as [E B]. rewrite s_sbit in E.
  unfold is_zero, subnormal, normal, is_inf, is_nan. rewrite s_infw.
  change (2 ^ mb single) with 8388608. unfold c_fpclassifyf.
  unfold FP_ZERO, FP_SUBNORMAL, FP_NORMAL, FP_INFINITE, FP_NAN.
  remember (absw single w) as a eqn:Da. clear Da.
  destruct (Z.eqb_spec w 0); cbn [orb].
  { destruct (neg single w); lia. }
  destruct (Z.eqb_spec w 0x80000000).
  { destruct (neg single w); lia. }
  repeat match goal with
  | |- context [?x <=? ?y] => destruct (Z.leb_spec x y); cbn [andb orb]
  | |- context [?x =? ?y] => destruct (Z.eqb_spec x y); cbn [andb orb]
  end; destruct (neg single w); try lia.
Qed.

Lemma roundf_body : forall x, word single x -> finite single x ->
  c_roundf x = round_body single c_floorf f_half f_one x.
Proof.
  intros x W Fx. unfold c_roundf.
  destruct (fpclassifyf_spec x W) as (_ & _ & _ & A & B).
  unfold finite in Fx. unfold is_inf, is_nan in A, B.
  destruct (Z.eqb_spec (c_fpclassifyf x) FP_INFINITE) as [H|H]; [apply A in H; lia|].
  destruct (Z.eqb_spec (c_fpclassifyf x) FP_NAN) as [H2|H2]; [apply B in H2; lia|]. reflexivity.
Qed.

Lemma roundf_finite : forall w, word single w -> finite single w -> round_of single w (c_roundf w).
Proof.
  intros w W Fw. rewrite roundf_body by assumption.
  destruct s_half as (A1 & A2 & A3). destruct s_onew as (B1 & B2 & B3).
  apply (round_body_finite single s_mb s_eb s_range c_floorf floorf_finite); assumption.
Qed.

(** ** NaN and infinities *)
Lemma s_exp_special : forall w, word single w -> infw single <= absw single w ->
  f_exp (get_float w) = 128.
Proof.
  intros w W H. rewrite (s_exp w W). destruct (s_split w W) as [_ B]. rewrite s_infw in H.
  change (2 ^ 23) with 8388608. lia.
Qed.

Ltac special :=
  intros w W; split; intros H;
  (assert (X : f_exp (get_float w) = 128) by (apply s_exp_special; [exact W|unfold is_nan, is_inf in H; lia]));
  [pose proof (proj1 (fadd_nan single s_mb s_eb s_range w w W H)) as Y
  |pose proof (fadd_inf_self single s_mb s_eb s_range w H) as Y].

Lemma floorf_special : passes_special single c_floorf.
Proof. special; unfold c_floorf; rewrite X; exact Y. Qed.
Lemma ceilf_special : passes_special single c_ceilf.
Proof. special; unfold c_ceilf; rewrite X; exact Y. Qed.
Lemma truncf_special : passes_special single c_truncf.
Proof. special; unfold c_truncf; rewrite X; exact Y. Qed.
Lemma rintf_special : passes_special single c_rintf.
Proof. special; unfold c_rintf; rewrite X; exact Y. Qed.
Lemma roundf_special : passes_special single c_roundf.
Proof.
  intros w W. destruct (fpclassifyf_spec w W) as (_ & _ & _ & A & B). unfold c_roundf.
  split; intros H.
  - apply B in H as H'. rewrite H'. exact H.
  - apply A in H as H'. now rewrite H'.
Qed.

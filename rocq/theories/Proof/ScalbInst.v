(** The functions scalb calls meet what its proof needs; rint gives an integer even where it rounds the wrong way. *)
From Verif Require Import Model.Base Spec.Ieee Spec.LibmSpec Spec.ScalbSpec Model.Float Model.Libm Model.LibmScalb
  Proof.Tac Proof.FloatProof Proof.FloatRound Proof.FloatScale Proof.FloatParts Proof.LibmfProof Proof.LibmfRint Proof.LibmdProof
  Proof.LibmdRound Proof.LibmdRint Proof.LibmSign Proof.LibmParts Proof.ScalbProof.

(** The result of the two additions is an integer. *)
Lemma shifted_int : forall F s b, 1 <= mb F -> 3 <= eb F -> mb F + 2 <= bias F -> 0 <= b < (bias F + mb F) * 2 ^ mb F ->
  let r := fsub F (fadd F (two_mb F s) (sbit F s + b)) (two_mb F s) in
  exists n, word F r /\ finite F r /\ val F r = n * one F.
Proof.
  intros F s b Hmb Heb Hrange Hb r. pose proof (infw_lt F Hmb Heb Hrange) as IL. pose proof (M_pos F Hmb Heb Hrange) as HM.
  pose proof (bias_pos F Hmb Heb Hrange) as BP.
  assert (Bi : b < infw F) by (rewrite (infw_val F Hmb Heb Hrange); nia).
  destruct (word_of F Hmb Heb Hrange s b ltac:(lia)) as (Wx & Nx & Ax).
  assert (Fx : finite F (sbit F s + b)) by (unfold finite; lia).
  assert (Lb : mag F b < 2 ^ mb F * one F).
  { pose proof (mag_mono F Hmb Heb Hrange b ((bias F + mb F) * 2 ^ mb F + 0) ltac:(lia) ltac:(lia)) as X.
    rewrite (mag_fields F Hmb Heb Hrange) in X by lia. unfold one. rewrite Z.add_0_r in X. exact X. }
  destruct (shift_round F Hmb Heb Hrange (sbit F s + b) Wx Fx ltac:(rewrite Ax; exact Lb)) as (n & Hn).
  rewrite Nx in Hn. cbv zeta in Hn. fold r in Hn. destruct Hn as (_ & _ & Wr & Fr & Mr & _).
  exists (if neg F r then - n else n). split; [exact Wr|]. split; [exact Fr|].
  rewrite (val_neg F Hmb Heb Hrange r Wr), Mr. destruct (neg F r); cbn [sgn_of]; lia.
Qed.

Lemma rint_of_int : forall F w r, 1 <= mb F -> 3 <= eb F -> mb F + 2 <= bias F -> rint_of F w r ->
  exists n, word F r /\ finite F r /\ val F r = n * one F /\ (forall m, val F w = m * one F -> n = m).
Proof.
  intros F w r Hmb Heb Hrange (Wr & Fr & _ & n & Vn & Nn). exists n. repeat split; try assumption; try apply Wr.
  intros m E. apply (nearest_even_unique F Hmb Heb Hrange (val F w)); [exact Nn|]. rewrite E. apply (nearest_even_int F Hmb Heb Hrange).
Qed.

(** A number with fraction bits is no integer. *)
Lemma no_int : forall F w k m, 1 <= mb F -> 3 <= eb F -> mb F + 2 <= bias F -> word F w -> 1 <= k <= mb F ->
  absw F w / 2 ^ mb F = bias F + mb F - k -> absw F w mod 2 ^ k <> 0 -> val F w <> m * one F.
Proof.
  intros F w k m Hmb Heb Hrange W Hk He N E. destruct (word_split F Hmb Heb Hrange w W) as [_ B].
  destruct (mid_facts F Hmb Heb Hrange (absw F w) k ltac:(lia) Hk He) as (n & _ & _ & _ & _ & _ & _ & L & Q).
  apply N, Q. pose proof (one_pos F Hmb Heb Hrange) as O. rewrite (val_neg F Hmb Heb Hrange w W) in E.
  assert (X : exists c, mag F (absw F w) = c * one F) by (destruct (neg F w); cbn [sgn_of] in E; [exists (- m)|exists m]; lia).
  destruct X as (c & X). rewrite X in L |- *. assert (c = n) as -> by (clear - L O; nia). reflexivity.
Qed.

Lemma rintf_int : forall w, word single w -> finite single w ->
  exists n, word single (c_rintf w) /\ finite single (c_rintf w) /\ val single (c_rintf w) = n * one single /\
  (forall m, val single w = m * one single -> n = m).
Proof.
  intros w W Fw. assert (D : rintf_bad w \/ ~ rintf_bad w) by (unfold rintf_bad; lia). destruct D as [(B1 & B2)|G].
  - assert (R : exists n, word single (c_rintf w) /\ finite single (c_rintf w) /\ val single (c_rintf w) = n * one single).
    { unfold c_rintf. cbv zeta. rewrite (s_sx w W), s_two23, (s_exp w W). change (2 ^ 23) with 8388608.
      assert (absw single w / 8388608 - 127 = 21) as J by (clear - B1; lia). rewrite J.
      change (21 <? 23) with true. change (21 <? 0) with false. cbv iota.
      rewrite (s_middle_and w _ 21 _ W eq_refl eq_refl) by (try (change (2 ^ 23) with 8388608; exact J); lia).
      change (2 ^ (23 - 21)) with 4. assert ((absw single w mod 4 =? 0) = false) as -> by (clear - B2; lia).
      pose proof (rintf_mid_word w 21 W J ltac:(lia)) as MW. cbv zeta in MW. rewrite MW. clear MW.
      apply (shifted_int single); [exact s_mb|exact s_eb|exact s_range|]. cbn [mb single]. change (bias single) with 127.
      change (2 ^ 23) with 8388608. change (2 ^ (23 - 21 - 1)) with 2. change (Z.shiftr 1048576 21) with 0.
      clear - B1 B2. destruct (absw single w mod 2 =? 0); lia. }
    destruct R as (n & R1 & R2 & R3). exists n. repeat split; try assumption; try apply R1. intros m E. exfalso. revert E.
    apply (no_int single w 2); [exact s_mb|exact s_eb|exact s_range|exact W|cbn [mb single]; lia| |].
    + cbn [mb single]. change (bias single) with 127. change (2 ^ 23) with 8388608. exact B1.
    + change (2 ^ 2) with 4. clear - B2. lia.
  - apply rint_of_int; [exact s_mb|exact s_eb|exact s_range|]. now apply rintf_finite.
Qed.

Lemma rint_int : forall w, word double w -> finite double w ->
  exists n, word double (c_rint false w) /\ finite double (c_rint false w) /\ val double (c_rint false w) = n * one double /\
  (forall m, val double w = m * one double -> n = m).
Proof.
  intros w W Fw. assert (D : rint_bad w \/ ~ rint_bad w) by (unfold rint_bad; lia). destruct D as [(B1 & B2)|G].
  - assert (R : exists n, word double (c_rint false w) /\ finite double (c_rint false w) /\ val double (c_rint false w) = n * one double).
    { unfold c_rint. cbv zeta. rewrite (d_sx w W), d_two52. words_setup w W. clear S1 S2 All Inex Hc Lc Hu Lu.
      change (2 ^ 52) with 4503599627370496 in Dj. rewrite Xe.
      pose proof (d_l_u32 w a h l j s W Da Ds Dh Dl Dj) as Ul. rewrite Ul in Ht.
      assert (j = 18) as J by (clear - B1 Dj; lia).
      assert ((j <? 20) = true) as -> by (clear - J; lia). assert ((j <? 0) = false) as -> by (clear - J; lia). cbv iota.
      rewrite Ht by (clear - J; lia). assert ((a mod 2 ^ (52 - j) =? 0) = false) as ->.
      { rewrite J. change (2 ^ (52 - 18)) with 17179869184. clear - B2. lia. }
      destruct (rint_hi_word w a h l j s W Da Ds Dh Dl Dj ltac:(clear - J; lia)) as (low' & L1 & L2 & Ew & _).
      match goal with |- context [let '(_, _) := ?e in _] => destruct e as [i0 i1] end.
      rewrite Ew. apply (shifted_int double); [exact d_mb|exact d_eb|exact d_range|]. cbn [mb double]. change (bias double) with 1023.
      change (2 ^ 52) with 4503599627370496. rewrite J in *. change (2 ^ (51 - 18)) with 8589934592 in *.
      clear - B1 B2 L1. lia. }
    destruct R as (n & R1 & R2 & R3). exists n. repeat split; try assumption; try apply R1. intros m E. exfalso. revert E.
    apply (no_int double w 34); [exact d_mb|exact d_eb|exact d_range|exact W|cbn [mb double]; lia| |].
    + cbn [mb double]. change (bias double) with 1023. change (2 ^ 52) with 4503599627370496. exact B1.
    + change (2 ^ 34) with 17179869184. clear - B2. lia.
  - apply rint_of_int; [exact d_mb|exact d_eb|exact d_range|]. now apply rint_finite.
Qed.

(** Everything about scalb in one format. *)
Definition scalb_all (F : fmt) (f : Z -> Z -> option Z) : Prop := forall x fn, word F x -> word F fn ->
  (finite F x -> finite F fn -> exists r, f x fn = Some r /\ scalb_finite F x fn r) /\
  (~ finite F x \/ ~ finite F fn -> exists r, f x fn = Some r /\ scalb_other F x fn r).

Section All.
Variable F : fmt.
Hypothesis Hmb : 1 <= mb F.
Hypothesis Heb : 3 <= eb F.
Hypothesis Hrange : mb F + 2 <= bias F.
Lemma int_or_not : forall w, (exists n, is_int F w n) \/ (forall n, ~ is_int F w n).
Proof using Hmb Heb Hrange.
  intros w. pose proof (one_pos F Hmb Heb Hrange) as O. unfold is_int.
  destruct (Z.eq_dec (val F w mod one F) 0) as [Z|N].
  - left. exists (val F w / one F). pose proof (Z.div_mod (val F w) (one F) ltac:(lia)). lia.
  - right. intros n E. apply N. rewrite E. apply Z.mod_mul. lia.
Qed.

Variables (isnan fin rint : Z -> Z) (scalbn : Z -> Z -> option Z) (k : Z).
Hypothesis Hnan : forall w, word F w -> (is_nan F w -> isnan w <> 0) /\ (~ is_nan F w -> isnan w = 0).
Hypothesis Hfin : forall w, word F w -> (finite F w -> fin w = 1) /\ (~ finite F w -> fin w = 0).
Hypothesis Hrint : forall w, word F w -> finite F w -> exists n, word F (rint w) /\ finite F (rint w) /\ val F (rint w) = n * one F /\
  (forall m, val F w = m * one F -> n = m).
Hypothesis Hscalbn : forall x n, word F x -> finite F x -> -65000 <= n <= 65000 ->
  exists r, scalbn x n = Some r /\ scaled F x n r /\ (is_zero F x -> r = x).
Hypothesis Hinf : forall x n, word F x -> is_inf F x -> scalbn x n = Some x.
Hypothesis Hk : word F k /\ finite F k /\ val F k = 65000 * one F.
Hypothesis HK : mb F + 2 * bias F + 1 <= 65000.

Lemma all_scalb : scalb_all F (ieee_scalb F isnan fin rint scalbn k).
Proof.
  intros x fn W Wf. pose proof (one_pos F Hmb Heb Hrange) as O.
  assert (U : forall n m, is_int F fn n -> is_int F fn m -> n = m) by (unfold is_int; clear - O; intros n m A B; nia).
  split.
  - intros Fx Ff. destruct (int_or_not fn) as [(n & En)|N].
    + destruct (scalb_integral F Hmb Heb Hrange _ _ _ _ _ Hnan Hfin Hrint Hscalbn Hinf Hk HK x fn n W Wf Fx Ff En) as (r & R & S).
      exists r. split; [exact R|]. split; [|intros N; exfalso; exact (N n En)].
      intros m Em. rewrite <- (U n m En Em). exact S.
    + destruct (scalb_fraction F Hmb Heb Hrange _ _ _ _ _ Hnan Hfin Hrint Hscalbn Hinf Hk HK x fn W Wf (not_nan F Hmb Heb Hrange _ _ _ _ _ Hnan Hfin Hrint Hscalbn Hinf Hk HK x Fx) Ff N) as (r & R & S).
      exists r. split; [exact R|]. split; [intros m Em; exfalso; exact (N m Em)|trivial].
  - intros H. unfold scalb_other.
    assert (D : (is_nan F x \/ is_nan F fn) \/ ~ is_nan F x /\ ~ is_nan F fn) by (unfold is_nan; lia).
    destruct D as [D|[D1 D2]].
    { destruct (scalb_nan F Hmb Heb Hrange _ _ _ _ _ Hnan Hfin Hrint Hscalbn Hinf Hk HK x fn W Wf D) as (r & R & S).
      exists r. split; [exact R|]. unfold is_nan, is_inf, finite in *. repeat split; intros; try exact S; lia. }
    assert (D : is_inf F fn \/ finite F fn) by (unfold is_nan, is_inf, finite in *; lia). destruct D as [D|D].
    + destruct (scalb_infinite F Hmb Heb Hrange _ _ _ _ _ Hnan Hfin Hrint Hscalbn Hinf Hk HK x fn W Wf D1 D) as (r & R & Wr & S1 & S2).
      exists r. split; [exact R|]. split; [tauto|]. split; [unfold is_inf, finite in *; lia|].
      split; intros _ _ N; [specialize (S1 N)|specialize (S2 N)].
      * unfold is_zero. destruct (Z.eqb_spec (absw F x) 0) as [A|A]; split; intros Q; try contradiction; exact S1.
      * unfold is_inf, finite in *. destruct (Z.eqb_spec (absw F x) (infw F)) as [A|A]; split; intros Q; try (exfalso; lia); exact S2.
    + assert (Ix : is_inf F x) by (unfold is_nan, is_inf, finite in *; lia).
      assert (G : forall r, (forall n, is_int F fn n -> r = x) -> ((forall n, ~ is_int F fn n) -> is_nan F r) ->
         (is_nan F x \/ is_nan F fn -> is_nan F r) /\
         (is_inf F x -> finite F fn -> (forall n, is_int F fn n -> r = x) /\ ((forall n, ~ is_int F fn n) -> is_nan F r)) /\
         (~ is_nan F x -> is_inf F fn -> neg F fn = false ->
            (is_zero F x -> is_nan F r) /\ (~ is_zero F x -> is_inf F r /\ neg F r = neg F x)) /\
         (~ is_nan F x -> is_inf F fn -> neg F fn = true ->
            (is_inf F x -> is_nan F r) /\ (finite F x -> is_zero F r /\ neg F r = neg F x))).
      { intros r A B. split; [tauto|]. split; [tauto|]. unfold is_inf, finite in *. split; intros; lia. }
      destruct (int_or_not fn) as [(n & En)|N].
      * exists x. split; [exact (scalb_inf F Hmb Heb Hrange _ _ _ _ _ Hnan Hfin Hrint Hscalbn Hinf Hk HK x fn n W Wf Ix D En)|].
        apply G; [trivial|intros N; exfalso; exact (N n En)].
      * destruct (scalb_fraction F Hmb Heb Hrange _ _ _ _ _ Hnan Hfin Hrint Hscalbn Hinf Hk HK x fn W Wf D1 D N) as (r & R & S).
        exists r. split; [exact R|]. apply G; [intros m Em; exfalso; exact (N m Em)|trivial].
Qed.
End All.

Lemma scalbf_all : scalb_all single c_scalbf.
Proof.
  apply (all_scalb single s_mb s_eb s_range).
  - intros w W. destruct (isnanf_spec w W) as [A B]. split; [intros H; rewrite (A H); discriminate|exact B].
  - exact finitef_spec.
  - exact rintf_int.
  - intros x n W Fx Hn. destruct (scalbnf_spec x n W Fx) as [A B]. destruct (B ltac:(lia)) as (r & R). exists r. split; [exact R|]. exact (A r R).
  - intros x n W I. now apply scalbnf_special.
  - split; [split; [discriminate|reflexivity]|]. split; [reflexivity|vm_compute; reflexivity].
  - vm_compute. discriminate.
Qed.

Lemma scalb_double_all : scalb_all double (c_scalb false).
Proof.
  apply (all_scalb double d_mb d_eb d_range).
  - intros w W. destruct (isnan_spec w W) as [A B]. split; [intros H; rewrite (A H); discriminate|exact B].
  - exact finite_spec.
  - exact rint_int.
  - intros x n W Fx Hn. destruct (scalbn_spec x n W Fx) as [A B]. destruct (B ltac:(lia)) as (r & R). exists r. split; [exact R|]. exact (A r R).
  - intros x n W I. now apply scalbn_special.
  - split; [split; [discriminate|reflexivity]|]. split; [reflexivity|vm_compute; reflexivity].
  - vm_compute. discriminate.
Qed.

(** ** significand *)

Lemma exponent_range : forall F x e, 1 <= mb F -> 3 <= eb F -> mb F + 2 <= bias F -> word F x -> finite F x -> exponent_of F x e ->
  - (bias F + mb F - 1) <= e <= bias F.
Proof.
  intros F x e Hmb Heb Hrange W Fx (U & X & _). pose proof (val_lt F Hmb Heb Hrange x W Fx) as L. cbv zeta in *.
  assert (bias F + mb F - 1 + e < mb F + 2 * bias F); [|lia].
  pose proof (bias_pos F Hmb Heb Hrange). apply (Z.pow_lt_mono_r_iff 2); lia.
Qed.

Lemma significand_gen : forall F f x e fn frac e0, 1 <= mb F -> 3 <= eb F -> mb F + 2 <= bias F -> scalb_all F f ->
  word F x -> finite F x -> exponent_of F x e -> word F fn -> finite F fn -> val F fn = - e * one F -> frexp_of F x frac e0 ->
  exists r, f x fn = Some r /\ significand_of F x r.
Proof.
  intros F f x e fn frac e0 Hmb Heb Hrange A W Fx Ex Wf Ff E G.
  destruct (proj1 (A x fn W Wf) Fx Ff) as (r & R & S & _). exists r. split; [exact R|]. destruct (S (- e) E) as [S' _].
  pose proof (exponent_frexp F Hmb Heb Hrange x frac e e0 Ex G) as E0. rewrite E0 in G.
  destruct (signif_rounds F Hmb Heb Hrange x e frac r W Ex G S') as (R1 & R2 & R3 & R4 & R5).
  split; [exact R1|]. split; [exact R2|]. split; [exact R3|]. split; [exact R4|]. exists e. exact R5.
Qed.

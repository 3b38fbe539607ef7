(** nextafter and nextafterf (libpok/libm). *)
From Verif Require Import Model.Base Spec.Ieee Spec.LibmSpec Model.Float Model.Libm
  Proof.Tac Proof.FloatProof Proof.LibmfProof Proof.LibmfRint Proof.LibmdProof Proof.LibmdRound Proof.LibmdRint Proof.LibmSign.

(** ** Any format *)
Section Next.
Set Default Proof Using "All".
Variable F : fmt.
Hypothesis Hmb : 1 <= mb F.
Hypothesis Heb : 3 <= eb F.
Hypothesis Hrange : mb F + 2 <= bias F.

Lemma key_lt : forall x y, word F x -> word F y -> (val F x < val F y <-> key F x < key F y).
Proof. intros x y Wx Wy. pose proof (key_val F Hmb Heb Hrange y x Wy Wx). lia. Qed.

Lemma key_eq : forall x y, word F x -> word F y -> (val F x = val F y <-> key F x = key F y).
Proof.
  intros x y Wx Wy. pose proof (key_val F Hmb Heb Hrange y x Wy Wx). pose proof (key_val F Hmb Heb Hrange x y Wx Wy). lia.
Qed.

Lemma nanb_not : forall w, ~ is_nan F w -> nanb F w = false.
Proof. intros w H. unfold nanb, is_nan in *. apply Z.ltb_ge. lia. Qed.

Lemma feq_key : forall x y, ~ is_nan F x -> ~ is_nan F y -> feq F x y = (key F x =? key F y).
Proof. intros x y Hx Hy. unfold feq, ordered. now rewrite !nanb_not by assumption. Qed.

Lemma fadd_nan_any : forall x y, word F x -> word F y -> is_nan F x \/ is_nan F y ->
  is_nan F (fadd F x y) /\ word F (fadd F x y).
Proof.
  intros x y Wx Wy N. unfold fadd. destruct (nanb F x) eqn:E.
  - apply (quiet_nan F Hmb Heb Hrange); [exact Wx|]. apply Z.ltb_lt, E.
  - assert (is_nan F y) as Ny.
    { destruct N as [N|N]; [|exact N]. exfalso. apply Z.ltb_ge in E. unfold is_nan in N. lia. }
    assert (nanb F y = true) as -> by (apply Z.ltb_lt; exact Ny).
    now apply (quiet_nan F Hmb Heb Hrange).
Qed.

Lemma key_of : forall s a, 0 <= a < sgnw F -> key F (sbit F s + a) = sgn_of s a.
Proof. intros s a H. unfold key. destruct (word_of F Hmb Heb Hrange s a H) as (_ & -> & ->). now destruct s. Qed.

(** A neighbour in the order of the keys is a neighbour in the order of the values. *)
Lemma next_of_key : forall x y r, word F x -> word F y -> word F r -> ~ is_nan F r ->
  key F x <> key F y -> key F r = key F x + (if key F x <? key F y then 1 else -1) ->
  (absw F x <> 0 -> neg F r = neg F x) -> next_toward F x y r.
Proof.
  intros x y r Wx Wy Wr Nr Ne K S. unfold next_toward.
  split; [exact Wr|]. split; [exact Nr|]. split; [|split].
  - intros L. apply (key_lt x y Wx Wy) in L. assert (E : (key F x <? key F y) = true) by (apply Z.ltb_lt; exact L).
    rewrite E in K. split; [apply (key_lt x r Wx Wr); lia|].
    intros v Wv _ Lv. apply (key_lt x v Wx Wv) in Lv. apply (key_val F Hmb Heb Hrange r v Wr Wv). lia.
  - intros L. apply (key_lt y x Wy Wx) in L. assert (E : (key F x <? key F y) = false) by (apply Z.ltb_ge; lia).
    rewrite E in K. split; [apply (key_lt r x Wr Wx); lia|].
    intros v Wv _ Lv. apply (key_lt v x Wv Wx) in Lv. apply (key_val F Hmb Heb Hrange v r Wv Wr). lia.
  - intros Z. apply S. intros A.
    assert (key F r = 0).
    { assert (W0 : word F 0) by (pose proof (infw_lt F Hmb Heb Hrange); unfold word; lia).
      pose proof (val_of F Hmb Heb Hrange false 0 ltac:(pose proof (infw_lt F Hmb Heb Hrange); lia)) as V0.
      cbn [sgn_of sbit] in V0. change (0 + 0) with 0 in V0. rewrite (mag_0 F Hmb Heb Hrange) in V0.
      rewrite <- V0 in Z. apply (key_eq r 0 Wr W0) in Z. rewrite Z.
      pose proof (key_of false 0 ltac:(pose proof (infw_lt F Hmb Heb Hrange); lia)) as K0. exact K0. }
    assert (key F x = 0) by (unfold key; rewrite A; now destruct (neg F x)).
    destruct (key F x <? key F y); lia.
Qed.
End Next.

(** ** Fields of an integer *)
Lemma land_shift : forall v c k, 0 <= k -> Z.land v (Z.shiftl c k) = Z.shiftl (Z.land (Z.shiftr v k) c) k.
Proof.
  intros v c k Hk. apply Z.bits_inj'. intros n Hn. rewrite Z.land_spec, !Z.shiftl_spec by exact Hn.
  destruct (Z_lt_le_dec n k) as [L|L].
  - rewrite !(Z.testbit_neg_r _ (n - k)) by lia. apply andb_false_r.
  - rewrite Z.land_spec, Z.shiftr_spec by lia. now replace (n - k + k) with n by lia.
Qed.

Lemma land_field : forall v k m, 0 <= k -> 0 <= m ->
  Z.land v ((2 ^ m - 1) * 2 ^ k) = ((v / 2 ^ k) mod 2 ^ m) * 2 ^ k.
Proof.
  intros v k m Hk Hm. rewrite <- Z.shiftl_mul_pow2 by exact Hk. rewrite land_shift by exact Hk.
  rewrite land_low by exact Hm. rewrite Z.shiftl_mul_pow2, Z.shiftr_div_pow2 by exact Hk. reflexivity.
Qed.

(** ** Single precision *)
Lemma nextafterf_key : forall x y, word single x -> word single y -> ~ is_nan single x -> ~ is_nan single y ->
  key single x <> key single y ->
  let r := c_nextafterf x y in
  word single r /\ ~ is_nan single r /\ key single r = key single x + (if key single x <? key single y then 1 else -1) /\
  (absw single x <> 0 -> neg single r = neg single x).
Proof.
  intros x y Wx Wy Nx Ny Ne r. destruct (s_split x Wx) as [Ex Bx]. destruct (s_split y Wy) as [Ey By].
  assert (Ax : absw single x <= 2139095040) by (unfold is_nan in Nx; rewrite s_infw in Nx; lia).
  assert (Ay : absw single y <= 2139095040) by (unfold is_nan in Ny; rewrite s_infw in Ny; lia).
  unfold r, c_nextafterf. clear r.
  rewrite (s_land_abs x Wx), (s_land_abs y Wy).
  assert ((2139095040 <? absw single x) = false) as -> by (apply Z.ltb_ge; exact Ax).
  assert ((2139095040 <? absw single y) = false) as -> by (apply Z.ltb_ge; exact Ay).
  cbn [orb]. rewrite (feq_key single s_mb s_eb s_range x y) by assumption.
  assert ((key single x =? key single y) = false) as -> by (apply Z.eqb_neq; exact Ne).
  assert (Res : forall s a, 0 <= a <= 2139095040 -> word single (sbit single s + a) /\ ~ is_nan single (sbit single s + a) /\
    neg single (sbit single s + a) = s /\ key single (sbit single s + a) = sgn_of s a).
  { intros s a Ha. destruct (word_of single s_mb s_eb s_range s a ltac:(rewrite s_sgnw; lia)) as (A & B & C).
    split; [exact A|]. split; [unfold is_nan; rewrite C, s_infw; lia|]. split; [exact B|].
    apply (key_of single s_mb s_eb s_range). rewrite s_sgnw. lia. }
  destruct (Z.eqb_spec (absw single x) 0) as [Z|NZ].
  - (* from 0 *)
    assert (Gx : set_float (Z.lor (Z.land (u32 (get_float y)) 2147483648) 1) = sbit single (neg single y) + 1).
    { rewrite (s_get_u32 y Wy). rewrite land_sign by (apply s_word in Wy; exact Wy).
      change (2147483648 <=? y) with (neg single y). destruct (neg single y); reflexivity. }
    rewrite Gx.
    assert (U : feq single (fmul single (sbit single (neg single y) + 1) (sbit single (neg single y) + 1))
                           (sbit single (neg single y) + 1) = false) by (destruct (neg single y); vm_compute; reflexivity).
    rewrite U. destruct (Res (neg single y) 1 ltac:(lia)) as (A & B & C & D).
    split; [exact A|]. split; [exact B|]. split; [|intros; contradiction].
    rewrite D. unfold key in *. rewrite Z in *. clear - Ne By. destruct (neg single x), (neg single y); cbn [sgn_of].
    all: match goal with |- context [?p <? ?q] => destruct (Z.ltb_spec p q) end; lia.
  - set (hx' := if 0 <=? get_float x then (if get_float y <? get_float x then get_float x - 1 else get_float x + 1)
               else if (0 <=? get_float y) || (get_float y <? get_float x) then get_float x - 1 else get_float x + 1).
    set (up := match key single x ?= key single y with Lt => negb (neg single x) | _ => neg single x end).
    set (a' := if up then absw single x + 1 else absw single x - 1).
    assert (Hx' : hx' = (if neg single x then a' - 2147483648 else a')).
    { unfold hx', a', up. rewrite (s_get x Wx), (s_get y Wy). unfold key in *.
      clear - Ne Bx By NZ. destruct (neg single x), (neg single y); cbn [negb].
      all: match goal with |- context [?p ?= ?q] => destruct (Z.compare_spec p q) as [K|K|K] end.
      all: repeat match goal with |- context [?p <=? ?q] => destruct (Z.leb_spec p q)
                 | |- context [?p <? ?q] => destruct (Z.ltb_spec p q) end; cbn [orb]; lia. }
    assert (Ha' : 0 <= a' <= 2139095040).
    { unfold a', up, key in *. clear - Ne Bx By NZ Ax Ay. destruct (neg single x), (neg single y); cbn [negb].
      all: match goal with |- context [?p ?= ?q] => destruct (Z.compare_spec p q) as [K|K|K] end; lia. }
    assert (Kr : sgn_of (neg single x) a' = key single x + (if key single x <? key single y then 1 else -1)).
    { unfold a', up, key in *. clear - Ne Bx By NZ Ax Ay. destruct (neg single x), (neg single y); cbn [negb sgn_of].
      all: match goal with |- context [?p ?= ?q] => destruct (Z.compare_spec p q) as [K|K|K] end.
      all: match goal with |- context [?p <? ?q] => destruct (Z.ltb_spec p q) end; lia. }
    assert (L : Z.land hx' 2139095040 = a' / 8388608 * 8388608).
    { change 2139095040 with ((2 ^ 8 - 1) * 2 ^ 23). rewrite land_field by lia. change (2 ^ 23) with 8388608. change (2 ^ 8) with 256.
      rewrite Hx'. clear - Ha'. destruct (neg single x); lia. }
    cbv zeta. fold hx'. rewrite L.
    destruct (Res (neg single x) a' Ha') as (A & B & C & D).
    assert (Fin : sbit single (neg single x) + a' =
      (if 2139095040 <=? a' / 8388608 * 8388608 then fadd single x x else set_float hx')).
    { destruct (Z.leb_spec 2139095040 (a' / 8388608 * 8388608)) as [O|O].
      - assert (absw single x = 2139095039) as A1.
        { assert (a' = 2139095040) as Q by (clear - O Ha'; lia). unfold a' in Q. clear - Q Ax NZ. destruct up; lia. }
        assert (a' = 2139095040) as -> by (clear - O Ha'; lia). rewrite A1 in Ex. rewrite Ex at 2 3.
        destruct (neg single x); vm_compute; reflexivity.
      - unfold set_float. rewrite Hx', s_sbit. unfold u32. change (2 ^ 32) with 4294967296. clear - Ha'.
        destruct (neg single x); lia. }
    rewrite <- Fin. split; [exact A|]. split; [exact B|]. split; [rewrite D; exact Kr|]. intros _. exact C.
Qed.

(** ** Double precision, less significant word first *)
Lemma nextafter_key : forall x y, word double x -> word double y -> ~ is_nan double x -> ~ is_nan double y ->
  key double x <> key double y ->
  let r := c_nextafter false x y in
  word double r /\ ~ is_nan double r /\ key double r = key double x + (if key double x <? key double y then 1 else -1) /\
  (absw double x <> 0 -> neg double r = neg double x).
Proof.
  intros x y Wx Wy Nx Ny Ne r.
  pose proof (d_split x _ _ _ _ _ Wx eq_refl eq_refl eq_refl eq_refl eq_refl) as [Ex Bx].
  pose proof (d_split y _ _ _ _ _ Wy eq_refl eq_refl eq_refl eq_refl eq_refl) as [Ey By].
  pose proof (d_words x _ _ _ _ _ Wx eq_refl eq_refl eq_refl eq_refl eq_refl) as (_ & Xh & Xl & Xa & Xr & Xs).
  pose proof (d_words y _ _ _ _ _ Wy eq_refl eq_refl eq_refl eq_refl eq_refl) as (_ & Yh & Yl & Ya & Yr & Ys).
  pose proof (d_h_signed x _ _ _ _ _ Wx eq_refl eq_refl eq_refl eq_refl eq_refl) as Xg.
  pose proof (d_h_signed y _ _ _ _ _ Wy eq_refl eq_refl eq_refl eq_refl eq_refl) as Yg.
  destruct (d_hi_abs x Wx) as (_ & _ & Lx & _ & Px). destruct (d_hi_abs y Wy) as (_ & Sy & Ly & _ & Py).
  assert (Ax : absw double x <= 9218868437227405312) by (unfold is_nan in Nx; rewrite d_infw in Nx; lia).
  assert (Ay : absw double y <= 9218868437227405312) by (unfold is_nan in Ny; rewrite d_infw in Ny; lia).
  unfold r, c_nextafter. clear r. rewrite Px, Py.
  assert (T : forall a, 0 <= a <= 9218868437227405312 ->
    (2146435072 <=? a / 4294967296) && negb (Z.lor (u32 (a / 4294967296 - 2146435072)) (a mod 4294967296) =? 0) = false).
  { intros a Ha. destruct (Z.leb_spec 2146435072 (a / 4294967296)) as [O|O]; [|reflexivity].
    assert (a = 9218868437227405312) as -> by lia. reflexivity. }
  rewrite Lx, Ly. rewrite (T _ (conj (proj1 Bx) Ax)), (T _ (conj (proj1 By) Ay)). cbn [orb].
  rewrite <- Lx, <- Ly.
  rewrite (feq_key double d_mb d_eb d_range x y) by assumption.
  assert ((key double x =? key double y) = false) as -> by (apply Z.eqb_neq; exact Ne).
  assert (Zt : (Z.lor (u32 (absw double x / 4294967296)) (lo false x) =? 0) = (absw double x =? 0)).
  { rewrite u32_id by (change (2 ^ 32) with 4294967296; clear - Bx; lia).
    rewrite lor_zero by (try exact Xl; clear - Bx; lia). rewrite Lx. f_equal. clear. lia. }
  rewrite Zt. clear T Zt.
  assert (Res : forall s a, 0 <= a <= 9218868437227405312 -> word double (sbit double s + a) /\ ~ is_nan double (sbit double s + a) /\
    neg double (sbit double s + a) = s /\ key double (sbit double s + a) = sgn_of s a).
  { intros s a Ha. destruct (word_of double d_mb d_eb d_range s a ltac:(rewrite d_sgnw; lia)) as (A & B & C).
    split; [exact A|]. split; [unfold is_nan; rewrite C, d_infw; lia|]. split; [exact B|].
    apply (key_of double d_mb d_eb d_range). rewrite d_sgnw. lia. }
  destruct (Z.eqb_spec (absw double x) 0) as [Z|NZ].
  - assert (Gx : ins false (Z.land (u32 (s32 (hi false y))) 2147483648) 1 = sbit double (neg double y) + 1).
    { rewrite u32_s32, u32_id by (change (2 ^ 32) with 4294967296; exact Yh). rewrite land_sign by exact Yh.
      rewrite Sy. destruct (neg double y); reflexivity. }
    rewrite Gx.
    assert (U : feq double (fmul double (sbit double (neg double y) + 1) (sbit double (neg double y) + 1))
                           (sbit double (neg double y) + 1) = false) by (destruct (neg double y); vm_compute; reflexivity).
    rewrite U. destruct (Res (neg double y) 1 ltac:(lia)) as (A & B & C & D).
    split; [exact A|]. split; [exact B|]. split; [|intros; contradiction].
    rewrite D. unfold key in *. rewrite Z in *. clear - Ne By. destruct (neg double x), (neg double y); cbn [sgn_of].
    all: match goal with |- context [?p <? ?q] => destruct (Z.ltb_spec p q) end; lia.
  - set (dn := (if lo false x =? 0 then s32 (hi false x) - 1 else s32 (hi false x), u32 (lo false x - 1))).
    set (upw := (if u32 (lo false x + 1) =? 0 then s32 (hi false x) + 1 else s32 (hi false x), u32 (lo false x + 1))).
    set (p := if 0 <=? s32 (hi false x)
      then (if (s32 (hi false y) <? s32 (hi false x)) || ((s32 (hi false x) =? s32 (hi false y)) && (lo false y <? lo false x)) then dn else upw)
      else (if (0 <=? s32 (hi false y)) || (s32 (hi false y) <? s32 (hi false x)) || ((s32 (hi false x) =? s32 (hi false y)) && (lo false y <? lo false x)) then dn else upw)).
    set (up := match key double x ?= key double y with Lt => negb (neg double x) | _ => neg double x end).
    set (a' := if up then absw double x + 1 else absw double x - 1).
    assert (Ha' : 0 <= a' <= 9218868437227405312).
    { unfold a', up, key in *. clear - Ne Bx By NZ Ax Ay. destruct (neg double x), (neg double y); cbn [negb].
      all: match goal with |- context [?p ?= ?q] => destruct (Z.compare_spec p q) as [K|K|K] end; lia. }
    assert (Kr : sgn_of (neg double x) a' = key double x + (if key double x <? key double y then 1 else -1)).
    { unfold a', up, key in *. clear - Ne Bx By NZ Ax Ay. destruct (neg double x), (neg double y); cbn [negb sgn_of].
      all: match goal with |- context [?p ?= ?q] => destruct (Z.compare_spec p q) as [K|K|K] end.
      all: match goal with |- context [?p <? ?q] => destruct (Z.ltb_spec p q) end; lia. }
    assert (Pp : p = if up then upw else dn).
    { unfold p, up, key in *. rewrite Xg, Yg in *. clear - Ne Xa Ya Xs Ys Xl Yl Xr Yr NZ Xh Yh. 
      set (hx := hi false x) in *. set (hy := hi false y) in *. set (lx := lo false x) in *. set (ly := lo false y) in *.
      set (ax := absw double x) in *. set (ay := absw double y) in *.
      clearbody hx hy lx ly ax ay dn upw. destruct (neg double x), (neg double y); cbn [negb].
      all: match goal with |- context [?p ?= ?q] => destruct (Z.compare_spec p q) as [K|K|K] end; try (exfalso; clear - Ne K; lia).
      all: repeat match goal with |- context [?p <=? ?q] => destruct (Z.leb_spec p q); try (exfalso; lia)
                 | |- context [?p <? ?q] => destruct (Z.ltb_spec p q); try (exfalso; lia)
                 | |- context [?p =? ?q] => destruct (Z.eqb_spec p q); try (exfalso; lia) end; cbn [orb andb]; try reflexivity; exfalso; lia. }
    assert (Pw : exists h' l', p = (h', l') /\ h' = (if neg double x then a' / 4294967296 - 2147483648 else a' / 4294967296) /\ l' = a' mod 4294967296).
    { rewrite Pp. unfold a', upw, dn. rewrite Xg. unfold u32. change (2 ^ 32) with 4294967296.
      clear - Xa Xs Xl Xr NZ Xh. destruct up.
      - eexists. eexists. split; [reflexivity|].
        destruct (Z.eqb_spec ((lo false x + 1) mod 4294967296) 0); destruct (neg double x); lia.
      - eexists. eexists. split; [reflexivity|].
        destruct (Z.eqb_spec (lo false x) 0); destruct (neg double x); lia. }
    destruct Pw as (h' & l' & Pe & Hh' & Hl').
    cbv zeta. fold dn upw. fold p. rewrite Pe.
    assert (L : Z.land h' 2146435072 = a' / 4503599627370496 * 1048576).
    { change 2146435072 with ((2 ^ 11 - 1) * 2 ^ 20). rewrite land_field by lia. change (2 ^ 20) with 1048576. change (2 ^ 11) with 2048.
      rewrite Hh'. clear - Ha'. destruct (neg double x); lia. }
    rewrite L. destruct (Res (neg double x) a' Ha') as (A & B & C & D).
    assert (Fin : sbit double (neg double x) + a' =
      (if 2146435072 <=? a' / 4503599627370496 * 1048576 then fadd double x x else ins false h' l')).
    { destruct (Z.leb_spec 2146435072 (a' / 4503599627370496 * 1048576)) as [O|O].
      - assert (absw double x = 9218868437227405311) as A1.
        { assert (a' = 9218868437227405312) as Q by (clear - O Ha'; lia). unfold a' in Q. clear - Q Ax NZ. destruct up; lia. }
        assert (a' = 9218868437227405312) as -> by (clear - O Ha'; lia). rewrite A1 in Ex. rewrite Ex at 2 3.
        destruct (neg double x); vm_compute; reflexivity.
      - unfold ins. rewrite Hh', Hl', d_sbit. unfold u32. change (2 ^ 32) with 4294967296. clear - Ha'.
        destruct (neg double x); lia. }
    rewrite <- Fin. split; [exact A|]. split; [exact B|]. split; [rewrite D; exact Kr|]. intros _. exact C.
Qed.

Lemma nextafterf_spec : forall x y, word single x -> word single y -> ~ is_nan single x -> ~ is_nan single y ->
  (val single x <> val single y -> next_toward single x y (c_nextafterf x y)) /\
  (val single x = val single y -> c_nextafterf x y = x).
Proof.
  intros x y Wx Wy Nx Ny. split; intros H.
  - assert (K : key single x <> key single y) by (intros E; apply H, (key_eq single s_mb s_eb s_range x y Wx Wy), E).
    destruct (nextafterf_key x y Wx Wy Nx Ny K) as (A & B & C & D).
    apply (next_of_key single s_mb s_eb s_range); assumption.
  - apply (key_eq single s_mb s_eb s_range x y Wx Wy) in H. unfold c_nextafterf.
    rewrite (s_land_abs x Wx), (s_land_abs y Wy). unfold is_nan in *. rewrite s_infw in *.
    assert ((2139095040 <? absw single x) = false) as -> by (apply Z.ltb_ge; lia).
    assert ((2139095040 <? absw single y) = false) as -> by (apply Z.ltb_ge; lia).
    cbn [orb]. rewrite (feq_key single s_mb s_eb s_range x y) by (unfold is_nan; rewrite s_infw; assumption).
    rewrite H, Z.eqb_refl. reflexivity.
Qed.

Lemma nextafterf_nan : forall x y, word single x -> word single y -> is_nan single x \/ is_nan single y ->
  is_nan single (c_nextafterf x y).
Proof.
  intros x y Wx Wy N. unfold c_nextafterf. rewrite (s_land_abs x Wx), (s_land_abs y Wy).
  assert ((2139095040 <? absw single x) || (2139095040 <? absw single y) = true) as ->.
  { unfold is_nan in N. rewrite s_infw in N. apply orb_true_iff. rewrite !Z.ltb_lt. exact N. }
  now apply (fadd_nan_any single s_mb s_eb s_range).
Qed.

Lemma d_nan_test : forall d, word double d ->
  (2146435072 <=? Z.land (s32 (hi false d)) 2147483647) &&
    negb (Z.lor (u32 (Z.land (s32 (hi false d)) 2147483647 - 2146435072)) (lo false d) =? 0) =
  (9218868437227405312 <? absw double d).
Proof.
  intros d W. destruct (d_hi_abs d W) as (_ & _ & L & _ & P). rewrite P, L.
  pose proof (d_split d _ _ _ _ _ W eq_refl eq_refl eq_refl eq_refl eq_refl) as [_ B].
  set (a := absw double d) in *. clearbody a. clear - B.
  destruct (Z.leb_spec 2146435072 (a / 4294967296)) as [O|O]; cbn [andb].
  - rewrite u32_id by (change (2 ^ 32) with 4294967296; lia). rewrite lor_zero by lia.
    destruct (Z.eqb_spec ((a / 4294967296 - 2146435072) * 4294967296 + a mod 4294967296) 0);
    destruct (Z.ltb_spec 9218868437227405312 a); cbn [negb]; try reflexivity; exfalso; lia.
  - symmetry. apply Z.ltb_ge. lia.
Qed.

Lemma nextafter_spec : forall x y, word double x -> word double y -> ~ is_nan double x -> ~ is_nan double y ->
  (val double x <> val double y -> next_toward double x y (c_nextafter false x y)) /\
  (val double x = val double y -> c_nextafter false x y = x).
Proof.
  intros x y Wx Wy Nx Ny. split; intros H.
  - assert (K : key double x <> key double y) by (intros E; apply H, (key_eq double d_mb d_eb d_range x y Wx Wy), E).
    destruct (nextafter_key x y Wx Wy Nx Ny K) as (A & B & C & D).
    apply (next_of_key double d_mb d_eb d_range); assumption.
  - apply (key_eq double d_mb d_eb d_range x y Wx Wy) in H. unfold c_nextafter.
    rewrite !d_nan_test by assumption. unfold is_nan in *. rewrite d_infw in *.
    assert ((9218868437227405312 <? absw double x) = false) as -> by (apply Z.ltb_ge; lia).
    assert ((9218868437227405312 <? absw double y) = false) as -> by (apply Z.ltb_ge; lia).
    cbn [orb]. rewrite (feq_key double d_mb d_eb d_range x y) by (unfold is_nan; rewrite d_infw; assumption).
    rewrite H, Z.eqb_refl. reflexivity.
Qed.

Lemma nextafter_nan : forall x y, word double x -> word double y -> is_nan double x \/ is_nan double y ->
  is_nan double (c_nextafter false x y).
Proof.
  intros x y Wx Wy N. unfold c_nextafter. rewrite !d_nan_test by assumption.
  assert ((9218868437227405312 <? absw double x) || (9218868437227405312 <? absw double y) = true) as ->.
  { unfold is_nan in N. rewrite d_infw in N. apply orb_true_iff. rewrite !Z.ltb_lt. exact N. }
  now apply (fadd_nan_any double d_mb d_eb d_range).
Qed.

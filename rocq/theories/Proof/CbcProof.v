(** Cipher block chaining in memory: decryption inverts encryption, for both byte orders. *)
From Verif Require Import Model.Base Model.Libc Model.CryptoTables Model.Crypto Spec.LibcSpec Spec.CryptoSpec
  Proof.Tac Proof.WordProof Proof.CipherProof.

(** * Blocks in memory *)

Section Codec.
Variable bb : pair -> Z -> Z. (* byte number i of a block *)
Variable get : mem -> Z -> pair.
Variable put : mem -> pair -> Z -> mem.
Variable getn : mem -> Z -> Z -> pair.
Variable putn : mem -> pair -> Z -> Z -> mem.

Record codec : Prop := {
  cd_byte : forall p i, is_byte (bb p i);
  cd_ext : forall p q, both32 p -> both32 q -> (forall i, 0 <= i < 8 -> bb p i = bb q i) -> p = q;
  cd_get32 : forall m a, byte_memory m -> both32 (get m a);
  cd_get : forall m a i, byte_memory m -> fits a 8 -> 0 <= i < 8 -> bb (get m a) i = m (a + i);
  cd_put : forall m p a x, fits a 8 -> put m p a x = if (a <=? x) && (x <? a + 8) then bb p (x - a) else m x;
  cd_getn32 : forall m a n, byte_memory m -> 0 < n < 8 -> both32 (getn m a n);
  cd_getn : forall m a n i, byte_memory m -> 0 < n < 8 -> fits a n -> 0 <= i < 8 ->
    bb (getn m a n) i = if i <? n then m (a + i) else 0;
  cd_putn : forall m p a n x, 0 < n < 8 -> fits a n ->
    putn m p a n x = if (a <=? x) && (x <? a + n) then bb p (x - a) else m x }.

Hypothesis C : codec.

Lemma put_in : forall m p a i, fits a 8 -> 0 <= i < 8 -> put m p a (a + i) = bb p i.
Proof.
  intros m p a i F Hi. rewrite (cd_put C) by exact F.
  destruct (Z.leb_spec a (a + i)); [|lia]. destruct (Z.ltb_spec (a + i) (a + 8)); [|lia].
  simpl andb. cbv iota. f_equal. lia.
Qed.

Lemma put_out : forall m p a x, fits a 8 -> ~ (a <= x < a + 8) -> put m p a x = m x.
Proof.
  intros m p a x F Hx. rewrite (cd_put C) by exact F.
  destruct (Z.leb_spec a x); simpl andb; [destruct (Z.ltb_spec x (a + 8)); [lia|]|]; reflexivity.
Qed.

Lemma put_bytes : forall m p a, fits a 8 -> byte_memory m -> byte_memory (put m p a).
Proof.
  intros m p a F B x. rewrite (cd_put C) by exact F. destruct (_ && _); [apply (cd_byte C)|apply B].
Qed.

(** A block depends on its eight bytes only. *)
Lemma get_frame : forall m m' a b, byte_memory m -> byte_memory m' -> fits a 8 -> fits b 8 ->
  (forall i, 0 <= i < 8 -> m' (b + i) = m (a + i)) -> get m' b = get m a.
Proof.
  intros m m' a b B B' F F' H. apply (cd_ext C); [now apply (cd_get32 C)|now apply (cd_get32 C)|].
  intros i Hi. rewrite !(cd_get C) by assumption. now apply H.
Qed.

Lemma get_put : forall m p a, byte_memory m -> fits a 8 -> both32 p -> get (put m p a) a = p.
Proof.
  intros m p a B F P. apply (cd_ext C); [apply (cd_get32 C); now apply put_bytes|exact P|].
  intros i Hi. rewrite (cd_get C) by (assumption || now apply put_bytes). now apply put_in.
Qed.

(** The blocks [l] are in memory at [a]. *)
Fixpoint blocks_at (m : mem) (a : Z) (l : list pair) : Prop :=
  match l with
  | [] => True
  | b :: l' => get m a = b /\ blocks_at m (a + 8) l'
  end.

Variable E D : pair -> pair.
Hypothesis E32 : forall p, both32 p -> both32 (E p).
Hypothesis DE : forall p, both32 p -> D (E p) = p.

(** [Cs] is the chained encryption of [Bs]. *)
Fixpoint chain (v : pair) (Bs Cs : list pair) : Prop :=
  match Bs, Cs with
  | [], [] => True
  | b :: Bs', c :: Cs' => c = E (xor2 b v) /\ chain c Bs' Cs'
  | _, _ => False
  end.

Lemma blocks_frame : forall l m m' a, byte_memory m -> byte_memory m' -> fits a (8 * Z.of_nat (length l)) ->
  (forall x, a <= x < a + 8 * Z.of_nat (length l) -> m' x = m x) -> blocks_at m a l -> blocks_at m' a l.
Proof.
  induction l as [|b l IH]; intros m m' a B B' F H HB; [exact I|].
  cbn [length blocks_at] in *. destruct HB as [H1 H2]. unfold fits in *. split.
  - rewrite <- H1. apply get_frame; try assumption; try (unfold fits; lia). intros i Hi. apply H. lia.
  - apply (IH m m'); try assumption; [unfold fits; lia|]. intros x Hx. apply H. lia.
Qed.

Lemma blocks_bytes : forall l m m' a b, byte_memory m -> byte_memory m' ->
  fits a (8 * Z.of_nat (length l)) -> fits b (8 * Z.of_nat (length l)) ->
  blocks_at m a l -> blocks_at m' b l -> same_bytes m a m' b (8 * Z.of_nat (length l)).
Proof.
  induction l as [|p l IH]; intros m m' a b B B' F F' H1 H2 k Hk; [cbn [length] in Hk; lia|].
  cbn [length blocks_at] in *. destruct H1 as [G1 H1]. destruct H2 as [G2 H2]. unfold fits in *.
  destruct (Z_lt_dec k 8) as [L|L].
  - rewrite <- (cd_get C m' b k), <- (cd_get C m a k); try assumption; try lia; try (unfold fits; lia).
    rewrite G1, G2. reflexivity.
  - assert (G := IH m m' (a + 8) (b + 8) B B' ltac:(unfold fits; lia) ltac:(unfold fits; lia) H1 H2 (k - 8) ltac:(lia)).
    replace (b + 8 + (k - 8)) with (b + k) in G by lia. replace (a + 8 + (k - 8)) with (a + k) in G by lia. exact G.
Qed.

Lemma u32_step : forall a n, 0 <= a -> 0 <= n -> a + n < 2 ^ 32 -> u32 (a + n) = a + n.
Proof. intros. unfold u32. apply Z.mod_small. lia. Qed.

(** * Encryption *)

(** [more] bytes of input are still to be read after the [k] blocks. *)
Lemma enc_loop_spec : forall k m inp out v more m' v',
  byte_memory m -> both32 v -> 0 <= more ->
  fits inp (8 * Z.of_nat k + more) -> fits out (8 * Z.of_nat k) ->
  safe_overlap inp (8 * Z.of_nat k + more) out (8 * Z.of_nat k) ->
  cbc_enc_loop get put E k m inp out v = (m', v') ->
  byte_memory m' /\ both32 v' /\ only_changes m m' out (8 * Z.of_nat k) /\
  exists Bs Cs, length Bs = k /\ length Cs = k /\ chain v Bs Cs /\ Forall both32 Bs /\ Forall both32 Cs /\
    v' = last Cs v /\ blocks_at m inp Bs /\ blocks_at m' out Cs.
Proof.
  induction k as [|k IH]; intros m inp out v more m' v' B V Hm Fi Fo S R.
  - cbn [cbc_enc_loop] in R. injection R as <- <-. split; [exact B|]. split; [exact V|].
    split; [intros x _; reflexivity|]. exists [], []. cbn. repeat split; constructor.
  - cbn [cbc_enc_loop] in R. unfold fits in *.
    assert (F1 : fits inp 8) by (unfold fits; lia). assert (F2 : fits out 8) by (unfold fits; lia).
    set (b := get m inp) in *. set (c := E (xor2 b v)) in *.
    assert (R' : cbc_enc_loop get put E k (put m c out) (inp + 8) (out + 8) c = (m', v')).
    { destruct k; [exact R|]. rewrite (u32_step inp 8), (u32_step out 8) in R by lia. exact R. }
    assert (B32 : both32 b) by now apply (cd_get32 C).
    assert (C32 : both32 c) by (apply E32; now apply both32_xor).
    assert (B1 : byte_memory (put m c out)) by now apply put_bytes.
    assert (S' : safe_overlap (inp + 8) (8 * Z.of_nat k + more) (out + 8) (8 * Z.of_nat k)).
    { unfold safe_overlap, apart in *. destruct S as [S|[S|S]]; [left; lia|right; left; lia|right; right; lia]. }
    destruct (IH (put m c out) (inp + 8) (out + 8) c more m' v' B1 C32 Hm ltac:(lia) ltac:(lia) S' R')
      as (B' & V' & O' & Bs & Cs & L1 & L2 & CH & F3 & F4 & LV & BA1 & BA2).
    split; [exact B'|]. split; [exact V'|]. split.
    { intros x Hx. rewrite O' by lia. apply put_out; [exact F2|lia]. }
    exists (b :: Bs), (c :: Cs). cbn [length chain blocks_at].
    split; [lia|]. split; [lia|]. split; [split; [reflexivity|exact CH]|].
    split; [now constructor|]. split; [now constructor|]. split.
    { rewrite LV. destruct Cs; [reflexivity|]. cbn [last]. clear. revert p. induction Cs; intros; [reflexivity|].
      cbn [last] in *. apply IHCs. }
    split.
    { split; [reflexivity|]. apply (blocks_frame Bs (put m c out) m); try assumption; [unfold fits; lia|].
      intros x Hx. symmetry. apply put_out; [exact F2|]. unfold safe_overlap, apart in S. lia. }
    split; [|exact BA2].
    rewrite <- (get_put m c out B F2 C32). apply get_frame; try assumption.
    intros i Hi. apply O'. lia.
Qed.

(** * Decryption *)

Lemma dec_loop_spec : forall Cs Bs m inp out v more m' v',
  byte_memory m -> both32 v -> 0 <= more -> Forall both32 Bs -> Forall both32 Cs ->
  fits inp (8 * Z.of_nat (length Cs) + more) -> fits out (8 * Z.of_nat (length Cs)) ->
  safe_overlap inp (8 * Z.of_nat (length Cs) + more) out (8 * Z.of_nat (length Cs)) ->
  chain v Bs Cs -> blocks_at m inp Cs ->
  cbc_dec_loop get put D (length Cs) m inp out v = (m', v') ->
  byte_memory m' /\ v' = last Cs v /\ only_changes m m' out (8 * Z.of_nat (length Cs)) /\ blocks_at m' out Bs.
Proof.
  induction Cs as [|c Cs IH]; intros Bs m inp out v more m' v' B V Hm FB FC Fi Fo S CH BA R.
  - cbn [length cbc_dec_loop] in R. injection R as <- <-. destruct Bs; [|destruct CH].
    split; [exact B|]. split; [reflexivity|]. split; [intros x _; reflexivity|exact I].
  - destruct Bs as [|b Bs]; [destruct CH|]. cbn [length cbc_dec_loop chain blocks_at] in *.
    destruct CH as [Ec CH]. destruct BA as [G BA]. unfold fits in *.
    inversion FB as [|? ? FB1 FB2]; subst. inversion FC as [|? ? FC1 FC2]; subst.
    set (c := E (xor2 b v)) in *.
    assert (F1 : fits inp 8) by (unfold fits; lia). assert (F2 : fits out 8) by (unfold fits; lia).
    rewrite G in R.
    assert (Db : xor2 (D c) v = b).
    { unfold c. rewrite DE by now apply both32_xor. apply xor2_cancel. }
    rewrite Db in R.
    assert (R' : cbc_dec_loop get put D (length Cs) (put m b out) (inp + 8) (out + 8) c = (m', v')).
    { destruct (length Cs); [exact R|]. rewrite (u32_step inp 8), (u32_step out 8) in R by lia. exact R. }
    assert (B1 : byte_memory (put m b out)) by now apply put_bytes.
    assert (S' : safe_overlap (inp + 8) (8 * Z.of_nat (length Cs) + more) (out + 8) (8 * Z.of_nat (length Cs))).
    { unfold safe_overlap, apart in *. destruct S as [S|[S|S]]; [left; lia|right; left; lia|right; right; lia]. }
    assert (BA' : blocks_at (put m b out) (inp + 8) Cs).
    { apply (blocks_frame Cs m (put m b out)); try assumption; [unfold fits; lia|].
      intros x Hx. apply put_out; [exact F2|]. unfold safe_overlap, apart in S. lia. }
    destruct (IH Bs (put m b out) (inp + 8) (out + 8) c more m' v' B1 FC1 Hm FB2 FC2 ltac:(lia) ltac:(lia) S' CH BA' R') as (B' & LV & O' & BB).
    split; [exact B'|]. split.
    { rewrite LV. destruct Cs; [reflexivity|]. cbn [last]. clear. revert p. induction Cs; intros; [reflexivity|].
      cbn [last] in *. apply IHCs. }
    split.
    { intros x Hx. rewrite O' by lia. apply put_out; [exact F2|lia]. }
    split; [|exact BB].
    rewrite <- (get_put m b out B F2 FB1). apply get_frame; try assumption.
    intros i Hi. apply O'. lia.
Qed.

(** * Both *)

Lemma cbc_roundtrip : forall iv m src mid dst len m1 v1 m2 v2,
  byte_memory m -> both32 iv -> 0 <= len ->
  fits src len -> fits mid (padded len) -> fits dst len ->
  safe_overlap src len mid (padded len) -> safe_overlap mid (padded len) dst len ->
  cbc_enc get put getn E m src mid len iv = (m1, v1) ->
  cbc_dec get put putn D m1 mid dst len iv = (m2, v2) ->
  same_bytes m src m2 dst len /\ only_changes m m1 mid (padded len) /\ only_changes m1 m2 dst len /\
  v1 = v2 /\ both32 v1 /\ byte_memory m2.
Proof.
  intros iv m src mid dst len m1 v1 m2 v2 B V Hl Fs Fm Fd S1 S2 R1 R2.
  unfold cbc_enc in R1. unfold cbc_dec in R2.
  destruct (cbc_enc_loop get put E (Z.to_nat (len / 8)) m src mid iv) as [ma va] eqn:EL.
  destruct (cbc_dec_loop get put D (Z.to_nat (len / 8)) m1 mid dst iv) as [mb vb] eqn:DL.
  assert (PD : (len mod 8 = 0 -> padded len = 8 * (len / 8)) /\ (len mod 8 <> 0 -> padded len = 8 * (len / 8) + 8)).
  { unfold padded. lia. }
  assert (Q : 8 * Z.of_nat (Z.to_nat (len / 8)) = 8 * (len / 8)) by lia.
  assert (Q0 : 0 <= 8 * (len / 8) <= len) by lia.
  assert (Qm : len = 8 * (len / 8) + len mod 8 /\ 0 <= len mod 8 < 8) by lia.
  unfold fits in *.
  assert (So : safe_overlap src (8 * Z.of_nat (Z.to_nat (len / 8)) + len mod 8) mid (8 * Z.of_nat (Z.to_nat (len / 8)))).
  { rewrite Q. unfold safe_overlap, apart in *. lia. }
  destruct (enc_loop_spec (Z.to_nat (len / 8)) m src mid iv (len mod 8) ma va B V ltac:(lia)
              ltac:(unfold fits; lia) ltac:(unfold fits; lia) So EL)
    as (Ba & Va & Oa & Bs & Cs & L1 & L2 & CH & FB & FC & LV & BA1 & BA2).
  rewrite <- L2 in DL. rewrite Q in Oa.
  assert (Lq : 8 * Z.of_nat (length Cs) = 8 * (len / 8)) by (rewrite L2; exact Q).
  assert (Lb : 8 * Z.of_nat (length Bs) = 8 * (len / 8)) by (rewrite L1; exact Q).
  destruct (Z.eqb_spec (len mod 8) 0) as [Z8|N8].
  - injection R1 as <- <-. injection R2 as <- <-.
    assert (So2 : safe_overlap mid (8 * Z.of_nat (length Cs) + 0) dst (8 * Z.of_nat (length Cs))).
    { rewrite Lq. unfold safe_overlap, apart in *. lia. }
    destruct (dec_loop_spec Cs Bs ma mid dst iv 0 mb vb Ba V ltac:(lia) FB FC ltac:(unfold fits; lia)
                ltac:(unfold fits; lia) So2 CH BA2 DL) as (Bb & LV2 & Ob & BB).
    assert (E8 : len = 8 * Z.of_nat (length Bs)) by lia.
    split; [rewrite E8; apply (blocks_bytes Bs); try assumption; unfold fits; lia|].
    split; [intros x Hx; apply Oa; lia|]. split; [intros x Hx; apply Ob; lia|].
    split; [congruence|]. split; [exact Va|exact Bb].
  - rewrite (u32_step src (8 * (len / 8))), (u32_step mid (8 * (len / 8))) in R1 by lia.
    rewrite (u32_step mid (8 * (len / 8))), (u32_step dst (8 * (len / 8))) in R2 by lia.
    set (q8 := 8 * (len / 8)) in *.
    set (b := getn ma (src + q8) (len mod 8)) in *. set (c := E (xor2 b va)) in *.
    assert (R8 : 0 < len mod 8 < 8) by lia.
    assert (Fq : fits (mid + q8) 8) by (unfold fits; lia).
    assert (b32 : both32 b) by now apply (cd_getn32 C).
    assert (c32 : both32 c) by (apply E32; now apply both32_xor).
    injection R1 as <- <-.
    assert (B1 : byte_memory (put ma c (mid + q8))) by now apply put_bytes.
    assert (So2 : safe_overlap mid (8 * Z.of_nat (length Cs) + 8) dst (8 * Z.of_nat (length Cs))).
    { rewrite Lq. unfold safe_overlap, apart in *. lia. }
    assert (BA3 : blocks_at (put ma c (mid + q8)) mid Cs).
    { apply (blocks_frame Cs ma); try assumption; [unfold fits; lia|].
      intros x Hx. apply put_out; [exact Fq|lia]. }
    destruct (dec_loop_spec Cs Bs _ mid dst iv 8 mb vb B1 V ltac:(lia) FB FC ltac:(unfold fits; lia)
                ltac:(unfold fits; lia) So2 CH BA3 DL) as (Bb & LV2 & Ob & BB).
    rewrite Lq in Ob. fold q8 in Ob.
    assert (Gc : get mb (mid + q8) = c).
    { rewrite <- (get_put ma c (mid + q8) Ba Fq c32). apply get_frame; try assumption.
      intros i Hi. apply Ob. unfold safe_overlap, apart in S2. lia. }
    rewrite Gc in R2. assert (Ev : vb = va) by congruence.
    assert (Db : xor2 (D c) vb = b).
    { rewrite Ev. unfold c. rewrite DE by now apply both32_xor. apply xor2_cancel. }
    rewrite Db in R2. injection R2 as <- <-.
    assert (Ft : fits (dst + q8) (len mod 8)) by (unfold fits; lia).
    assert (Fu : fits (src + q8) (len mod 8)) by (unfold fits; lia).
    split.
    { intros k Hk. rewrite (cd_putn C) by assumption. destruct (Z_lt_dec k q8) as [L|L].
      - destruct (Z.leb_spec (dst + q8) (dst + k)); [lia|]. simpl andb. cbv iota.
        refine (blocks_bytes Bs m mb src dst B Bb _ _ BA1 BB k _); [unfold fits; lia|unfold fits; lia|lia].
      - destruct (Z.leb_spec (dst + q8) (dst + k)); [|lia].
        destruct (Z.ltb_spec (dst + k) (dst + q8 + len mod 8)); [|lia]. simpl andb. cbv iota.
        unfold b. rewrite (cd_getn C) by (assumption || lia).
        destruct (Z.ltb_spec (dst + k - (dst + q8)) (len mod 8)); [|lia].
        rewrite Oa; [f_equal; lia|]. unfold safe_overlap, apart in S1. lia. }
    split.
    { intros x Hx. rewrite put_out by (assumption || lia). apply Oa. lia. }
    split.
    { intros x Hx. rewrite (cd_putn C) by assumption.
      destruct (Z.leb_spec (dst + q8) x); simpl andb; [destruct (Z.ltb_spec x (dst + q8 + len mod 8)); [lia|]|];
        cbv iota; apply Ob; lia. }
    split; [reflexivity|]. split; [exact c32|].
    intros x. rewrite (cd_putn C) by assumption. destruct (_ && _); [apply (cd_byte C)|apply Bb].
Qed.
End Codec.

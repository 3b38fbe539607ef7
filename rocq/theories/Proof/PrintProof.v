(** printf. *)
From Verif Require Import Model.Base Model.Libc Spec.LibcSpec Proof.Tac Proof.MemFnProof Proof.NumProof.

(** * The buffer *)

Definition file_ok (f : file) : Prop := 0 <= f_pos f < BUF_SIZE.

(** What was written, flushed or not. *)
Definition pending (f : file) : list Z := map (fun k => f_buff f (Z.of_nat k)) (seq 0 (Z.to_nat (f_pos f))).
Definition written (f : file) : list Z := concat (f_out f) ++ pending f.

Lemma written_flush : forall f, concat (f_out (my_fflush f)) = written f.
Proof. intros f. unfold my_fflush, written, pending. cbn [f_out]. rewrite concat_app. cbn. now rewrite app_nil_r. Qed.

Lemma putc_spec : forall c f, file_ok f -> exists f', my_putc c f = Some f' /\ file_ok f' /\ written f' = written f ++ [c].
Proof.
  intros c f H. unfold my_putc, file_ok in *. destruct (Z.leb_spec 0 (f_pos f)); [|lia]. destruct (Z.ltb_spec (f_pos f) BUF_SIZE); [|lia].
  cbn [andb f_pos]. set (g := mkFile (upd (f_buff f) (f_pos f) c) (f_pos f + 1) (f_out f)).
  assert (W : written g = written f ++ [c]).
  { unfold written, pending, g. cbn [f_out f_buff f_pos]. rewrite <- app_assoc. f_equal.
    replace (Z.to_nat (f_pos f + 1)) with (S (Z.to_nat (f_pos f))) by lia. rewrite seq_S, map_app. cbn [map]. f_equal.
    - apply map_ext_in. intros k Hk. apply in_seq in Hk. apply upd_other. lia.
    - f_equal. rewrite Nat.add_0_l, Z2Nat.id by lia. apply upd_same. }
  destruct (Z.eqb_spec (f_pos f + 1) BUF_SIZE) as [E|E].
  - exists (my_fflush g). split; [reflexivity|]. split; [unfold my_fflush, BUF_SIZE; cbn [f_pos]; lia|].
    rewrite <- W, <- (written_flush g). unfold written. replace (pending (my_fflush g)) with (@nil Z) by reflexivity. apply app_nil_r.
  - exists g. split; [reflexivity|]. split; [unfold g; cbn [f_pos]; lia|assumption].
Qed.

Lemma put_all_spec : forall l f, file_ok f -> exists f', put_all l f = Some f' /\ file_ok f' /\ written f' = written f ++ l.
Proof.
  induction l as [|c l IH]; intros f H; cbn [put_all]; [exists f; split; [reflexivity|]; split; [assumption|now rewrite app_nil_r]|].
  destruct (putc_spec c f H) as (f1 & -> & H1 & W1). destruct (IH f1 H1) as (f2 & -> & H2 & W2).
  exists f2. split; [reflexivity|]. split; [assumption|]. rewrite W2, W1, <- app_assoc. reflexivity.
Qed.

(** * Numbers *)

Lemma printnbr_spec : forall n base f, file_ok f -> 0 <= n < 2 ^ 64 -> 2 <= base <= 16 ->
  exists f' k l, printnbr_base n base f = Some (f', k) /\ file_ok f' /\ written f' = written f ++ l /\ numeral base n l /\
  k = Z.of_nat (length l) - if n =? 0 then 0 else 1.
Proof.
  intros n base f H Hn Hb. unfold printnbr_base. destruct (Z.eqb_spec n 0) as [->|N].
  - destruct (putc_spec CH_ZERO f H) as (f1 & -> & H1 & W1). exists f1, 1, [48]. split; [reflexivity|]. split; [assumption|].
    split; [exact W1|]. split; [apply zero_numeral; lia|reflexivity].
  - destruct (conv_spec 96 base n) as (ds & -> & D & L); [lia| |].
    { split; [lia|]. apply Z.lt_le_trans with (2 ^ Z.of_nat 96); [change (2 ^ Z.of_nat 96) with 79228162514264337593543950336; lia|].
      apply Z.pow_le_mono_l. lia. }
    destruct (put_all_spec (map digit_char (rev ds)) f H) as (f1 & -> & H1 & W1).
    eexists f1, _, (map digit_char (rev ds)). split; [reflexivity|]. split; [assumption|]. split; [assumption|].
    split; [apply digits_numeral; [lia| |assumption]; intros; apply digit_char_is; lia|].
    rewrite map_length, rev_length. reflexivity.
Qed.

Lemma s64_of : forall v, - 2 ^ 63 <= v < 2 ^ 63 -> s64 (v mod 2 ^ 64) = v.
Proof.
  intros v H. unfold s64, sgn. rewrite Z.mod_mod by lia. change (64 - 1) with 63.
  assert (C : 0 <= v \/ v < 0) by lia. destruct C as [C|C].
  - rewrite Z.mod_small by lia. destruct (Z.ltb_spec v (2 ^ 63)); lia.
  - replace v with (v + 2 ^ 64 + (-1) * 2 ^ 64) at 1 2 by lia. rewrite Z_mod_plus_full, Z.mod_small by lia.
    destruct (Z.ltb_spec (v + 2 ^ 64) (2 ^ 63)); lia.
Qed.

Lemma print_signed_spec : forall v f, file_ok f -> - 2 ^ 63 < v < 2 ^ 63 ->
  exists f' k l, print_int (v mod 2 ^ 64) true f = Some (f', k) /\ file_ok f' /\ written f' = written f ++ l /\ signed_numeral v l /\
  k = Z.of_nat (length l) - if v =? 0 then 0 else 1.
Proof.
  intros v f H Hv. unfold print_int. rewrite s64_of by lia. cbn [andb].
  destruct (Z.eqb_spec (v mod 2 ^ 64) 0) as [E|E].
  - assert (v = 0) as -> by (rewrite <- (s64_of v) by lia; rewrite E; reflexivity).
    destruct (putc_spec CH_ZERO f H) as (f1 & -> & H1 & W1). exists f1, 1, [48]. split; [reflexivity|]. split; [assumption|].
    split; [exact W1|]. split; [|reflexivity]. left. split; [lia|]. apply zero_numeral. lia.
  - destruct (Z.ltb_spec v 0) as [L|L].
    + destruct (Z.eqb_spec (v mod 2 ^ 64) (2 ^ 63)) as [E2|E2].
      { exfalso. assert (v = - 2 ^ 63); [|lia]. rewrite <- (s64_of v) by lia. rewrite E2. reflexivity. }
      destruct (putc_spec CH_MINUS f H) as (f1 & -> & H1 & W1).
      unfold u64. rewrite (Z.mod_small (- v)) by lia.
      destruct (printnbr_spec (- v) 10 f1 H1 ltac:(lia) ltac:(lia)) as (f2 & k & l & -> & H2 & W2 & N & Ek).
      exists f2, (k + 1), (45 :: l). split; [reflexivity|]. split; [assumption|].
      split; [rewrite W2, W1, <- app_assoc; reflexivity|].
      split; [right; split; [assumption|]; eauto|]. cbn [length]. destruct (Z.eqb_spec (- v) 0), (Z.eqb_spec v 0); lia.
    + rewrite Z.mod_small by lia.
      destruct (printnbr_spec v 10 f H ltac:(lia) ltac:(lia)) as (f2 & k & l & E2 & H2 & W2 & N & Ek).
      exists f2, k, l. split; [assumption|]. split; [assumption|]. split; [assumption|].
      split; [now left|assumption].
Qed.

Lemma print_unsigned_spec : forall v f, file_ok f -> 0 <= v < 2 ^ 64 ->
  exists f' k l, print_int v false f = Some (f', k) /\ file_ok f' /\ written f' = written f ++ l /\ numeral 10 v l /\
  k = Z.of_nat (length l) - if v =? 0 then 0 else 1.
Proof.
  intros v f H Hv. unfold print_int. cbn [andb]. destruct (Z.eqb_spec v 0) as [->|E].
  - destruct (putc_spec CH_ZERO f H) as (f1 & -> & H1 & W1). exists f1, 1, [48]. split; [reflexivity|]. split; [assumption|].
    split; [exact W1|]. split; [apply zero_numeral; lia|reflexivity].
  - destruct (printnbr_spec v 10 f H ltac:(lia) ltac:(lia)) as (f2 & k & l & E2 & H2 & W2 & N & Ek).
    exists f2, k, l. split; [assumption|]. split; [assumption|]. split; [assumption|]. split; [assumption|].
    rewrite Ek. destruct (Z.eqb_spec v 0); [contradiction|reflexivity].
Qed.

Lemma print_str_spec : forall l m p f k fuel, (length l < fuel)%nat -> fits p (Z.of_nat (length l) + 1) -> ~ In 0 l ->
  bytes_at m p (l ++ [0]) -> file_ok f ->
  exists f', print_str fuel m p f k = Some (f', k + Z.of_nat (length l)) /\ file_ok f' /\ written f' = written f ++ l.
Proof.
  induction l as [|c l IH]; intros m p f k fuel Hf F Hz B H; (destruct fuel as [|fuel]; [cbn in Hf; lia|]); cbn [print_str].
  - apply bytes_cons in B. destruct B as (-> & _). change (0 =? 0) with true. cbn iota.
    exists f. split; [f_equal; f_equal; cbn; lia|]. split; [assumption|now rewrite app_nil_r].
  - change ((c :: l) ++ [0]) with (c :: (l ++ [0])) in B. apply bytes_cons in B. destruct B as (E & B).
    destruct (Z.eqb_spec (m p) 0) as [X|X]; [exfalso; apply Hz; left; congruence|].
    destruct (putc_spec (m p) f H) as (f1 & -> & H1 & W1). cbn [length] in *. unfold fits in F. rewrite u32_id by lia.
    destruct (IH m (p + 1) f1 (k + 1) fuel) as (f2 & -> & H2 & W2); auto; try lia.
    { unfold fits. lia. }
    { intros C. apply Hz. now right. }
    exists f2. split; [f_equal; f_equal; lia|]. split; [assumption|]. rewrite W2, W1, <- app_assoc, E. reflexivity.
Qed.

(** * Arguments *)

Lemma sgn_of : forall bits v, 1 <= bits -> - 2 ^ (bits - 1) <= v < 2 ^ (bits - 1) -> forall M, (2 ^ bits | M) -> 0 < M ->
  sgn bits (v mod M) = v.
Proof.
  intros bits v Hb H M D HM. assert (E : 2 ^ bits = 2 * 2 ^ (bits - 1)) by (rewrite <- Z.pow_succ_r by lia; f_equal; lia).
  assert (P : 0 < 2 ^ (bits - 1)) by (apply Z.pow_pos_nonneg; lia).
  unfold sgn. rewrite <- Znumtheory.Zmod_div_mod by (assumption || lia).
  assert (C : 0 <= v \/ v < 0) by lia. destruct C as [C|C].
  - rewrite Z.mod_small by lia. destruct (Z.ltb_spec v (2 ^ (bits - 1))); lia.
  - assert (X : v mod 2 ^ bits = v + 2 ^ bits) by (symmetry; apply Z.mod_unique with (-1); lia).
    rewrite X. destruct (Z.ltb_spec (v + 2 ^ bits) (2 ^ (bits - 1))); lia.
Qed.

Lemma mod_mod_of : forall bits v M, 0 <= bits -> 0 <= v < 2 ^ bits -> (2 ^ bits | M) -> 0 < M -> (v mod M) mod 2 ^ bits = v.
Proof.
  intros bits v M Hb H D HM. assert (0 < 2 ^ bits) by lia. rewrite <- Znumtheory.Zmod_div_mod by (assumption || lia). now apply Z.mod_small.
Qed.

Definition isize_of (sz : int_size) : isize :=
  match sz with Plain => SzInt | Long => SzLong | LongLong => SzLongLong | Short => SzShort | Char => SzChar end.

Lemma words : forall v, (v mod 2 ^ 32) mod 2 ^ 32 + 2 ^ 32 * (((v / 2 ^ 32) mod 2 ^ 32) mod 2 ^ 32) = v mod 2 ^ 64.
Proof.
  intros v. rewrite !Z.mod_mod by lia. change (2 ^ 64) with (2 ^ 32 * 2 ^ 32). rewrite Z.rem_mul_r by lia. reflexivity.
Qed.

Lemma arg_signed_spec : forall sz k v t, - 2 ^ (int_bits sz - 1) <= v < 2 ^ (int_bits sz - 1) ->
  arg_signed (isize_of sz) (piece_args (Number sz k v) ++ t) = Some (v mod 2 ^ 64, t).
Proof.
  intros sz k v t H. destruct sz; cbn [piece_args app isize_of arg_signed arg32 arg64]; cbn [int_bits] in H; unfold u32.
  - f_equal. f_equal. unfold s32, u64. rewrite Z.mod_mod by lia. rewrite (sgn_of 32); [reflexivity|lia|assumption|now exists 1|lia].
  - f_equal. f_equal. unfold s32, u64. rewrite Z.mod_mod by lia. rewrite (sgn_of 32); [reflexivity|lia|assumption|now exists 1|lia].
  - now rewrite words.
  - f_equal. f_equal. unfold u64. rewrite Z.mod_mod by lia. rewrite (sgn_of 16); [reflexivity|lia|assumption|now exists 65536|lia].
  - f_equal. f_equal. unfold s8, u64. rewrite Z.mod_mod by lia. rewrite (sgn_of 8); [reflexivity|lia|assumption|now exists 16777216|lia].
Qed.

Lemma arg_unsigned_spec : forall sz k v t, 0 <= v < 2 ^ int_bits sz ->
  arg_unsigned (isize_of sz) (piece_args (Number sz k v) ++ t) = Some (v, t).
Proof.
  intros sz k v t H. destruct sz; cbn [piece_args app isize_of arg_unsigned arg32 arg64]; cbn [int_bits] in H; unfold u32, u16, u8.
  - rewrite !Z.mod_small; [reflexivity|lia|rewrite Z.mod_small; lia].
  - rewrite !Z.mod_small; [reflexivity|lia|rewrite Z.mod_small; lia].
  - rewrite words. now rewrite Z.mod_small.
  - rewrite Z.mod_mod by lia. rewrite (mod_mod_of 16); [reflexivity|lia|assumption|now exists 65536|lia].
  - rewrite Z.mod_mod by lia. rewrite (mod_mod_of 8); [reflexivity|lia|assumption|now exists 16777216|lia].
Qed.

Lemma size_spec : forall sz k t, size_modifier (size_text sz ++ kind_char k :: t) = (isize_of sz, kind_char k :: t).
Proof. intros [] [] t; reflexivity. Qed.

(** * One piece *)

(** Characters that a piece does not count in the result: one for each number other than zero. *)
Definition lost (x : piece) : Z := match x with Number _ _ v => if v =? 0 then 0 else 1 | _ => 0 end.

Lemma directive_spec : forall fuel m sz k v t f, file_ok f -> piece_ok m (Number sz k v) ->
  exists f' n l, directive fuel m (isize_of sz) (kind_char k) (piece_args (Number sz k v) ++ t) f = Some (t, f', n) /\
  file_ok f' /\ written f' = written f ++ l /\ shows (Number sz k v) l /\ n = Z.of_nat (length l) - lost (Number sz k v).
Proof.
  intros fuel m sz k v t f H Hok. cbn [piece_ok] in Hok. cbn [shows].
  assert (U : is_signed k = false -> 0 <= v < 2 ^ 64).
  { intros E. rewrite E in Hok. destruct sz; cbn [int_bits] in Hok; lia. }
  assert (Sg : is_signed k = true -> - 2 ^ 63 < v < 2 ^ 63).
  { intros E. rewrite E in Hok. destruct sz; cbn [int_bits] in Hok; change (32 - 1) with 31 in Hok; change (64 - 1) with 63 in Hok;
      change (16 - 1) with 15 in Hok; change (8 - 1) with 7 in Hok; lia. }
  destruct k; cbn [is_signed] in *; unfold directive; cbn [kind_char].
  - change ((100 =? 100) || (100 =? 105)) with true. cbn iota. rewrite arg_signed_spec by apply Hok.
    destruct (print_signed_spec v f H (Sg eq_refl)) as (f' & n & l & -> & H1 & H2 & H3 & H4). exists f', n, l. auto.
  - change ((105 =? 100) || (105 =? 105)) with true. cbn iota. rewrite arg_signed_spec by apply Hok.
    destruct (print_signed_spec v f H (Sg eq_refl)) as (f' & n & l & -> & H1 & H2 & H3 & H4). exists f', n, l. auto.
  - change ((117 =? 100) || (117 =? 105)) with false. change (117 =? 117) with true. cbn iota. rewrite arg_unsigned_spec by apply Hok.
    destruct (print_unsigned_spec v f H (U eq_refl)) as (f' & n & l & -> & H1 & H2 & H3 & H4). exists f', n, l. auto.
  - change ((111 =? 100) || (111 =? 105)) with false. change (111 =? 117) with false. change ((111 =? 111) || (111 =? 120)) with true.
    cbn iota. rewrite arg_unsigned_spec by apply Hok. change (111 =? 111) with true. cbn iota.
    destruct (printnbr_spec v 8 f H (U eq_refl) ltac:(lia)) as (f' & n & l & -> & H1 & H2 & H3 & H4). exists f', n, l. auto.
  - change ((120 =? 100) || (120 =? 105)) with false. change (120 =? 117) with false. change ((120 =? 111) || (120 =? 120)) with true.
    cbn iota. rewrite arg_unsigned_spec by apply Hok. change (120 =? 111) with false. cbn iota.
    destruct (printnbr_spec v 16 f H (U eq_refl) ltac:(lia)) as (f' & n & l & -> & H1 & H2 & H3 & H4). exists f', n, l. auto.
Qed.

Lemma loop_number : forall g fuel m sz k v fmt args f count, file_ok f -> piece_ok m (Number sz k v) ->
  exists f' n l, vprintf_loop (S g) fuel m (piece_text (Number sz k v) ++ fmt) (piece_args (Number sz k v) ++ args) f count =
    vprintf_loop g fuel m fmt args f' n /\ file_ok f' /\ written f' = written f ++ l /\ shows (Number sz k v) l /\
    n = count + Z.of_nat (length l) - lost (Number sz k v).
Proof.
  intros g fuel m sz k v fmt args f count H Hok.
  destruct (directive_spec fuel m sz k v args f H Hok) as (f' & n & l & D & H1 & H2 & H3 & H4).
  exists f', (count + n), l. split; [|split; [assumption|split; [assumption|split; [assumption|lia]]]]. cbn [piece_text]. rewrite <- app_comm_cons, <- app_assoc. cbn [app vprintf_loop].
  change (37 =? CH_PERCENT) with true. cbn iota.
  pose proof (size_spec sz k fmt) as Sz. destruct (size_text sz ++ kind_char k :: fmt) as [|d t'] eqn:E.
  { destruct sz; discriminate E. }
  assert (N : (d =? CH_PERCENT) = false).
  { destruct sz; cbn in E; injection E as <- _; try reflexivity. destruct k; reflexivity. }
  rewrite N, Sz, D. reflexivity.
Qed.

Lemma vprintf_loop_spec : forall xs g fuel m f count, (length xs < g)%nat -> file_ok f -> Forall (piece_ok m) xs ->
  (forall p l, In (AString p l) xs -> (length l < fuel)%nat) ->
  exists f' n ls, vprintf_loop g fuel m (concat (map piece_text xs)) (concat (map piece_args xs)) f count = Some (f', n) /\
  file_ok f' /\ Forall2 shows xs ls /\ written f' = written f ++ concat ls /\
  n = count + Z.of_nat (length (concat ls)) - fold_right (fun x a => lost x + a) 0 xs.
Proof.
  induction xs as [|x xs IH]; intros g fuel m f count Hg H Hok Hs; (destruct g as [|g]; [cbn in Hg; lia|]).
  - exists f, count, []. split; [reflexivity|]. split; [assumption|]. split; [constructor|]. split; [now rewrite app_nil_r|cbn; lia].
  - inversion Hok as [|? ? Hx Hxs]; subst. cbn [map concat]. cbn [length] in Hg.
    assert (Hs' : forall p l, In (AString p l) xs -> (length l < fuel)%nat) by (intros p l Hin; apply (Hs p l); now right).
    assert (Step : exists f1 n1 l, vprintf_loop (S g) fuel m (piece_text x ++ concat (map piece_text xs)) (piece_args x ++ concat (map piece_args xs)) f count =
        vprintf_loop g fuel m (concat (map piece_text xs)) (concat (map piece_args xs)) f1 n1 /\ file_ok f1 /\ written f1 = written f ++ l /\ shows x l /\
        n1 = count + Z.of_nat (length l) - lost x).
    { destruct x as [c| |sz k v|v|p l].
      - destruct Hx as (_ & N1 & N2). destruct (putc_spec c f H) as (f1 & E & H1 & W1). exists f1, (count + 1), [c].
        split; [|split; [assumption|split; [assumption|split; [reflexivity|cbn [length lost]; lia]]]]. cbn [piece_text piece_args app vprintf_loop]. unfold CH_PERCENT. destruct (Z.eqb_spec c 37); [contradiction|]. now rewrite E.
      - destruct (putc_spec 37 f H) as (f1 & E & H1 & W1). exists f1, (count + 1), [37]. split; [|split; [assumption|split; [assumption|split; [reflexivity|cbn [length lost]; lia]]]].
        cbn [piece_text piece_args app vprintf_loop]. change (37 =? CH_PERCENT) with true. cbn iota. now rewrite E.
      - now apply loop_number.
      - cbn [piece_ok] in Hx. unfold is_byte in Hx. destruct (putc_spec v f H) as (f1 & E & H1 & W1). exists f1, (count + 1), [v]. split; [|split; [assumption|split; [assumption|split; [reflexivity|cbn [length lost]; lia]]]].
        cbn [piece_text piece_args app vprintf_loop]. change (37 =? CH_PERCENT) with true. change (99 =? CH_PERCENT) with false. cbn [size_modifier]. cbn iota.
        unfold directive. change ((99 =? 100) || (99 =? 105)) with false. change (99 =? 117) with false. change ((99 =? 111) || (99 =? 120)) with false.
        change (99 =? 99) with true. cbn [arg32]. cbn iota. replace (u8 (u32 v)) with v by (unfold u8, u32; rewrite !Z.mod_small; lia). now rewrite E.
      - cbn [piece_ok] in Hx. destruct Hx as (F & _ & Hz & B).
        destruct (print_str_spec l m p f 0 fuel (Hs p l (or_introl eq_refl)) F Hz B H) as (f1 & E & H1 & W1).
        exists f1, (count + (0 + Z.of_nat (length l))), l. split; [|split; [assumption|split; [assumption|split; [reflexivity|cbn [length lost]; lia]]]].
        cbn [piece_text piece_args app vprintf_loop]. change (37 =? CH_PERCENT) with true. change (115 =? CH_PERCENT) with false. cbn [size_modifier]. cbn iota.
        unfold directive. change ((115 =? 100) || (115 =? 105)) with false. change (115 =? 117) with false. change ((115 =? 111) || (115 =? 120)) with false.
        change (115 =? 99) with false. change (115 =? 115) with true. cbn [arg32]. cbn iota. unfold fits in F. rewrite u32_id by lia. now rewrite E. }
    destruct Step as (f1 & n1 & l & -> & H1 & W1 & Sh & C1).
    destruct (IH g fuel m f1 n1 ltac:(lia) H1 Hxs Hs') as (f2 & n2 & ls & -> & H2 & Sh2 & W2 & C2).
    exists f2, n2, (l :: ls). split; [reflexivity|]. split; [assumption|]. split; [now constructor|]. cbn [concat fold_right].
    split; [now rewrite W2, W1, app_assoc|]. rewrite app_length. lia.
Qed.

(** The console is the terminal of Spec/Terminal.v. *)
From Verif Require Import Model.Base Model.Libc Model.Console Spec.Terminal Spec.ConsoleSpec Proof.Tac.

Lemma outside_refl : forall m, outside m m. Proof. intros m x _. reflexivity. Qed.
Lemma outside_trans : forall a b c, outside a b -> outside b c -> outside a c.
Proof. intros a b c H1 H2 x Hx. rewrite H2, H1; auto. Qed.

Lemma s8_id : forall x, -128 <= x < 128 -> s8 x = x.
Proof.
  intros x H. unfold s8, sgn. change (2 ^ (8 - 1)) with 128. change (2 ^ 8) with 256. cbv zeta.
  destruct (Z.ltb_spec (x mod 256) 128); lia.
Qed.
Lemma s32_id : forall x, 0 <= x < 2 ^ 31 -> s32 x = x.
Proof.
  intros x H. unfold s32, sgn. change (2 ^ (32 - 1)) with (2 ^ 31). cbv zeta. rewrite Z.mod_small by lia.
  destruct (Z.ltb_spec x (2 ^ 31)); lia.
Qed.
Lemma u32_id : forall x, 0 <= x < 2 ^ 32 -> u32 x = x.
Proof. intros x H. unfold u32. now apply Z.mod_small. Qed.
Lemma u8_s8 : forall x, 0 <= x < 256 -> u8 (s8 x) = x.
Proof.
  intros x H. unfold u8, s8, sgn. change (2 ^ (8 - 1)) with 128. change (2 ^ 8) with 256. cbv zeta.
  destruct (Z.ltb_spec (x mod 256) 128); lia.
Qed.

(** ** Copying down *)
Lemma copy_four_at : forall m to from x, 0 <= to -> from + 4 < 2 ^ 32 -> to + 4 <= from ->
  copy_four m to from x = if (to <=? x) && (x <? to + 4) then m (x + (from - to)) else m x.
Proof.
  intros m to from x H1 H2 H3. unfold copy_four. rewrite !u32_id by lia. unfold upd.
  destruct (Z.eqb_spec x (to + 3)) as [->|N3].
  { destruct (Z.leb_spec to (to + 3)); [|lia]. destruct (Z.ltb_spec (to + 3) (to + 4)); [|lia]. cbn. f_equal. lia. }
  destruct (Z.eqb_spec x (to + 2)) as [->|N2].
  { destruct (Z.leb_spec to (to + 2)); [|lia]. destruct (Z.ltb_spec (to + 2) (to + 4)); [|lia]. cbn. f_equal. lia. }
  destruct (Z.eqb_spec x (to + 1)) as [->|N1].
  { destruct (Z.leb_spec to (to + 1)); [|lia]. destruct (Z.ltb_spec (to + 1) (to + 4)); [|lia]. cbn. f_equal. lia. }
  destruct (Z.eqb_spec x to) as [->|N0].
  { destruct (Z.leb_spec to to); [|lia]. destruct (Z.ltb_spec to (to + 4)); [|lia]. cbn. f_equal. lia. }
  destruct (Z.leb_spec to x); destruct (Z.ltb_spec x (to + 4)); cbn; try reflexivity. lia.
Qed.
Lemma copy_down : forall n m to from x, 0 <= to -> from + 4 * Z.of_nat n < 2 ^ 32 -> to + 4 <= from ->
  copy_longs n m to from x = if (to <=? x) && (x <? to + 4 * Z.of_nat n) then m (x + (from - to)) else m x.
Proof.
  induction n as [|n IH]; intros m to from x H1 H2 H3.
  - cbn [copy_longs]. destruct (Z.leb_spec to x); destruct (Z.ltb_spec x (to + 4 * Z.of_nat 0)); cbn; try reflexivity. lia.
  - cbn [copy_longs]. rewrite !u32_id by lia. rewrite IH by lia.
    replace (from + 4 - (to + 4)) with (from - to) by lia. rewrite !copy_four_at by lia.
    destruct (Z.leb_spec (to + 4) x) as [A|A]; destruct (Z.ltb_spec x (to + 4 + 4 * Z.of_nat n)) as [B|B]; cbn [andb];
      destruct (Z.leb_spec to x) as [C|C]; destruct (Z.ltb_spec x (to + 4 * Z.of_nat (S n))) as [D|D]; cbn [andb]; try lia;
      try (destruct (Z.ltb_spec (x + (from - to)) (to + 4)); [lia|]; rewrite andb_false_r; reflexivity);
      destruct (Z.ltb_spec x (to + 4)); try lia; cbn [andb]; reflexivity.
Qed.
Lemma scrolled : forall m x, memcpy_i386 m 0xb8000 (0xb8000 + 160) 3840 x =
  if (0xb8000 <=? x) && (x <? 0xb8000 + 3840) then m (x + 160) else m x.
Proof.
  intros m x. unfold memcpy_i386. change (Z.testbit 3840 1) with false. change (Z.testbit 3840 0) with false. cbv iota.
  rewrite copy_down; [|lia|vm_compute; reflexivity|lia]. change (4 * Z.of_nat (Z.to_nat (3840 / 4))) with 3840.
  replace (0xb8000 + 160 - 0xb8000) with 160 by lia. reflexivity.
Qed.

(** ** The blank line and the blank screen *)
Lemma blank_other : forall n i a m x, x < 0xb8000 + 3840 + 2 * i \/ 0xb8000 + 3840 + 2 * (i + Z.of_nat n) <= x ->
  blank_row n i a m x = m x.
Proof.
  induction n as [|n IH]; intros i a m x H; [reflexivity|]. cbn [blank_row]. rewrite IH by lia.
  change (vga_base + 2 * screen_w * (screen_h - 1)) with (0xb8000 + 3840). rewrite !upd_other by lia. reflexivity.
Qed.
Lemma blank_at : forall n i a m c, i <= c < i + Z.of_nat n ->
  blank_row n i a m (0xb8000 + 3840 + 2 * c) = 0 /\ blank_row n i a m (0xb8000 + 3840 + 2 * c + 1) = u8 a.
Proof.
  induction n as [|n IH]; intros i a m c H; [lia|]. cbn [blank_row].
  change (vga_base + 2 * screen_w * (screen_h - 1)) with (0xb8000 + 3840).
  destruct (Z.eq_dec c i) as [->|N]; [|apply IH; lia].
  rewrite !blank_other by lia. split; [rewrite upd_other by lia; apply upd_same|apply upd_same].
Qed.
Lemma clear_other : forall n p a m x, x < p \/ p + 2 * Z.of_nat n <= x -> clear_cells n p a m x = m x.
Proof.
  induction n as [|n IH]; intros p a m x H; [reflexivity|]. cbn [clear_cells]. rewrite IH by lia.
  rewrite !upd_other by lia. reflexivity.
Qed.
Lemma clear_at : forall n p a m k, 0 <= k < Z.of_nat n ->
  clear_cells n p a m (p + 2 * k) = 0 /\ clear_cells n p a m (p + 2 * k + 1) = u8 a.
Proof.
  induction n as [|n IH]; intros p a m k H; [lia|]. cbn [clear_cells]. destruct (Z.eq_dec k 0) as [->|N].
  - rewrite !clear_other by lia. replace (p + 2 * 0) with p by lia.
    split; [rewrite upd_other by lia; apply upd_same|apply upd_same].
  - replace (p + 2 * k) with (p + 2 + 2 * (k - 1)) by lia. apply IH. lia.
Qed.

(** ** One character *)
(** Between the parts of print_char the cursor may be just behind the last line. *)
Definition lines (m : Z -> Z) (cell : Z -> Z -> Z * Z) : Prop := forall r c, in_screen r c ->
  m (0xb8000 + 160 * r + 2 * c) = fst (cell r c) /\ m (0xb8000 + 160 * r + 2 * c + 1) = snd (cell r c).

Lemma scroll_newline : forall r a m se t, t_row t = r -> in_screen r 0 -> u8 a = t_color t -> lines m (t_cell t) ->
  stands (scroll (mkCons (r + 1) 0 a m se)) (newline t) /\ outside m (cn_mem (scroll (mkCons (r + 1) 0 a m se))) /\
  cn_serial (scroll (mkCons (r + 1) 0 a m se)) = se.
Proof.
  intros r a m se t Hr (Hi & _) Ha Hl. unfold scroll, newline. cbn [cn_row cn_col cn_attr cn_mem cn_serial].
  rewrite Hr. change screen_h with 25. change screen_w with 80. change vga_base with 0xb8000.
  destruct (Z.leb_spec 25 (r + 1)) as [C|C]; destruct (Z.eqb_spec r 24) as [D|D]; try lia.
  - change ((25 - 1) * 80 * 2) with 3840. change (2 * 80) with 160. cbn [cn_mem cn_serial].
    change (Z.to_nat 80) with 80%nat. split; [|split; [|reflexivity]].
    + constructor; cbn [cn_row cn_col cn_attr cn_mem t_row t_col t_color t_cell]; try reflexivity; try assumption.
      { split; lia. }
      intros r' c' (A & B). destruct (Z.eqb_spec r' 24) as [->|N].
      * change (0xb8000 + 160 * 24) with (0xb8000 + 3840). cbn [fst snd].
        destruct (blank_at 80 0 a (memcpy_i386 m 0xb8000 (0xb8000 + 160) 3840) c' ltac:(lia)) as (E1 & E2).
        rewrite E1, E2. auto.
      * rewrite !blank_other by lia. rewrite !scrolled.
        destruct (Z.leb_spec 0xb8000 (0xb8000 + 160 * r' + 2 * c')); [|lia].
        destruct (Z.ltb_spec (0xb8000 + 160 * r' + 2 * c') (0xb8000 + 3840)); [|lia].
        destruct (Z.leb_spec 0xb8000 (0xb8000 + 160 * r' + 2 * c' + 1)); [|lia].
        destruct (Z.ltb_spec (0xb8000 + 160 * r' + 2 * c' + 1) (0xb8000 + 3840)); [|lia]. cbn [andb].
        destruct (Hl (r' + 1) c' ltac:(split; lia)) as (E1 & E2). rewrite <- E1, <- E2. split; f_equal; lia.
    + intros x Hx. rewrite blank_other by lia. rewrite scrolled.
      destruct (Z.leb_spec 0xb8000 x); destruct (Z.ltb_spec x (0xb8000 + 3840)); cbn [andb]; try reflexivity. lia.
  - split; [|split; [apply outside_refl|reflexivity]].
    constructor; cbn [cn_row cn_col cn_attr cn_mem t_row t_col t_color t_cell move]; try reflexivity; try assumption.
    split; lia.
Qed.
Lemma advance_ok : forall r c a m se t, t_row t = r -> in_screen r 0 -> 0 <= c <= 80 -> u8 a = t_color t -> lines m (t_cell t) ->
  let g := scroll (wrap (mkCons r c a m se)) in
  stands g (advance c t) /\ outside m (cn_mem g) /\ cn_serial g = se.
Proof.
  intros r c a m se t Hr Hi Hc Ha Hl. cbv zeta. unfold wrap, advance. cbn [cn_row cn_col cn_attr cn_mem cn_serial].
  change screen_w with 80. destruct (Z.leb_spec 80 c) as [C|C]; destruct (Z.eqb_spec c 80) as [D|D]; try lia.
  - rewrite s8_id by (destruct Hi; lia). now apply scroll_newline.
  - unfold scroll. cbn [cn_row]. change screen_h with 25. destruct (Z.leb_spec 25 r) as [E|E]; [destruct Hi; lia|].
    split; [|split; [apply outside_refl|reflexivity]].
    constructor; cbn [cn_row cn_col cn_attr cn_mem t_row t_col t_color t_cell move]; try reflexivity; try assumption; try congruence.
    rewrite Hr. destruct Hi. split; lia.
Qed.

Lemma print_ok : forall ch g t, stands g t ->
  stands (print_char ch g) (show ch t) /\ outside (cn_mem g) (cn_mem (print_char ch g)) /\
  cn_serial (print_char ch g) = cn_serial g ++ [ch].
Proof.
  intros ch g t [Hr Hc Hi Ha Hl]. unfold print_char, show. destruct g as [row col attr m se].
  cbn [cn_row cn_col cn_attr cn_mem cn_serial] in *. subst row col. pose proof Hi as (Hi1 & Hi2).
  assert (I0 : in_screen (t_row t) 0) by (split; lia).
  unfold place_char. cbn [cn_row cn_col cn_attr cn_mem cn_serial].
  destruct (Z.eqb_spec ch 13) as [->|N1].
  { destruct (advance_ok (t_row t) 0 attr m (se ++ [13]) t eq_refl I0 ltac:(lia) Ha Hl) as (A & B & C).
    split; [|auto]. exact A. }
  destruct (Z.eqb_spec ch 10) as [->|N2].
  { rewrite s8_id by lia. unfold wrap. cbn [cn_col]. change (screen_w <=? 0) with false. cbv iota.
    now apply scroll_newline. }
  destruct (Z.eqb_spec ch 9) as [->|N3].
  { assert (E : t_col t + (8 - Z.rem (t_col t) 8) = 8 * (t_col t / 8 + 1)).
    { rewrite Z.rem_mod_nonneg by lia. clear - Hi2. lia. }
    rewrite s8_id by (rewrite E; clear - Hi2; lia). rewrite E.
    apply (advance_ok (t_row t) (8 * (t_col t / 8 + 1)) attr m (se ++ [9]) t eq_refl I0); [clear - Hi2; lia|assumption|assumption]. }
  rewrite s8_id by lia. change (vga_base + 2 * screen_w * t_row t) with (0xb8000 + 160 * t_row t).
  unfold put. set (t1 := mkTerm (t_row t) (t_col t) (t_color t) _).
  set (m1 := upd (upd m _ ch) _ _).
  assert (L1 : lines m1 (t_cell t1)).
  { intros r c Hrc. unfold m1, t1. cbn [t_cell]. destruct (Z.eqb_spec r (t_row t)) as [->|N].
    - destruct (Z.eqb_spec c (t_col t)) as [->|N']; cbn [andb fst snd].
      + split; [rewrite upd_other by lia; apply upd_same|]. rewrite upd_same. exact Ha.
      + rewrite !upd_other by lia. now apply Hl.
    - cbn [andb]. destruct Hrc. rewrite !upd_other by lia. apply Hl. split; assumption. }
  destruct (advance_ok (t_row t) (t_col t + 1) attr m1 (se ++ [ch]) t1 eq_refl I0 ltac:(lia) Ha L1) as (A & B & C).
  split; [exact A|]. split; [|exact C]. eapply outside_trans; [|exact B].
  intros x Hx. unfold m1. rewrite !upd_other by lia. reflexivity.
Qed.

(** ** A text *)
Lemma clear_ok : forall g t, u8 (cn_attr g) = t_color t ->
  stands (cons_clear g) (obey t Clear) /\ outside (cn_mem g) (cn_mem (cons_clear g)).
Proof.
  intros g t Ha. unfold cons_clear, obey. change (Z.to_nat (screen_h * screen_w)) with (Z.to_nat 2000). change vga_base with 0xb8000.
  cbn [cn_mem]. split.
  - constructor; cbn [cn_row cn_col cn_attr cn_mem t_row t_col t_color t_cell fst snd]; try reflexivity; try assumption.
    { split; lia. }
    intros r c (A & B). rewrite <- Ha.
    destruct (clear_at (Z.to_nat 2000) 0xb8000 (cn_attr g) (cn_mem g) (80 * r + c) ltac:(rewrite Z2Nat.id; lia)) as (E1 & E2).
    replace (0xb8000 + 160 * r + 2 * c) with (0xb8000 + 2 * (80 * r + c)) by lia. auto.
  - intros x Hx. apply clear_other. rewrite Z2Nat.id; lia.
Qed.

Lemma text_cons : forall s i c l, text_at s i (c :: l) -> s i = c /\ text_at s (i + 1) l.
Proof.
  intros s i c l H. split; [specialize (H 0%nat ltac:(cbn; lia)); cbn in H; now rewrite Z.add_0_r in H|].
  intros k Hk. specialize (H (S k) ltac:(cbn; lia)). cbn [nth] in H. rewrite <- H. f_equal. lia.
Qed.

Lemma write_ok : forall n l s len i res g t cs gas, (length l <= n)%nat -> text_at s i l -> Forall (fun b => 0 <= b < 256) l -> commands l = Some cs ->
  i + Z.of_nat (length l) = len -> 0 <= i -> len < 2 ^ 31 -> 0 <= res <= i -> stands g t -> (length l <= gas)%nat ->
  exists g', write_loop gas s len i res g = Some (res + Z.of_nat (length (shown cs)), g') /\ stands g' (fold_left obey cs t) /\
    outside (cn_mem g) (cn_mem g') /\ cn_serial g' = cn_serial g ++ shown cs.
Proof.
  induction n as [|n IH]; intros l s len i res g t cs gas Hn Ht Hb Hc Hl Hi Hlen Hres Hs Hg.
  all: destruct l as [|c l]; [|cbn [length] in *; try lia].
  1, 2: cbn [commands] in Hc; injection Hc as <-; cbn [length] in Hl; exists g; cbn [shown length fold_left];
    rewrite app_nil_r, Z.add_0_r; split; [|split; [assumption|split; [apply outside_refl|reflexivity]]];
    destruct gas; cbn [write_loop]; destruct (Z.ltb_spec i len); try lia; reflexivity.
  destruct gas as [|gas]; [lia|]. cbn [write_loop]. destruct (Z.ltb_spec i len) as [_|C]; [|lia].
  apply text_cons in Ht. destruct Ht as (Hc0 & Ht). inversion Hb as [|? ? Hb0 Hb']; subst. cbn [commands] in Hc.
  set (c := s i) in *. change CONS_ESCAPE with 255. destruct (Z.eqb_spec c 255) as [E|E].
  - rewrite (u32_id (i + 1)) by lia. destruct l as [|d l]; [discriminate|].
    apply text_cons in Ht. destruct Ht as (Hd & Ht). inversion Hb' as [|? ? Hb1 Hb'']; subst. set (d := s (i + 1)) in *. cbn [length] in *.
    rewrite !(u32_id (i + 1 + 1)) by lia.
    change CONS_CLEAR with 1. change CONS_COLOR with 2. change CONS_SETY with 4. change CONS_SETX with 3.
    destruct (Z.eqb_spec d 1) as [D1|D1].
    { destruct (commands l) as [cs1|] eqn:Ec; [|discriminate]. injection Hc as <-.
      destruct (clear_ok g t (st_color _ _ Hs)) as (A & B).
      destruct (IH l s (i + Z.of_nat (S (S (length l)))) (i + 1 + 1) res (cons_clear g) (obey t Clear) cs1 gas) as (g' & P1 & P2 & P3 & P4);
        try assumption; try lia.
      exists g'. split; [exact P1|]. split; [exact P2|]. split; [eapply outside_trans; eassumption|]. exact P4. }
    destruct ((2 <=? d) && (d <=? 4)) eqn:Ed.
    { destruct l as [|x l]; [discriminate|]. apply text_cons in Ht. destruct Ht as (Hx & Ht). inversion Hb'' as [|? ? Hb2 Hb3]; subst.
      set (x := s (i + 1 + 1)) in *. cbn [length] in *. rewrite !(u32_id (i + 1 + 1 + 1)) by lia.
      destruct (commands l) as [cs1|] eqn:Ec; [|discriminate]. injection Hc as <-.
      apply andb_true_iff in Ed. destruct Ed as (Ed1 & Ed2). apply Z.leb_le in Ed1, Ed2.
      assert (Q : forall g1 t1, stands g1 t1 -> cn_mem g1 = cn_mem g -> cn_serial g1 = cn_serial g ->
        exists g', write_loop gas s (i + Z.of_nat (S (S (S (length l))))) (i + 1 + 1 + 1) res g1 = Some (res + Z.of_nat (length (shown cs1)), g') /\
          stands g' (fold_left obey cs1 t1) /\ outside (cn_mem g) (cn_mem g') /\ cn_serial g' = cn_serial g ++ shown cs1).
      { intros g1 t1 S1 M1 N1. rewrite <- M1, <- N1. apply (IH l); try assumption; lia. }
      destruct Hs as [Sr Sc Si Sa Sl]. destruct Si as (Si1 & Si2).
      destruct (Z.eqb_spec d 2) as [D2|D2].
      { apply (Q (set_attr x g) (obey t (Color x))); try reflexivity.
        constructor; unfold set_attr; cbn [obey cn_row cn_col cn_attr cn_mem t_row t_col t_color t_cell]; try assumption; [split; assumption|].
        apply u8_s8; assumption. }
      destruct (Z.eqb_spec d 4) as [D4|D4].
      { destruct (Z.eqb_spec d 3) as [D3|D3]; [lia|].
        apply (Q (mkCons (x mod screen_h) (cn_col g) (cn_attr g) (cn_mem g) (cn_serial g)) (obey t (SetY x))); try reflexivity.
        change screen_h with 25.
        constructor; cbn [obey cn_row cn_col cn_attr cn_mem t_row t_col t_color t_cell move]; try assumption; try reflexivity.
        split; [|assumption]. clear. lia. }
      destruct (Z.eqb_spec d 3) as [D3|D3]; [|lia].
      apply (Q (mkCons (cn_row g) (x mod screen_w) (cn_attr g) (cn_mem g) (cn_serial g)) (obey t (SetX x))); try reflexivity.
      change screen_w with 80.
      constructor; cbn [obey cn_row cn_col cn_attr cn_mem t_row t_col t_color t_cell move]; try assumption; try reflexivity.
      split; [assumption|]. clear. lia. }
    destruct (commands l) as [cs1|] eqn:Ec; [|discriminate]. injection Hc as <-.
    destruct (Z.eqb_spec d 2) as [D2|D2]; [rewrite D2 in Ed; discriminate|].
    destruct (Z.eqb_spec d 4) as [D4|D4]; [rewrite D4 in Ed; discriminate|].
    destruct (Z.eqb_spec d 3) as [D3|D3]; [rewrite D3 in Ed; discriminate|].
    destruct (print_ok d g t Hs) as (A & B & C). rewrite (s32_id (res + 1)) by lia.
    destruct (IH l s (i + Z.of_nat (S (S (length l)))) (i + 1 + 1) (res + 1) (print_char d g) (show d t) cs1 gas) as (g' & P1 & P2 & P3 & P4);
      try assumption; try lia.
    exists g'. cbn [shown length]. split; [rewrite P1; f_equal; f_equal; lia|]. split; [exact P2|].
    split; [eapply outside_trans; eassumption|]. rewrite P4, C, <- app_assoc. reflexivity.
  - rewrite (u32_id (i + 1)) by lia.
    destruct (commands l) as [cs1|] eqn:Ec; [|discriminate]. injection Hc as <-.
    destruct (print_ok c g t Hs) as (A & B & C). rewrite (s32_id (res + 1)) by lia.
    destruct (IH l s (i + Z.of_nat (S (length l))) (i + 1) (res + 1) (print_char c g) (show c t) cs1 gas) as (g' & P1 & P2 & P3 & P4);
      try assumption; try lia.
    exists g'. cbn [shown length]. split; [rewrite P1; f_equal; f_equal; lia|]. split; [exact P2|].
    split; [eapply outside_trans; eassumption|]. rewrite P4, C, <- app_assoc. reflexivity.
Qed.

(** ** Any text *)
Definition term_of (g : console) : term :=
  mkTerm (cn_row g) (cn_col g) (u8 (cn_attr g)) (fun r c => (cn_mem g (0xb8000 + 160 * r + 2 * c), cn_mem g (0xb8000 + 160 * r + 2 * c + 1))).
Lemma term_of_ok : forall g, in_screen (cn_row g) (cn_col g) -> stands g (term_of g).
Proof. intros g H. constructor; try reflexivity; try assumption. intros r c _. split; reflexivity. Qed.
Lemma stands_in : forall g t, stands g t -> in_screen (cn_row g) (cn_col g).
Proof. intros g t [A B C _ _]. now rewrite A, B. Qed.

Lemma any_text : forall gas s len i res g, 0 <= i -> len < 2 ^ 31 -> len - i <= Z.of_nat gas -> in_screen (cn_row g) (cn_col g) ->
  exists r g', write_loop gas s len i res g = Some (r, g') /\ in_screen (cn_row g') (cn_col g') /\ outside (cn_mem g) (cn_mem g').
Proof.
  induction gas as [|gas IH]; intros s len i res g Hi Hl Hg Hs; cbn [write_loop].
  - destruct (Z.ltb_spec i len) as [C|C]; [lia|]. exists res, g. split; [reflexivity|]. split; [assumption|apply outside_refl].
  - destruct (Z.ltb_spec i len) as [C|C]; [|exists res, g; split; [reflexivity|]; split; [assumption|apply outside_refl]].
    assert (Q : forall i' res' g1, i < i' -> in_screen (cn_row g1) (cn_col g1) -> outside (cn_mem g) (cn_mem g1) ->
      exists r g', write_loop gas s len i' res' g1 = Some (r, g') /\ in_screen (cn_row g') (cn_col g') /\ outside (cn_mem g) (cn_mem g')).
    { intros i' res' g1 A B D. destruct (IH s len i' res' g1 ltac:(lia) Hl ltac:(lia) B) as (r & g' & P1 & P2 & P3).
      exists r, g'. split; [exact P1|]. split; [exact P2|]. eapply outside_trans; eassumption. }
    assert (P : forall c, in_screen (cn_row (print_char c g)) (cn_col (print_char c g)) /\ outside (cn_mem g) (cn_mem (print_char c g))).
    { intros c. destruct (print_ok c g _ (term_of_ok g Hs)) as (A & B & _). split; [|exact B]. eapply stands_in. exact A. }
    rewrite !(u32_id (i + 1)) by lia. rewrite !(u32_id (i + 1 + 1)) by lia. rewrite !(u32_id (i + 1 + 1 + 1)) by lia.
    destruct (s i =? CONS_ESCAPE); [|apply Q; [lia|apply P|apply P]].
    destruct (s (i + 1) =? CONS_CLEAR).
    { destruct (clear_ok g (term_of g) eq_refl) as (A & B). apply Q; [lia| |exact B]. eapply stands_in. exact A. }
    destruct (s (i + 1) =? CONS_COLOR); [apply Q; [lia|exact Hs|apply outside_refl]|].
    destruct Hs as (Hs1 & Hs2).
    destruct (s (i + 1) =? CONS_SETY).
    { apply Q; [lia| |apply outside_refl]. cbn [cn_row cn_col]. change screen_h with 25. split; [clear; lia|assumption]. }
    destruct (s (i + 1) =? CONS_SETX).
    { apply Q; [lia| |apply outside_refl]. cbn [cn_row cn_col]. change screen_w with 80. split; [assumption|clear; lia]. }
    apply Q; [lia|apply P|apply P].
Qed.

(** ** The other ports *)
Lemma serial_ok : forall l s i g, text_at s i l ->
  serial_loop (length l) s i g = g ++ l.
Proof.
  induction l as [|c l IH]; intros s i g H; cbn [serial_loop length]; [now rewrite app_nil_r|].
  apply text_cons in H. destruct H as (H1 & H2). rewrite (IH _ _ _ H2), H1, <- app_assoc. reflexivity.
Qed.

(** Gates decode to what was put into them. *)
From Verif Require Import Model.Base Spec.X86Cpu Spec.X86Gates Model.X86Idt Proof.Tac.

Lemma bits_at : forall w l n a v h, w = a + v * 2 ^ l + h * 2 ^ (l + n) -> 0 <= l -> 0 <= n -> 0 <= a < 2 ^ l -> 0 <= v < 2 ^ n ->
  bits w l n = v.
Proof.
  intros w l n a v h -> Hl Hn Ha Hv. unfold bits. rewrite Z.pow_add_r by lia.
  assert (P : 0 < 2 ^ l) by (apply Z.pow_pos_nonneg; lia).
  replace (a + v * 2 ^ l + h * (2 ^ l * 2 ^ n)) with (a + (v + h * 2 ^ n) * 2 ^ l) by ring.
  rewrite Z.div_add by (clear - P; lia). rewrite (Z.div_small a) by exact Ha. cbn [Z.add].
  rewrite Z.mod_add by (assert (0 < 2 ^ n) by (apply Z.pow_pos_nonneg; lia); clear - H; lia).
  apply Z.mod_small. exact Hv.
Qed.

Lemma decode_entry : forall ol s t d oh, 0 <= ol < 2 ^ 16 -> 0 <= s < 2 ^ 16 -> 0 <= t < 8 -> 0 <= d < 4 -> 0 <= oh < 2 ^ 16 ->
  decode (entry ol s 0 t 1 0 d 1 oh) = mkGate (ol + oh * 2 ^ 16) s (t + 8) d true.
Proof.
  intros ol s t d oh H1 H2 H3 H4 H5. set (w := entry ol s 0 t 1 0 d 1 oh).
  assert (W : w = ol + s * 65536 + t * 1099511627776 + 8796093022208 + d * 35184372088832 + 140737488355328 + oh * 281474976710656)
    by (unfold w, entry; change (2 ^ 16) with 65536; change (2 ^ 32) with 4294967296; change (2 ^ 40) with 1099511627776;
        change (2 ^ 43) with 8796093022208; change (2 ^ 44) with 17592186044416; change (2 ^ 45) with 35184372088832;
        change (2 ^ 47) with 140737488355328; change (2 ^ 48) with 281474976710656; ring).
  clearbody w. change (2 ^ 16) with 65536 in *.
  unfold decode. f_equal; [f_equal; [|f_equal]| | | |].
  - apply (bits_at w 0 16 0 ol (s + t * 16777216 + 134217728 + d * 536870912 + 2147483648 + oh * 4294967296)); [change (2 ^ (0 + 16)) with 65536; change (2 ^ 0) with 1; rewrite W; ring|lia|lia|change (2 ^ 0) with 1; lia|change (2 ^ 16) with 65536; lia].
  - apply (bits_at w 48 16 (ol + s * 65536 + t * 1099511627776 + 8796093022208 + d * 35184372088832 + 140737488355328) oh 0);
      [change (2 ^ (48 + 16)) with 18446744073709551616; change (2 ^ 48) with 281474976710656; rewrite W; ring|lia|lia|change (2 ^ 48) with 281474976710656; clear - H1 H2 H3 H4; lia|change (2 ^ 16) with 65536; lia].
  - apply (bits_at w 16 16 ol s (t * 256 + 2048 + d * 8192 + 32768 + oh * 65536)); [change (2 ^ (16 + 16)) with 4294967296; change (2 ^ 16) with 65536; rewrite W; ring|lia|lia|change (2 ^ 16) with 65536; lia|change (2 ^ 16) with 65536; lia].
  - apply (bits_at w 40 5 (ol + s * 65536) (t + 8) (d + 4 + oh * 8));
      [change (2 ^ (40 + 5)) with 35184372088832; change (2 ^ 40) with 1099511627776; rewrite W; ring|lia|lia|change (2 ^ 40) with 1099511627776; clear - H1 H2; lia|change (2 ^ 5) with 32; lia].
  - apply (bits_at w 45 2 (ol + s * 65536 + t * 1099511627776 + 8796093022208) d (1 + oh * 2));
      [change (2 ^ (45 + 2)) with 140737488355328; change (2 ^ 45) with 35184372088832; rewrite W; ring|lia|lia|change (2 ^ 45) with 35184372088832; clear - H1 H2 H3; lia|change (2 ^ 2) with 4; lia].
  - apply Z.eqb_eq. apply (bits_at w 47 1 (ol + s * 65536 + t * 1099511627776 + 8796093022208 + d * 35184372088832) 1 oh);
      [change (2 ^ (47 + 1)) with 281474976710656; change (2 ^ 47) with 140737488355328; rewrite W; ring|lia|lia|change (2 ^ 47) with 140737488355328; clear - H1 H2 H3 H4; lia|change (2 ^ 1) with 2; lia].
Qed.

Lemma gate_at : forall idt i s o t d, 0 <= s < 2 ^ 16 -> 0 <= o < 2 ^ 32 -> 0 <= t < 8 -> 0 <= d < 4 ->
  decode (idt_set_gate idt i s o t d i) = mkGate o s (t + 8) d true.
Proof.
  intros idt i s o t d Hs Ho Ht Hd. unfold idt_set_gate. rewrite upd_same.
  rewrite decode_entry; try (apply Z.mod_pos_bound; lia).
  rewrite (Z.mod_small s), (Z.mod_small t), (Z.mod_small d) by assumption.
  f_equal. rewrite (Z.mod_small (o / 2 ^ 16)).
  - pose proof (Z.div_mod o (2 ^ 16)). change (2 ^ 16) with 65536 in *. clear - H. lia.
  - change (2 ^ 16) with 65536. change (2 ^ 32) with 4294967296 in Ho. clear - Ho. lia.
Qed.
Lemma gate_other : forall idt i s o t d n, n <> i -> idt_set_gate idt i s o t d n = idt n.
Proof. intros idt i s o t d n H. unfold idt_set_gate. now apply upd_other. Qed.
Lemma empty_gate : g_type (decode 0) = 0. Proof. reflexivity. Qed.

(** What vector [n] leads to after boot. *)
Definition installed (several : bool) (n : Z) : option (handler * bool) :=
  match find (fun e => fst e =? n) exception_list with
  | Some e => Some (snd e, false)
  | None => if n =? 42 then Some (syscall_gate, false) else if n =? 32 then Some (pit_interrupt, true)
            else if several then (if n =? 33 then Some (IPI_test_gate, true)
              else if n =? 34 then Some (global_sched_thread_gate, true)
              else if n =? 35 then Some (sched_thread_gate, true) else None) else None
  end.
Lemma boot_gates : forall addr several idt n, (forall h, 0 <= addr h < 2 ^ 32) -> 0 <= n < 256 ->
  match installed several n with
  | Some (h, trap) => decode (boot addr several idt n) = mkGate (addr h) 8 (if trap then 15 else 14) 3 true
  | None => boot addr several idt n = 0
  end.
Proof.
  intros addr several idt n A Hn.
  assert (E : n = 0 \/ n = 1 \/ n = 2 \/ n = 3 \/ n = 4 \/ n = 5 \/ n = 6 \/ n = 7 \/ n = 8 \/ n = 9 \/ n = 10 \/ n = 11 \/
    n = 12 \/ n = 13 \/ n = 14 \/ n = 16 \/ n = 17 \/ n = 18 \/ n = 19 \/ n = 32 \/ n = 33 \/ n = 34 \/ n = 35 \/ n = 42 \/
    (n = 15 \/ 20 <= n < 32 \/ 36 <= n < 42 \/ 43 <= n)) by lia.
  unfold boot, ipi_init, event_register, event_init, syscall_init, exception_init, exception_list, SYSCALL_INT.
  cbn [fold_left fst snd]. change (32 + 0) with 32. unfold IDTE_INTERRUPT, IDTE_TRAP.
  repeat (destruct E as [-> | E]; [destruct several; cbn [installed find exception_list fst snd Z.eqb Pos.eqb];
    rewrite ?gate_other by lia; first [apply gate_at; [lia|apply A|lia|lia] | reflexivity]|]).
  replace (installed several n) with (@None (handler * bool)).
  - destruct several; rewrite !gate_other by lia; destruct (Z.leb_spec 0 n), (Z.ltb_spec n IDT_SIZE); unfold IDT_SIZE in *; try lia; reflexivity.
  - unfold installed. cbn [find exception_list fst].
    repeat match goal with |- context [?a =? n] => destruct (Z.eqb_spec a n); [lia|] end.
    repeat match goal with |- context [n =? ?a] => destruct (Z.eqb_spec n a); [lia|] end. now destruct several.
Qed.

(** C87: The console shows what is written to it, on the screen only, and reports it. *)
From Verif Require Import Model.Base Model.Libc Model.Console Spec.Terminal Spec.ConsoleSpec Proof.Tac Proof.ConsoleProof.

(** Every text without a truncated escape sequence, in every state of the screen: what is seen afterwards is what the
    terminal shows after the commands in the text, no other byte of memory has changed, the serial line got the
    characters, and the result is their number. *)
Theorem C87_write : forall l s g t cs, text_at s 0 l -> Forall (fun b => 0 <= b < 256) l -> commands l = Some cs ->
  Z.of_nat (length l) < 2 ^ 31 -> stands g t ->
  exists g', cons_write s (Z.of_nat (length l)) g = Some (Z.of_nat (length (shown cs)), g') /\
    stands g' (fold_left obey cs t) /\ outside (cn_mem g) (cn_mem g') /\ cn_serial g' = cn_serial g ++ shown cs.
Proof.
  intros l s g t cs Ht Hb Hc Hl Hs. unfold cons_write. rewrite Nat2Z.id.
  apply (write_ok (length l) l s (Z.of_nat (length l)) 0 0 g t cs (length l)); auto; lia.
Qed.
Print Assumptions C87_write.

(** Every text whatever: the console ends, writes to the screen only and keeps its cursor on it. *)
Theorem C87_safe : forall s len g, 0 <= len < 2 ^ 31 -> in_screen (cn_row g) (cn_col g) ->
  exists r g', cons_write s len g = Some (r, g') /\ in_screen (cn_row g') (cn_col g') /\ outside (cn_mem g) (cn_mem g').
Proof.
  intros s len g Hl Hs. unfold cons_write. apply any_text; try assumption; lia.
Qed.
Print Assumptions C87_safe.

(** After pok_cons_init the screen is blank, whatever was in memory and in g_cons. *)
Theorem C87_init : forall g, stands (cons_init g) (mkTerm 0 0 7 (fun _ _ => (0, 7))) /\ outside (cn_mem g) (cn_mem (cons_init g)).
Proof.
  intros g. unfold cons_init. apply (clear_ok (mkCons _ _ 7 _ _) (mkTerm 0 0 7 (fun _ _ => (0, 0)))). reflexivity.
Qed.
Print Assumptions C87_init.

(** The other ports send the text as it is. *)
Theorem C87_serial : forall l s sent, text_at s 0 l -> snd (serial_write s (Z.of_nat (length l)) sent) = sent ++ l.
Proof. intros l s sent H. unfold serial_write. cbn [snd]. rewrite Nat2Z.id. now apply serial_ok. Qed.
Print Assumptions C87_serial.

Definition fresh : console := cons_init (mkCons 0 0 0 (fun _ => 0) []).
(** What is shown depends on more than the text: behind a text that ends with an escape character, the next byte is shown. *)
Theorem C87_text_refuted : ~ (forall s s' len g, 0 <= len < 2 ^ 31 -> in_screen (cn_row g) (cn_col g) ->
  (forall i, 0 <= i < len -> s i = s' i) -> 
  option_map (fun x => cn_serial (snd x)) (cons_write s len g) = option_map (fun x => cn_serial (snd x)) (cons_write s' len g)).
Proof.
  intros H. specialize (H (fun i => if i =? 0 then 255 else 65) (fun i => if i =? 0 then 255 else 66) 1 fresh ltac:(lia)).
  assert (C : Some [65] = Some [66]); [|discriminate].
  refine (H _ _); [split; vm_compute; split; (discriminate || reflexivity)|].
  intros i Hi. assert (i = 0) as -> by lia. reflexivity.
Qed.
Print Assumptions C87_text_refuted.

(** The system call reports an error (EINVAL) for texts that have been written: those that show no character, e.g. the
    one that clears the screen; and, on SPARC and PowerPC, all. *)
Theorem C87_result_refuted : ~ (forall l s g t cs r g', text_at s 0 l -> Forall (fun b => 0 <= b < 256) l -> commands l = Some cs ->
  Z.of_nat (length l) < 2 ^ 31 -> stands g t -> cons_write s (Z.of_nat (length l)) g = Some (r, g') -> conswrite_ret r = 0).
Proof.
  intros H. set (t := mkTerm 0 0 7 (fun _ _ => (0, 7))). set (s := fun i : Z => if i =? 0 then 255 else 1).
  assert (S0 : stands fresh t) by exact (proj1 (C87_init (mkCons 0 0 0 (fun _ => 0) []))).
  assert (T0 : text_at s 0 [255; 1]).
  { intros k Hk. cbn [length] in Hk. destruct k as [|[|k]]; [reflexivity|reflexivity|lia]. }
  assert (B0 : Forall (fun b => 0 <= b < 256) [255; 1]) by (repeat constructor; lia).
  destruct (C87_write [255; 1] s fresh t [Clear] T0 B0 eq_refl eq_refl S0) as (g' & A & _).
  pose proof (H [255; 1] s fresh t [Clear] _ g' T0 B0 eq_refl eq_refl S0 A) as C. discriminate.
Qed.
Print Assumptions C87_result_refuted.
Theorem C87_serial_result_refuted : forall s len sent, conswrite_ret (fst (serial_write s len sent)) <> 0.
Proof. intros s len sent. vm_compute. discriminate. Qed.
Print Assumptions C87_serial_result_refuted.

(** A text that moves to the last cell, changes the colour and writes three characters: the screen scrolls, the first is in the
    last cell of the line before the last, the others begin the last line. *)
Example C87_example : let l := [255; 4; 24; 255; 3; 79; 255; 2; 0x1e; 65; 66; 67] in
  exists cs, commands l = Some cs /\ shown cs = [65; 66; 67] /\
  let t := fold_left obey cs (mkTerm 0 0 7 (fun _ _ => (0, 7))) in
  stands fresh (mkTerm 0 0 7 (fun _ _ => (0, 7))) /\
  t_row t = 24 /\ t_col t = 2 /\ t_cell t 23 79 = (65, 0x1e) /\ t_cell t 24 0 = (66, 0x1e) /\ t_cell t 24 1 = (67, 0x1e) /\ t_cell t 24 2 = (0, 0x1e).
Proof.
  intros l. eexists. split; [reflexivity|]. split; [reflexivity|]. intros t. split; [apply C87_init|]. repeat split; reflexivity.
Qed.

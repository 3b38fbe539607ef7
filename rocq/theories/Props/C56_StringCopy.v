(** C56: strcpy, strncpy and streq.

    strcpy copies the string with its NUL and changes nothing else. strncpy copies no more than the given number of
    bytes, but does not fill the rest with zeros as the C standard demands. streq compares no further than the
    shorter string, and no further than its length modulo 256. *)
From Verif Require Import Model.Base Model.Libc Spec.LibcSpec Proof.Tac Proof.MemFnProof Proof.StrCopyProof.

Theorem C56_strcpy : forall m dest str l fuel, cstring m str l -> fits dest (Z.of_nat (length l) + 1) ->
  disjoint dest str (Z.of_nat (length l) + 1) -> (length l < fuel)%nat ->
  exists m', strcpy fuel m dest str = Some m' /\ copied m m' dest str (Z.of_nat (length l) + 1).
Proof.
  intros m dest str l fuel (F & _ & Hz & B) Fd D Hf. unfold fits in *.
  pose proof (strcpy_spec l m dest str 0 fuel) as S. rewrite !Z.add_0_r in S. apply S; auto; lia.
Qed.
Print Assumptions C56_strcpy.

Theorem C56_strncpy_partial : forall m dest str l size, cstring m str l -> fits dest (Z.of_nat (length l) + 1) ->
  disjoint dest str (Z.of_nat (length l) + 1) -> 0 <= size ->
  copied m (strncpy m dest str size) dest str (Z.min size (Z.of_nat (length l) + 1)).
Proof.
  intros m dest str l size (F & _ & Hz & B) Fd D Hf. unfold fits in *.
  pose proof (strncpy_spec (Z.to_nat size) l m dest str 0) as S. rewrite !Z.add_0_r, Z2Nat.id in S by assumption. apply S; auto; lia.
Qed.
Print Assumptions C56_strncpy_partial.

(** The C standard wants zeros behind the string, up to the given size. *)
Theorem C56_strncpy_padding_refuted : ~ (forall m dest str l size, cstring m str l -> fits dest size ->
  disjoint dest str (Z.max size (Z.of_nat (length l) + 1)) ->
  forall k, Z.of_nat (length l) <= k < size -> strncpy m dest str size (dest + k) = 0).
Proof.
  intros H. set (m := fun a => if a =? 101 then 0 else 7).
  assert (X : strncpy m 200 100 3 (200 + 2) = 0); [|vm_compute in X; discriminate X].
  apply (H m 200 100 [7]).
  - unfold cstring, fits, bytes_at, is_byte. cbn [length app]. split; [lia|]. split; [repeat constructor; lia|].
    split; [intros [C|[]]; discriminate|]. intros [|[|k]] Hk; [reflexivity|reflexivity|lia].
  - unfold fits. lia.
  - intros x. cbn [length]. lia.
  - cbn [length]. lia.
Qed.
Print Assumptions C56_strncpy_padding_refuted.

(** streq says "equal" of "a" and "ab". *)
Theorem C56_streq_refuted : ~ (forall m s1 s2 l1 l2 fuel, cstring m s1 l1 -> cstring m s2 l2 -> streq fuel m s1 s2 = Some 1 -> l1 = l2).
Proof.
  intros H. set (m := fun a => if a =? 100 then 97 else if a =? 200 then 97 else if a =? 201 then 98 else 0).
  assert (C1 : cstring m 100 [97]).
  { unfold cstring, fits, bytes_at, is_byte. cbn [length app]. split; [lia|]. split; [repeat constructor; lia|].
    split; [intros [C|[]]; discriminate|]. intros [|[|k]] Hk; [reflexivity|reflexivity|lia]. }
  assert (C2 : cstring m 200 [97; 98]).
  { unfold cstring, fits, bytes_at, is_byte. cbn [length app]. split; [lia|]. split; [repeat constructor; lia|].
    split; [intros [C|[C|[]]]; discriminate|]. intros [|[|[|k]]] Hk; [reflexivity|reflexivity|reflexivity|lia]. }
  specialize (H m 100 200 [97] [97; 98] 9%nat C1 C2 eq_refl). discriminate H.
Qed.
Print Assumptions C56_streq_refuted.

(** What holds: equal strings are recognised. *)
Theorem C56_streq_partial : forall m s1 s2 l fuel, cstring m s1 l -> cstring m s2 l -> (length l < fuel)%nat -> streq fuel m s1 s2 = Some 1.
Proof.
  intros m s1 s2 l fuel (F1 & _ & Z1 & B1) (F2 & _ & Z2 & B2) Hf. unfold streq, strlen. unfold fits in *.
  rewrite !(strlen_spec l) by (assumption || (unfold fits; lia)).
  f_equal. rewrite <- (u32_id s1), <- (u32_id s2) by lia. apply streq_loop_same. intros k Hk.
  assert (U : 0 <= k < Z.of_nat (length l)).
  { rewrite Z2Nat.id in Hk by (unfold u8; apply Z.mod_pos_bound; lia). rewrite Z.ltb_irrefl in Hk.
    assert (u8 (0 + Z.of_nat (length l)) <= 0 + Z.of_nat (length l)) by (unfold u8; apply Z.mod_le; lia). lia. }
  rewrite !u32_id by lia. specialize (B1 (Z.to_nat k)). specialize (B2 (Z.to_nat k)). rewrite app_length in B1, B2.
  rewrite Z2Nat.id in B1, B2 by lia. rewrite B1, B2 by lia. reflexivity.
Qed.
Print Assumptions C56_streq_partial.

(** "hi" copied from 100 to 200, two bytes of it, and compared with the copy. *)
Example C56_demo : let m := fun a => if a =? 100 then 104 else if a =? 101 then 105 else if a =? 102 then 0 else 9 in
  match strcpy 9 m 200 100 with
  | Some m' => map m' [199; 200; 201; 202; 203] = [9; 104; 105; 0; 9] /\ streq 9 m' 100 200 = Some 1
  | None => False
  end /\ map (strncpy m 200 100 2) [200; 201; 202] = [104; 105; 9].
Proof. vm_compute. repeat split; reflexivity. Qed.

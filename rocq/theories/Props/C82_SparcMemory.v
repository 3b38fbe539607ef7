(** C82: On SPARC a partition reaches the 256 KB at its own address and nothing else. *)
From Verif Require Import Model.Base Model.Sparc Spec.SparcMmu Proof.PpcProof Proof.SparcProof.

(** The address and the size of a partition. *)
Definition base (sizes : list Z) (heap p : Z) : Z := nth (Z.to_nat p) (sparc_bases sizes heap) 0.
Definition size (sizes : list Z) (p : Z) : Z := nth (Z.to_nat p) sizes 0.

Lemma base_facts : forall T sizes heap p, placed T (Z.of_nat (length sizes)) heap -> sparc_fits sizes heap ->
  0 <= p < Z.of_nat (length sizes) ->
  0 <= size sizes p /\ base sizes heap p mod PAGE = 0 /\ 0 <= heap < base sizes heap p /\
  base sizes heap p + size sizes p + PAGE <= 2 ^ 32.
Proof.
  intros T sizes heap p (P1 & _ & _ & _ & P2 & P3 & P4 & _) F Hp.
  assert (Hh : 0 <= heap) by lia. destruct (bases_ok sizes heap Hh F) as [_ Q].
  assert (L : (Z.to_nat p < length sizes)%nat) by lia.
  destruct (Q _ L) as (Q1 & Q2 & Q3 & _). unfold base, size.
  split; [|split; [exact Q1|split; [lia|exact Q3]]].
  destruct F as [F _]. apply (proj1 (Forall_forall _ _) F). now apply nth_In.
Qed.

(** [_partial]: the table of contexts is on a multiple of 64. *)
Theorem C82_exact_partial : forall T sizes heap m p k va pa,
  placed T (Z.of_nat (length sizes)) heap -> sparc_fits sizes heap -> a_ctx T mod 64 = 0 ->
  0 <= p < Z.of_nat (length sizes) ->
  (sparc_reaches (sparc_boot T sizes heap m) (ctpr T) p k va pa <->
   size sizes p <= 2 ^ 18 /\ 0 <= va < 2 ^ 18 /\ pa = base sizes heap p + va).
Proof.
  intros T sizes heap m p k va pa P F A Hp.
  pose proof (boot_ok T sizes heap m P F) as B.
  assert (Hb : forall q, 0 <= q < Z.of_nat (length sizes) -> 0 <= base_of sizes heap q /\ base_of sizes heap q mod PAGE = 0).
  { intros q Hq. destruct (base_facts T sizes heap q P F Hq) as (_ & X & Y & _). unfold base in *. unfold base_of. lia. }
  pose proof (walk_ok _ _ _ _ _ _ p va P A B Hb Hp) as W.
  destruct (pte_walk _ (proj1 (Hb p Hp)) (proj2 (Hb p Hp))) as (_ & W2 & W3).
  change (base_of sizes heap) with (base sizes heap) in *. change (size_of sizes) with (size sizes) in *.
  change (2 ^ 18) with PAGE in *. split.
  - intros [V (w & n & E & U & ->)]. rewrite (W V) in E.
    destruct (va / 2 ^ 24 =? 64).
    + injection E as <- <-. exfalso. destruct k; discriminate U.
    + destruct (Z.ltb_spec va PAGE); [|discriminate E].
      destruct (Z.leb_spec (size sizes p) PAGE); [|discriminate E]. cbn [andb] in E. injection E as <- <-.
      split; [assumption|]. split; [lia|]. change (2 ^ 18) with PAGE. rewrite W3.
      rewrite Z.mod_small by lia. reflexivity.
  - intros (S1 & S2 & ->). assert (V : 0 <= va < 2 ^ 32) by (change PAGE with 262144 in S2; lia).
    split; [exact V|]. exists (pte_word (base sizes heap p)), 18.
    rewrite (W V). assert (Z24 : va / 2 ^ 24 = 0) by (apply Z.div_small; change PAGE with 262144 in S2; lia).
    rewrite Z24. cbn [Z.eqb]. assert (va <? PAGE = true) as -> by (apply Z.ltb_lt; lia).
    assert (size sizes p <=? PAGE = true) as -> by (apply Z.leb_le; lia).
    split; [reflexivity|]. rewrite W2. split; [now destruct k|]. change (2 ^ 18) with PAGE. rewrite W3.
    now rewrite Z.mod_small.
Qed.
Print Assumptions C82_exact_partial.

(** No byte is reached by two partitions, and none that the kernel has below the end of its data. *)
Theorem C82_isolation_partial : forall T sizes heap m p q k k' va va' pa,
  placed T (Z.of_nat (length sizes)) heap -> sparc_fits sizes heap -> a_ctx T mod 64 = 0 ->
  0 <= p < Z.of_nat (length sizes) -> 0 <= q < Z.of_nat (length sizes) ->
  sparc_reaches (sparc_boot T sizes heap m) (ctpr T) p k va pa ->
  heap < pa < 2 ^ 32 /\
  (sparc_reaches (sparc_boot T sizes heap m) (ctpr T) q k' va' pa -> p = q).
Proof.
  intros T sizes heap m p q k k' va va' pa P F A Hp Hq R.
  apply (C82_exact_partial T sizes heap m p k va pa P F A Hp) in R. destruct R as (R1 & R2 & ->).
  destruct (base_facts T sizes heap p P F Hp) as (B1 & B2 & B3 & B4). change (2 ^ 18) with PAGE in *.
  split; [lia|]. intros R.
  apply (C82_exact_partial T sizes heap m q k' va' _ P F A Hq) in R. destruct R as (R3 & R4 & R5).
  change (2 ^ 18) with PAGE in *.
  destruct (bases_ok sizes heap ltac:(lia) F) as [_ Q]. unfold base in *.
  destruct (Z.lt_trichotomy p q) as [L | [L | L]]; [|exact L|]; exfalso.
  - destruct (Q (Z.to_nat p) ltac:(lia)) as (_ & _ & _ & D). destruct (D (Z.to_nat q) ltac:(lia)). lia.
  - destruct (Q (Z.to_nat q) ltac:(lia)) as (_ & _ & _ & D). destruct (D (Z.to_nat p) ltac:(lia)). lia.
Qed.
Print Assumptions C82_isolation_partial.

(** A partition of at most 256 KB reaches all of its memory, in every way. *)
Theorem C82_service_partial : forall T sizes heap m p k va,
  placed T (Z.of_nat (length sizes)) heap -> sparc_fits sizes heap -> a_ctx T mod 64 = 0 ->
  0 <= p < Z.of_nat (length sizes) -> size sizes p <= 2 ^ 18 -> 0 <= va < size sizes p ->
  sparc_reaches (sparc_boot T sizes heap m) (ctpr T) p k va (base sizes heap p + va).
Proof.
  intros T sizes heap m p k va P F A Hp S0 V. apply C82_exact_partial; auto.
  split; [exact S0|]. split; [lia|reflexivity].
Qed.
Print Assumptions C82_service_partial.

(** The alignment that the code asks for is enough for 16, 32, ... partitions. *)
Theorem C82_aligned : forall T nb, 0 < nb -> nb mod 16 = 0 -> ctx_aligned T nb -> a_ctx T mod 64 = 0.
Proof.
  intros T nb Hn H16 H. unfold ctx_aligned in H.
  apply Z.mod_divide in H; [|lia]. apply Z.mod_divide in H16; [|lia]. apply Z.mod_divide; [lia|].
  destruct H16 as [c Hc], H as [d Hd]. exists (d * c). rewrite Hd, Hc. ring.
Qed.
Print Assumptions C82_aligned.

(** It is not for fewer: two partitions, whose table of contexts is on a multiple of 8; partition 0 reaches nothing of
    its memory, and the word that the hardware takes for its entry is not part of the table. *)
Definition odd : tables := mkTables 0x40010008 0x40010400 0x40011000.
Definition zero : Z -> Z := fun _ => 0.
Theorem C82_service_refuted : exists T sizes heap m p,
  placed T (Z.of_nat (length sizes)) heap /\ sparc_fits sizes heap /\ ctx_aligned T (Z.of_nat (length sizes)) /\
  0 <= p < Z.of_nat (length sizes) /\ 4096 <= size sizes p <= 2 ^ 18 /\
  forall k va pa, ~ sparc_reaches (sparc_boot T sizes heap m) (ctpr T) p k va pa.
Proof.
  exists odd, [4096; 8192], 0x40012000, zero, 0.
  split; [unfold placed; cbn; lia|]. split; [split; [repeat constructor; lia|cbn; lia]|].
  split; [reflexivity|]. split; [cbn; lia|]. split; [cbn; lia|].
  intros k va pa [V (w & n & E & _)]. unfold walk in E.
  change (table_of (ctpr odd) + 4 * 0) with 0x40010000 in E.
  assert (X : sparc_boot odd [4096; 8192] 0x40012000 zero 0x40010000 = 0) by (vm_compute; reflexivity).
  rewrite X in E. discriminate E.
Qed.
Print Assumptions C82_service_refuted.

(** And if that word is a page table entry, partition 0 writes to the kernel. *)
Definition stray : Z -> Z := fun a => if a =? 0x40010000 then 0x4000000 + 14 else 0.
Theorem C82_isolation_refuted : exists T sizes heap m p va pa,
  placed T (Z.of_nat (length sizes)) heap /\ sparc_fits sizes heap /\ ctx_aligned T (Z.of_nat (length sizes)) /\
  0 <= p < Z.of_nat (length sizes) /\
  sparc_reaches (sparc_boot T sizes heap m) (ctpr T) p Write va pa /\ 0x40000000 <= pa < heap.
Proof.
  exists odd, [4096; 8192], 0x40012000, stray, 0, 0x40000100, 0x40000100.
  split; [unfold placed; cbn; lia|]. split; [split; [repeat constructor; lia|cbn; lia]|].
  split; [reflexivity|]. split; [cbn; lia|]. split; [|lia].
  split; [lia|]. exists (0x4000000 + 14), 32.
  split; [vm_compute; reflexivity|]. split; reflexivity.
Qed.
Print Assumptions C82_isolation_refuted.

(** Boot goes on when pok_create_space refuses a partition for its size: it is run without any memory. *)
Theorem C82_refused : forall T pid addr sz m,
  (2 ^ 18 < sz -> create_space T pid addr sz m = (m, ERR_SIZE)) /\
  (sz <= 2 ^ 18 -> addr mod 2 ^ 18 <> 0 -> create_space T pid addr sz m = (m, 11)).
Proof.
  intros T pid addr sz m. unfold create_space, PARTITION_MAX. change (2 ^ 18) with PAGE. split.
  - intros H. destruct (Z.ltb_spec PAGE sz); [reflexivity|lia].
  - intros H N. destruct (Z.ltb_spec PAGE sz); [lia|]. change (PAGE - 1) with (Z.ones 18). rewrite Z.land_ones by lia.
    change (2 ^ 18) with PAGE. destruct (Z.eqb_spec (addr mod PAGE) 0); [contradiction|reflexivity].
Qed.
Print Assumptions C82_refused.
Theorem C82_oversize_refuted : exists T sizes heap m p,
  placed T (Z.of_nat (length sizes)) heap /\ sparc_fits sizes heap /\ a_ctx T mod 64 = 0 /\
  0 <= p < Z.of_nat (length sizes) /\
  forall k va pa, ~ sparc_reaches (sparc_boot T sizes heap m) (ctpr T) p k va pa.
Proof.
  exists (mkTables 0x40010000 0x40010400 0x40011000), [4096; 262145], 0x40012000, zero, 1.
  assert (P : placed (mkTables 0x40010000 0x40010400 0x40011000) (Z.of_nat (length [4096; 262145])) 0x40012000)
    by (unfold placed; cbn; lia).
  assert (F : sparc_fits [4096; 262145] 0x40012000) by (split; [repeat constructor; lia|cbn; lia]).
  assert (Hp : 0 <= 1 < Z.of_nat (length [4096; 262145])) by (cbn; lia).
  split; [exact P|]. split; [exact F|]. split; [reflexivity|]. split; [exact Hp|].
  intros k va pa R.
  apply (C82_exact_partial _ _ _ _ _ _ _ _ P F eq_refl Hp) in R. destruct R as [R _].
  change (262145 <= 262144) in R. lia.
Qed.
Print Assumptions C82_oversize_refuted.

(** Hypotheses can be met: three partitions, the second one of exactly one page. *)
Definition three : list Z := [4096; 262144; 8192].
Definition good : tables := mkTables 0x40010000 0x40010400 0x40011000.
Example C82_example :
  placed good 3 0x40012000 /\ sparc_fits three 0x40012000 /\ a_ctx good mod 64 = 0 /\
  sparc_bases three 0x40012000 = [0x40040000; 0x40080000; 0x40100000] /\
  walk (sparc_boot good three 0x40012000 zero) (ctpr good) 1 0x3fffc = Some (0x400808e, 18) /\
  walk (sparc_boot good three 0x40012000 zero) (ctpr good) 1 0x40000 = None.
Proof.
  split; [unfold placed; cbn; lia|]. split; [split; [repeat constructor; lia|cbn; lia]|].
  split; [reflexivity|]. split; [reflexivity|]. split; vm_compute; reflexivity.
Qed.

(** C97: discovery and start of the processors of the x86 port. *)
From Verif Require Import Model.Base Spec.MpTable Model.MpBoot Proof.Tac Proof.MpProof.
From Verif Require Spec.X86Gates Model.X86Idt Props.C85_Gates.
From Coq Require Import FinFun.

(** With the first signature in the ROM and none in the extended area, the kernel goes on if and only if the table has as many usable processors as the configuration and no other processor;
    it takes the address of the local APICs from the table and changes no memory but the entries. *)
Theorem C97_discover : forall NB M a t lapic es, (forall b, 0 <= M b < 256) ->
  (ebda M = 0 \/ forall i, 0 <= i < 1021 -> ~ bytes_at M (ebda M + i) mp_sig) ->
  0xf0000 <= a < 0xffffc -> pointer M a t 0 -> (forall b, 0xf0000 <= b < a -> ~ bytes_at M b mp_sig) ->
  0 <= t < 2 ^ 32 -> 0 <= lapic < 2 ^ 32 -> Z.of_nat (length es) < 65536 -> table M t lapic es -> 0 < NB < 256 ->
  (count usable es = NB /\ count is_cpu es = NB ->
     exists M', discover NB M = Found M' lapic NB /\ (forall b, b < t + 44 \/ t + 44 + Z.of_nat (length (concat (map coded es))) <= b -> M' b = M b)) /\
  (count usable es <> NB \/ count is_cpu es <> NB -> discover NB M = Stop).
Proof.
  intros NB M a t lapic es O N R P F Ht Hl Hn T HN. assert (I : in_rom M a) by (split; [exact R|]; split; [exact (p_sig _ _ _ _ P)|exact F]).
  pose proof (discover_ok NB M a t lapic es O N I (p_table _ _ _ _ P) Ht Hl Hn T HN) as D. pose proof (usable_le es) as U. split.
  - intros (A & B). rewrite A, B, Z.leb_refl, Z.eqb_refl in D. cbn [andb] in D. destruct D as (M' & E & X). exists M'. split; [exact E|]. intros b Hb. apply X. unfold size. lia.
  - intros A. destruct (Z.leb_spec (count is_cpu es) NB) as [B|B]; cbn [andb] in D; [|exact D]. destruct (Z.eqb_spec (count usable es) NB) as [C|C]; [|exact D]. exfalso. lia.
Qed.
Print Assumptions C97_discover.

(** Without a signature in either place the kernel takes the machine as one processor. *)
Theorem C97_alone : forall NB M, (forall b, 0 <= M b < 256) -> (ebda M = 0 \/ forall i, 0 <= i < 1021 -> ~ bytes_at M (ebda M + i) mp_sig) ->
  (forall b, 0xf0000 <= b < 0xffffc -> ~ bytes_at M b mp_sig) -> discover NB M = Alone.
Proof.
  intros NB M O N F. unfold discover. rewrite (no_ebda_0 M O N). cbn [Z.eqb]. unfold search_bios. rewrite first_none; [reflexivity|]. intros b Hb. rewrite Z2Nat.id in Hb by lia. apply F. lia.
Qed.
Print Assumptions C97_alone.

(** Whatever the order in which the other processors come, the one that boots is number 0, the others get the numbers from 1 on, no two the same, and no spin lock is left counted. *)
Theorem C97_numbers : forall NB self order, 0 < NB < 256 -> (forall i, In i (self :: order) -> 0 <= i < NB) -> NoDup (self :: order) -> Z.of_nat (length (self :: order)) = NB ->
  exists b, start NB self order = Some b /\ proc_id NB b self = 0 /\ (forall j, (j < length order)%nat -> proc_id NB b (nth j order 0) = Z.of_nat j + 1) /\
    (forall i j, In i (self :: order) -> In j (self :: order) -> proc_id NB b i = proc_id NB b j -> i = j) /\ (forall i, spin b i = 0).
Proof.
  intros NB self order HN R D L. destruct (start_ok NB self order HN R D ltac:(cbn [length] in L; lia)) as (b & E & Sp & X0 & X). exists b.
  assert (Y : forall i, proc_id NB b i = idx b i) by (intros i; unfold proc_id; replace (NB =? 0) with false by (symmetry; apply Z.eqb_neq; lia); reflexivity).
  split; [exact E|]. rewrite Y. split; [exact X0|]. split; [intros j Hj; rewrite Y, X by exact Hj; lia|]. split; [|exact Sp].
  assert (W : forall i, In i (self :: order) -> i = nth (Z.to_nat (idx b i)) (self :: order) 0).
  { intros i [<- |Hi]; [rewrite X0; reflexivity|]. destruct (In_nth order i 0 Hi) as (j & Hj & <-). rewrite X by exact Hj. replace (Z.to_nat (1 + Z.of_nat j)) with (S j) by lia. reflexivity. }
  intros i j Hi Hj H. rewrite !Y in H. rewrite (W i Hi), (W j Hj), H. reflexivity.
Qed.
Print Assumptions C97_numbers.

(** When the processor that boots has APIC number 0, every processor has 0x4000 bytes of pok_stack of its own. *)
Theorem C97_stacks : forall NB base i j, 0 < i < NB -> 0 < j < NB -> i <> j ->
  base <= stack_boot base - 0x4000 /\ base <= stack_ap base i - 0x4000 /\ stack_ap base i <= base + NB * 0x4000 /\
  stack_boot base <= stack_ap base i - 0x4000 /\ (stack_ap base i <= stack_ap base j - 0x4000 \/ stack_ap base j <= stack_ap base i - 0x4000).
Proof. intros NB base i j Hi Hj N. unfold stack_boot, stack_ap. lia. Qed.
Print Assumptions C97_stacks.

(** What pok_send_ipi makes the local APIC send. *)
Theorem C97_ipi : forall group dest vector, 0 <= group < 4 -> 0 <= dest < 256 -> 0 <= vector < 256 ->
  command (fst (send_ipi group dest vector)) (snd (send_ipi group dest vector)) =
  {| m_vector := vector; m_kind := Fixed; m_assert := true;
     m_whom := if group =? 0 then One dest else if group =? 1 then Self else if group =? 2 then All else Others |}.
Proof.
  intros g d v Hg Hd Hv. unfold send_ipi, command. cbn [fst snd]. unfold u32. rewrite !Z.shiftl_mul_pow2 by lia. rewrite !Z.mod_small by lia.
  assert (A : bits (0x4000 + v + g * 2 ^ 18) 0 8 = v) by (unfold bits; lia).
  assert (B : bits (0x4000 + v + g * 2 ^ 18) 8 3 = 0) by (unfold bits; lia).
  assert (C : bits (0x4000 + v + g * 2 ^ 18) 14 1 = 1) by (unfold bits; lia).
  assert (D : bits (0x4000 + v + g * 2 ^ 18) 18 2 = g) by (unfold bits; lia).
  assert (E : bits (d * 2 ^ 24) 24 8 = d) by (unfold bits; lia).
  rewrite A, B, C, D, E. reflexivity.
Qed.
Print Assumptions C97_ipi.

(** A request to schedule all processors, or the threads on all of them, reaches every processor but the sender. *)
Theorem C97_all : forall self ids i, In i ids -> i <> self ->
  In i (gets (m_whom (command (fst send_global_schedule) (snd send_global_schedule))) self ids) /\ In i (gets (m_whom (command (fst send_schedule_others) (snd send_schedule_others))) self ids) /\
  ~ In self (gets (m_whom (command (fst send_global_schedule) (snd send_global_schedule))) self ids).
Proof.
  intros self ids i Hi N. unfold send_global_schedule, send_schedule_others. rewrite !C97_ipi by lia. cbn [m_whom Z.eqb Pos.eqb]. unfold gets. rewrite !filter_In.
  assert (X : negb (i =? self) = true) by (apply negb_true_iff, Z.eqb_neq; exact N). rewrite Z.eqb_refl. repeat split; try assumption. intros (_ & C). discriminate.
Qed.
Print Assumptions C97_all.

(** The three messages lead every processor they reach, at whatever privilege level, to the handler meant (through the table of C85). *)
Theorem C97_handlers : forall addr idt code level dest, (forall h, 0 <= addr h < 2 ^ 32) -> C85_Gates.kernel_code code -> 0 <= level <= 3 -> 0 <= dest < 256 ->
  let reaches (w : Z * Z) := option_map fst (X86Gates.vector (X86Idt.boot addr true idt) X86Idt.idt_limit code level (m_vector (command (fst w) (snd w))) false) in
  reaches send_global_schedule = Some (addr X86Idt.global_sched_thread_gate) /\ reaches (send_schedule dest) = Some (addr X86Idt.sched_thread_gate) /\
  reaches send_schedule_others = Some (addr X86Idt.sched_thread_gate) /\ m_kind (command (fst (send_schedule dest)) (snd (send_schedule dest))) = Fixed.
Proof.
  intros addr idt code level dest A K Hl Hd reaches. unfold reaches, send_global_schedule, send_schedule, send_schedule_others. rewrite !C97_ipi by lia. cbn [m_vector m_kind].
  rewrite !(C85_Gates.C85_boot addr true idt code level) by (assumption || lia). repeat split.
Qed.
Print Assumptions C97_handlers.

(** A processor alone is number 0, whatever its APIC number and the table of numbers. *)
Theorem C97_single : forall b id, proc_id 0 b id = 0.
Proof. reflexivity. Qed.
Print Assumptions C97_single.

(** pok_start_ap resets all other processors and starts them twice at the page where the code has been copied. *)
Theorem C97_startup : forall hi, map (command hi) start_ap =
  [ {| m_vector := 255; m_kind := Init; m_assert := true; m_whom := Others |}; {| m_vector := 255; m_kind := Init; m_assert := false; m_whom := Others |};
    {| m_vector := real_base / 4096; m_kind := Startup; m_assert := true; m_whom := Others |}; {| m_vector := real_base / 4096; m_kind := Startup; m_assert := true; m_whom := Others |} ].
Proof. intros hi. reflexivity. Qed.
Print Assumptions C97_startup.

(** A request to schedule a thread of processor [n] reaches that processor if the processors came in the order of their APIC numbers. *)
Theorem C97_schedule_in_order : forall NB n, 0 < NB < 256 -> 0 <= n < NB ->
  let order := map Z.of_nat (seq 1 (Z.to_nat NB - 1)) in
  exists b, start NB 0 order = Some b /\
    forall self i, In i (gets (m_whom (command (fst (send_schedule n)) (snd (send_schedule n)))) self (0 :: order)) <-> In i (0 :: order) /\ proc_id NB b i = n.
Proof.
  intros NB n HN Hn order. assert (E0 : 0 :: order = map Z.of_nat (seq 0 (Z.to_nat NB))).
  { unfold order. replace (Z.to_nat NB) with (S (Z.to_nat NB - 1)) at 2 by lia. reflexivity. }
  destruct (C97_numbers NB 0 order HN) as (b & E & P0 & P & _ & _).
  - intros i Hi. rewrite E0, in_map_iff in Hi. destruct Hi as (j & <- & Hj). apply in_seq in Hj. lia.
  - rewrite E0. apply Injective_map_NoDup; [intros x y; lia|apply seq_NoDup].
  - rewrite E0, map_length, seq_length. lia.
  - exists b. split; [exact E|]. intros self i. unfold send_schedule. rewrite C97_ipi by lia. cbn [m_whom Z.eqb]. unfold gets. rewrite filter_In, Z.eqb_eq.
    assert (Q : forall i, In i (0 :: order) -> proc_id NB b i = i).
    { intros x [<- |Hx]; [exact P0|]. destruct (In_nth order x 0 Hx) as (j & Hj & Ej). rewrite <- Ej. rewrite P by exact Hj. unfold order in *. rewrite map_length, seq_length in Hj.
      change 0 with (Z.of_nat 0) at 1. rewrite map_nth, seq_nth by exact Hj. lia. }
    split; intros (A & B); (split; [exact A|]); specialize (Q i A); lia.
Qed.
Print Assumptions C97_schedule_in_order.

(** ** Refutations *)
Definition load (a : Z) (l : list Z) (M : Z -> Z) : Z -> Z := fun b => if (a <=? b) && (b <? a + Z.of_nat (length l)) then nth (Z.to_nat (b - a)) l 0 else M b.
Definition checkb (M : Z -> Z) (a : Z) (l : list Z) : bool := forallb (fun i => M (a + Z.of_nat i) =? nth i l 0) (seq 0 (length l)).
Lemma checkb_ok : forall M a l, checkb M a l = true -> bytes_at M a l.
Proof. intros M a l H i Hi. unfold checkb in H. rewrite forallb_forall in H. apply Z.eqb_eq, H. apply in_seq. lia. Qed.
(** Two processors and an I/O APIC; a table at 0x9000; a pointer to it at [a]. *)
Definition cpus : list entry := [Cpu 0 20 3 (repeat 0 16); Cpu 1 20 1 (repeat 0 16)].
Definition parts : list entry := cpus ++ [Bus [0; 0x49; 0x53; 0x41; 0x20; 0x20; 0x20]; IoApic 2 17 1 [0; 0; 0xc0; 0xfe]; LocalInt (repeat 0 7)].
Definition with_table (es : list entry) (M : Z -> Z) : Z -> Z := load 0x9000 (repeat 0 34 ++ le2 (Z.of_nat (length es)) ++ le4 0xfee00000 ++ repeat 0 4 ++ concat (map coded es)) M.
Definition float (t kind : Z) : list Z := let l := mp_sig ++ le4 t ++ [1; 4] in let r := [kind; 0; 0; 0; 0] in l ++ [(- (sum l + sum r)) mod 256] ++ r.
Definition blank : Z -> Z := fun _ => 0.
Definition rom : Z -> Z := load 0xf0010 (float 0x9000 0) (with_table parts blank).
Definition far : Z -> Z := load 0x40e [0xc0; 0x9f] (load 0x9fc10 (float 0x9000 0) (with_table parts blank)).
Definition near : Z -> Z := load 0x40e [0xc0; 0x9f] (load 0x9fc00 (float 0x9000 0) (with_table parts blank)).
Definition preset : Z -> Z := load 0xf0010 (float 0 5) blank.
Definition stray : Z -> Z := load 0xf0001 mp_sig rom.
Definition spare : Z -> Z := load 0xf0010 (float 0x9000 0) (with_table (parts ++ [Cpu 2 20 0 (repeat 0 16)]) blank).
Lemma parts_well : Forall well parts.
Proof. repeat constructor. Qed.
Ltac table_ok := split; [apply checkb_ok; vm_compute; reflexivity|apply checkb_ok; vm_compute; reflexivity|apply checkb_ok; vm_compute; reflexivity|repeat constructor].
Ltac pointer_ok := split; [reflexivity|apply checkb_ok; vm_compute; reflexivity|apply checkb_ok; vm_compute; reflexivity|reflexivity|vm_compute; reflexivity].

(** A structure in the extended area is not found: the search gives its distance from the start of the area, which is taken for an address, and the kernel stops. *)
Theorem C97_ebda_refuted : exists M a t lapic es NB, pointer M a t 0 /\ ebda M < a < ebda M + 1021 /\ table M t lapic es /\ count usable es = NB /\ count is_cpu es = NB /\ search_ebda M <> a /\ discover NB M = Stop.
Proof. exists far, 0x9fc10, 0x9000, 0xfee00000, parts, 2. split; [pointer_ok|]. split; [vm_compute; split; reflexivity|]. split; [table_ok|]. repeat split; try (vm_compute; reflexivity). vm_compute. discriminate. Qed.
Print Assumptions C97_ebda_refuted.

(** At the very start of the area it counts as absent: the machine is taken as one processor. *)
Theorem C97_ebda_start_refuted : exists M t lapic es NB, pointer M (ebda M) t 0 /\ 0 < ebda M /\ table M t lapic es /\ count usable es = NB /\ count is_cpu es = NB /\ 1 < NB /\ discover NB M = Alone.
Proof.
  exists near, 0x9000, 0xfee00000, parts, 2. assert (E : ebda near = 0x9fc00) by (vm_compute; reflexivity). rewrite E. split; [pointer_ok|]. split; [reflexivity|]. split; [table_ok|].
  split; [vm_compute; reflexivity|]. split; [vm_compute; reflexivity|]. split; [reflexivity|].
  unfold discover. assert (X : search_ebda near = 0) by (vm_compute; reflexivity). rewrite X. cbn [Z.eqb]. unfold search_bios. rewrite first_none; [reflexivity|].
  intros b Hb H. rewrite Z2Nat.id in Hb by lia. specialize (H 0%nat ltac:(cbn; lia)). change (nth 0 mp_sig 0) with 0x5f in H. change (Z.of_nat 0) with 0 in H.
  unfold near, with_table, load, blank in H.
  repeat match type of H with context [(?x <=? ?y) && (?y <? ?z)] => replace ((x <=? y) && (y <? z)) with false in H by (symmetry; apply andb_false_iff; right; apply Z.ltb_ge; match goal with |- ?w <= _ => let v := eval vm_compute in w in change w with v end; lia) end.
  discriminate.
Qed.
Print Assumptions C97_ebda_start_refuted.

(** A machine that names one of the default configurations of the specification, which has no table, makes the kernel read a table at address 0. *)
Theorem C97_default_refuted : exists M a, pointer M a 0 5 /\ 0xf0000 <= a < 0xffffc /\ ebda M = 0 /\ discover 2 M = Stop.
Proof. exists preset, 0xf0010. split; [pointer_ok|]. split; [lia|]. split; vm_compute; reflexivity. Qed.
Print Assumptions C97_default_refuted.

(** Neither the place nor the sum of a signature is looked at: the same four bytes earlier in the ROM hide the structure. *)
Theorem C97_stray_refuted : exists M a t lapic es NB, pointer M a t 0 /\ 0xf0000 <= a < 0xffffc /\ table M t lapic es /\ count usable es = NB /\ count is_cpu es = NB /\
  (forall b t' k, 0xf0000 <= b < a -> ~ pointer M b t' k) /\ discover NB M = Stop.
Proof.
  exists stray, 0xf0010, 0x9000, 0xfee00000, parts, 2. split; [pointer_ok|]. split; [lia|]. split; [table_ok|]. split; [vm_compute; reflexivity|]. split; [vm_compute; reflexivity|].
  split; [|vm_compute; reflexivity]. intros b t' k Hb P. pose proof (p_align _ _ _ _ P) as A. assert (b = 0xf0000) as -> by lia. pose proof (p_sig _ _ _ _ P 0%nat ltac:(cbn; lia)) as C. vm_compute in C. discriminate.
Qed.
Print Assumptions C97_stray_refuted.

(** The write meant for an I/O APIC goes to its entry in the table, which is no longer one. *)
Theorem C97_ioapic_refuted : exists M a t lapic es NB M', pointer M a t 0 /\ table M t lapic es /\ discover NB M = Found M' lapic NB /\ ~ table M' t lapic es /\
  M (t + 44 + 48) = 2 /\ M' (t + 44 + 48) = 20.
Proof.
  exists rom, 0xf0010, 0x9000, 0xfee00000, parts, 2, (io_apic rom (0x9000 + 44 + 48)). split; [pointer_ok|]. split; [table_ok|]. 
  assert (X : discover 2 rom = Found (io_apic rom (0x9000 + 44 + 48)) 0xfee00000 2).
  { unfold discover. assert (E : search_ebda rom = 0) by (vm_compute; reflexivity). rewrite E. assert (F : search_bios rom = 0xf0010) by (vm_compute; reflexivity). cbn [Z.eqb]. rewrite F. cbn [Z.eqb].
    cbv zeta. assert (G : word4 rom (0xf0010 + 4) = 0x9000) by (vm_compute; reflexivity). rewrite G. assert (I : Z.to_nat (word2 rom (0x9000 + 34)) = 5%nat) by (vm_compute; reflexivity). rewrite I.
    assert (J : entries 5 (0x9000 + 44) rom 0 0 = Some (io_apic rom (0x9000 + 44 + 48), 2, 2)).
    { pose proof (fun a => eq_refl (rom a)) as R0.
      assert (T0 : rom (0x9000 + 44) = 0) by (vm_compute; reflexivity). assert (T0' : rom (0x9000 + 44 + 3) = 3) by (vm_compute; reflexivity).
      assert (T1 : rom (0x9000 + 44 + 20) = 0) by (vm_compute; reflexivity). assert (T1' : rom (0x9000 + 44 + 20 + 3) = 1) by (vm_compute; reflexivity).
      assert (T2 : rom (0x9000 + 44 + 20 + 20) = 1) by (vm_compute; reflexivity). assert (T3 : rom (0x9000 + 44 + 20 + 20 + 8) = 2) by (vm_compute; reflexivity).
      assert (T4 : io_apic rom (0x9000 + 44 + 20 + 20 + 8) (0x9000 + 44 + 20 + 20 + 8 + 8) = 4) by (vm_compute; reflexivity).
      cbn [entries]. rewrite T0, T0'. cbn [Z.eqb Z.testbit]. rewrite T1, T1'. cbn [Z.eqb Z.testbit]. rewrite T2. cbn [Z.eqb Pos.eqb orb]. rewrite T3. cbn [Z.eqb Pos.eqb orb]. rewrite T4. reflexivity. }
    rewrite J. assert (K : word4 (io_apic rom (0x9000 + 44 + 48)) (0x9000 + 36) = 0xfee00000) by (vm_compute; reflexivity). rewrite K. reflexivity. }
  split; [exact X|]. assert (B : io_apic rom (0x9000 + 44 + 48) (0x9000 + 44 + 48) = 20) by (vm_compute; reflexivity). split; [|split; [vm_compute; reflexivity|exact B]].
  intros [_ _ E _]. specialize (E 48%nat). assert (L : (48 < length (concat (map coded parts)))%nat) by (vm_compute; lia). specialize (E L). change (Z.of_nat 48) with 48 in E. rewrite B in E. vm_compute in E. discriminate.
Qed.
Print Assumptions C97_ioapic_refuted.

(** As many usable processors as the configuration, and one more that is marked as not usable: the kernel stops. *)
Theorem C97_unusable_refuted : exists M a t lapic es NB, pointer M a t 0 /\ 0xf0000 <= a < 0xffffc /\ table M t lapic es /\ count usable es = NB /\ discover NB M = Stop.
Proof. exists spare, 0xf0010, 0x9000, 0xfee00000, (parts ++ [Cpu 2 20 0 (repeat 0 16)]), 2. split; [pointer_ok|]. split; [lia|]. split; [table_ok|]. split; vm_compute; reflexivity. Qed.
Print Assumptions C97_unusable_refuted.

(** A processor whose APIC number is not below the number of processors writes beyond proc_index, and its stack is beyond pok_stack. *)
Theorem C97_apic_refuted : forall NB base self order id, 0 < NB < 256 -> NB <= id -> start NB self (id :: order) = None /\ base + NB * 0x4000 <= stack_ap base id - 0x4000.
Proof.
  intros NB base self order id HN H. split; [|unfold stack_ap; lia]. unfold start. destruct (NB <=? self); [reflexivity|]. cbn [arrive]. unfold main_ap. replace (NB <=? id) with true by (symmetry; apply Z.leb_le; exact H). reflexivity.
Qed.
Print Assumptions C97_apic_refuted.

(** When the processor that boots is not APIC number 0, it shares its stack with the one that is. *)
Theorem C97_stack_refuted : exists NB self order b, start NB self order = Some b /\ In 0 order /\ forall base, stack_ap base 0 = stack_boot base.
Proof. eexists 2, 1, [0], _. split; [reflexivity|]. split; [left; reflexivity|]. intros base. unfold stack_ap, stack_boot. lia. Qed.
Print Assumptions C97_stack_refuted.

(** When two processors come in another order, a request to schedule a thread of processor 1 goes to processor 2 and not to processor 1. *)
Theorem C97_schedule_refuted : exists NB order b, start NB 0 order = Some b /\
  map (proc_id NB b) (gets (m_whom (command (fst (send_schedule 1)) (snd (send_schedule 1)))) 0 (0 :: order)) = [2].
Proof. eexists 3, [2; 1], _. split; [reflexivity|]. vm_compute. reflexivity. Qed.
Print Assumptions C97_schedule_refuted.

Section Examples.
Example ex_discover : exists M', discover 2 rom = Found M' 0xfee00000 2.
Proof.
  assert (E : forall b, 0 <= rom b < 256).
  { intros b. assert (G : forall l, forallb (fun v => (0 <=? v) && (v <? 256)) l = true -> forall i, 0 <= nth i l 0 < 256).
    { intros l H i. rewrite forallb_forall in H. destruct (Nat.lt_ge_cases i (length l)) as [L|L]; [specialize (H (nth i l 0) (nth_In l 0 L)); lia|rewrite nth_overflow by exact L; lia]. }
    unfold rom, with_table, load, blank. destruct (_ && _); [apply G; vm_compute; reflexivity|]. destruct (_ && _); [apply G; vm_compute; reflexivity|lia]. }
  assert (P : pointer rom 0xf0010 0x9000 0) by pointer_ok. assert (T : table rom 0x9000 0xfee00000 parts) by table_ok.
  destruct (C97_discover 2 rom 0xf0010 0x9000 0xfee00000 parts E) as (H & _); [left; vm_compute; reflexivity|lia|exact P| |lia|lia|vm_compute; reflexivity|exact T|lia|].
  - intros b Hb H. assert (C : checkb rom b mp_sig = false).
    { assert (D : forallb (fun i => negb (checkb rom (0xf0000 + Z.of_nat i) mp_sig)) (seq 0 16) = true) by (vm_compute; reflexivity). rewrite forallb_forall in D.
      specialize (D (Z.to_nat (b - 0xf0000)) ltac:(apply in_seq; lia)). rewrite Z2Nat.id in D by lia. replace (0xf0000 + (b - 0xf0000)) with b in D by lia. apply negb_true_iff. exact D. }
    assert (C' : checkb rom b mp_sig = true); [|rewrite C in C'; discriminate]. apply forallb_forall. intros i Hi. apply in_seq in Hi. apply Z.eqb_eq, H. lia.
  - destruct H as (M' & X & _); [split; vm_compute; reflexivity|]. exists M'. exact X.
Qed.
Example ex_alone : discover 2 blank = Alone.
Proof. apply C97_alone; [intros b; unfold blank; lia|left; reflexivity|]. intros b _ H. specialize (H 0%nat ltac:(cbn; lia)). discriminate. Qed.
Example ex_numbers : exists b, start 4 0 [2; 3; 1] = Some b /\ map (proc_id 4 b) [0; 1; 2; 3] = [0; 3; 1; 2].
Proof. eexists. split; [reflexivity|]. reflexivity. Qed.
Example ex_schedule : map (fun n => gets (m_whom (command (fst (send_schedule n)) (snd (send_schedule n)))) 0 [0; 1; 2]) [1; 2] = [[1]; [2]].
Proof. reflexivity. Qed.
End Examples.

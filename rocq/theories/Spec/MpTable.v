(** Tables of the Intel MultiProcessor Specification 1.4, chapter 4, as bytes in memory. *)
From Verif Require Import Model.Base.

(** "_MP_". *)
Definition mp_sig : list Z := [0x5f; 0x4d; 0x50; 0x5f].
Definition bytes_at (M : Z -> Z) (a : Z) (l : list Z) : Prop := forall i, (i < length l)%nat -> M (a + Z.of_nat i) = nth i l 0.
Definition le2 (v : Z) : list Z := [v mod 256; v / 256 mod 256].
Definition le4 (v : Z) : list Z := le2 v ++ le2 (v / 65536).
Definition sum (l : list Z) : Z := fold_right Z.add 0 l.

(** Entries of the base table: [rest] are bytes that do not matter here. *)
Inductive entry := Cpu (id version flags : Z) (rest : list Z) | Bus (rest : list Z) | IoApic (id version flags : Z) (rest : list Z) | IoInt (rest : list Z) | LocalInt (rest : list Z).
Definition coded (e : entry) : list Z :=
  match e with
  | Cpu i v f r => [0; i; v; f] ++ r | Bus r => 1 :: r | IoApic i v f r => [2; i; v; f] ++ r | IoInt r => 3 :: r | LocalInt r => 4 :: r
  end.
Definition well (e : entry) : Prop :=
  match e with
  | Cpu _ _ _ r => length r = 16%nat | Bus r => length r = 7%nat | IoApic _ _ _ r => length r = 4%nat | IoInt r => length r = 7%nat | LocalInt r => length r = 7%nat
  end.
Definition is_cpu (e : entry) : bool := match e with Cpu _ _ _ _ => true | _ => false end.
(** Bit 0 of the flags: the processor is usable. *)
Definition usable (e : entry) : bool := match e with Cpu _ _ f _ => Z.testbit f 0 | _ => false end.
Definition count (p : entry -> bool) (l : list entry) : Z := Z.of_nat (length (filter p l)).

(** A table with entries [es] at [t]: the header has 44 bytes, the number of entries at 34 and the address of the local APICs at 36. *)
Record table (M : Z -> Z) (t : Z) (lapic : Z) (es : list entry) : Prop := {
  t_count : bytes_at M (t + 34) (le2 (Z.of_nat (length es))); t_lapic : bytes_at M (t + 36) (le4 lapic);
  t_entries : bytes_at M (t + 44) (concat (map coded es)); t_well : Forall well es }.
(** A floating pointer structure at [a] for the table at [t]: 16 bytes at a multiple of 16 whose sum is 0; [kind] is 0 when there is a table and the number of a default configuration otherwise. *)
Record pointer (M : Z -> Z) (a t kind : Z) : Prop := {
  p_align : a mod 16 = 0; p_sig : bytes_at M a mp_sig; p_table : bytes_at M (a + 4) (le4 t); p_kind : M (a + 11) = kind;
  p_sum : sum (map (fun i => M (a + Z.of_nat i)) (seq 0 16)) mod 256 = 0 }.
(** The segment of the extended BIOS data area is at 0x40e. *)
Definition ebda (M : Z -> Z) : Z := (M 0x40e + 256 * M 0x40f) * 16.

(** ** Interrupts between processors: Intel SDM volume 3, section 10.6 *)
(** The kinds of message, the level of its line, and the processors it is for: the one with this APIC number, the sender, all, or all but the sender. *)
Inductive kind := Fixed | Init | Startup | Other.
Inductive whom := One (apic : Z) | Self | All | Others.
Record message := { m_vector : Z; m_kind : kind; m_assert : bool; m_whom : whom }.
(** What a write of [lo] to the low word of the command register sends when the high word holds [hi]. *)
Definition bits (v n w : Z) : Z := v / 2 ^ n mod 2 ^ w.
Definition command (hi lo : Z) : message :=
  {| m_vector := bits lo 0 8;
     m_kind := if bits lo 8 3 =? 0 then Fixed else if bits lo 8 3 =? 5 then Init else if bits lo 8 3 =? 6 then Startup else Other;
     m_assert := bits lo 14 1 =? 1;
     m_whom := let g := bits lo 18 2 in if g =? 0 then One (bits hi 24 8) else if g =? 1 then Self else if g =? 2 then All else Others |}.
(** The processors, out of [ids], that get it from [self]. *)
Definition gets (w : whom) (self : Z) (ids : list Z) : list Z :=
  filter (fun i => match w with One a => i =? a | Self => i =? self | All => true | Others => negb (i =? self) end) ids.

(** Translation of addresses by a 32-bit PowerPC processor (Programming Environments Manual, chapter 7: segmented
    address translation with a hashed page table), and the histories of a machine that runs partitions. *)
From Verif Require Import Model.Base Model.Ppc.

(** Page table entry groups: SDR1 holds HTABORG (upper 16 bits) and HTABMASK (lower 9 bits). *)
Definition group_address (sdr hash : Z) : Z :=
  (sdr / 2 ^ 16) * 2 ^ 16 + Z.land (hash / 2 ^ 10) (sdr mod 2 ^ 9) * 2 ^ 16 + (hash mod 2 ^ 10) * 64.

(** First word of an entry: V (bit 31), VSID (30-7), H (6), API (5-0). *)
Definition entry_matches (w vsid h api : Z) : bool :=
  ((w / 2 ^ 31) mod 2 =? 1) && ((w / 2 ^ 7) mod 2 ^ 24 =? vsid) && ((w / 2 ^ 6) mod 2 =? h) && (w mod 2 ^ 6 =? api).

(** Second words of the entries among the eight of the group at [a] that match. *)
Definition group_hits (m : Z -> Z) (a vsid h api : Z) : list Z :=
  flat_map (fun i => if entry_matches (m (a + 8 * i)) vsid h api then [m (a + 8 * i + 4)] else [])
    [0; 1; 2; 3; 4; 5; 6; 7].

(** Primary hash: the lower 19 bits of the VSID xor the page index; secondary hash: its complement. *)
Definition page_index (ea : Z) : Z := (ea / 2 ^ 12) mod 2 ^ 16.
Definition page_hits (m : Z -> Z) (sdr sr ea : Z) : list Z :=
  let vsid := sr mod 2 ^ 24 in
  let page := page_index ea in
  let h1 := Z.lxor (vsid mod 2 ^ 19) page in
  let h2 := 2 ^ 19 - 1 - h1 in
  group_hits m (group_address sdr h1) vsid 0 (page / 2 ^ 10) ++
  group_hits m (group_address sdr h2) vsid 1 (page / 2 ^ 10).

(** Segment register: T (bit 31), Ks (30), Kp (29), VSID (23-0); the key of a user access is Kp. PP are the lower two
    bits of the second word of an entry. *)
Definition direct_store (sr : Z) : bool := (sr / 2 ^ 31) mod 2 =? 1.
Definition user_may (write : bool) (sr w1 : Z) : bool :=
  let key := (sr / 2 ^ 29) mod 2 in
  let pp := w1 mod 4 in
  if pp =? 0 then key =? 0
  else if pp =? 1 then (key =? 0) || negb write
  else if pp =? 2 then true
  else negb write.

(** An access of the running partition to address [ea] reaches the physical address [pa]. Two matching entries are an
    error of the operating system; then every one of them counts. *)
Definition reaches (s : ppc) (write : bool) (ea pa : Z) : Prop :=
  let sr := pp_sr s (ea / 2 ^ 28) in
  0 <= ea < 2 ^ 32 /\ direct_store sr = false /\
  exists w1, In w1 (page_hits (pp_mem s) sdr1 sr ea) /\ user_may write sr w1 = true /\
             pa = w1 / 2 ^ 12 * 2 ^ 12 + ea mod 2 ^ 12.

(** What happens: the scheduler runs another partition, or the running one accesses an address. A page that is not in
    the table is bit 30 of DSISR (SRR1 for instructions); a segment of type T or a protection violation is another
    bit. [None]: the kernel does not come back. *)
Inductive pevent := ESwitch (p : Z) | EAccess (write : bool) (ea : Z).
Definition pstep (e : pevent) (s : ppc) : option ppc :=
  match e with
  | ESwitch p => Some (ppc_switch p s)
  | EAccess write ea =>
      let sr := pp_sr s (ea / 2 ^ 28) in
      if direct_store sr then page_fault ea (2 ^ 31) s
      else match page_hits (pp_mem s) sdr1 sr ea with
           | [] => page_fault ea (2 ^ 30) s
           | l => if forallb (user_may write sr) l then Some s else page_fault ea (2 ^ 27) s
           end
  end.
Fixpoint prun (l : list pevent) (s : ppc) : option ppc :=
  match l with
  | [] => Some s
  | e :: r => match pstep e s with None => None | Some s' => prun r s' end
  end.

(** Machine after boot: [reqs] have been allocated from [heap] on, partition 0 is next. *)
Definition ppc_boot (reqs : list request) (heap : Z) (sr m : Z -> Z) : ppc :=
  ppc_switch 0 (mkPpc (ppc_boot_spaces reqs heap) 0 sr m).
Definition req_size (r : request) : Z := match r with RPartition sz | RStack sz => sz end.
(** Everything fits below 4 GB. *)
Fixpoint room (l : list request) : Z :=
  match l with [] => 0 | r :: t => req_size r + 4096 + room t end.
Definition fits (reqs : list request) (heap : Z) : Prop :=
  2 ^ 16 <= heap /\ Forall (fun r => 0 <= req_size r) reqs /\ heap + room reqs <= 2 ^ 32 - 4096.
(** No entry of the page table is valid. *)
Definition table_empty (m : Z -> Z) : Prop := forall a, 0 <= a < 2 ^ 16 -> a mod 8 = 0 -> (m a / 2 ^ 31) mod 2 = 0.
(** Partitions are numbered from 0. *)
Definition nb_spaces (s : ppc) : Z := Z.of_nat (length (pp_spaces s)).
Definition legal (nb : Z) (e : pevent) : Prop :=
  match e with ESwitch p => 0 <= p < nb | EAccess _ ea => 0 <= ea < 2 ^ 32 end.
(** The memory of a partition, up to the end of its last page. *)
Definition owned (s : ppc) (p pa : Z) : Prop :=
  sp_base (space_of s p) <= pa < sp_base (space_of s p) + (sp_size (space_of s p) + 4095) / 4096 * 4096.

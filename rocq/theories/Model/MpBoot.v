(** kernel/arch/x86/multiprocessing.c, ap.c and start_ap.S: discovery and start of the processors. *)
From Verif Require Import Model.Base.

Definition word2 (M : Z -> Z) (a : Z) : Z := M a + 256 * M (a + 1).
Definition word4 (M : Z -> Z) (a : Z) : Z := word2 M a + 65536 * word2 M (a + 2).
(** The test of multiprocessing.c:118-119 and 132-133. *)
Definition mp_here (M : Z -> Z) (a : Z) : bool := (M a =? 0x5f) && (M (a + 1) =? 0x4d) && (M (a + 2) =? 0x50) && (M (a + 3) =? 0x5f).
Fixpoint first_mp (M : Z -> Z) (base : Z) (k : nat) (i : Z) : option Z :=
  match k with O => None | S k => if mp_here M (base + i) then Some i else first_mp M base k (i + 1) end.
(** multiprocessing.c:106-123, search_mp_ebda. *)
Definition search_ebda (M : Z -> Z) : Z :=
  let e := Z.lor (Z.shiftl (M 0x40f) 8) (M 0x40e) in
  let e := if e <? 0x80000 then u32 (Z.shiftl e 4) else e in
  if e =? 0 then 0 else match first_mp M e (Z.to_nat 1021) 0 with Some i => i | None => 0 end.
(** multiprocessing.c:130-137, search_mp_bios. *)
Definition search_bios (M : Z -> Z) : Z := match first_mp M 0xf0000 (Z.to_nat 0xfffc) 0 with Some i => 0xf0000 + i | None => 0 end.

(** multiprocessing.c:156-172, io_apic_entry_handler without POK_NEEDS_DEBUG: both writes go to the entry of the table. *)
Definition put4 (M : Z -> Z) (a v : Z) : Z -> Z := upd (upd (upd (upd M a (v mod 256)) (a + 1) (v / 256 mod 256)) (a + 2) (v / 65536 mod 256)) (a + 3) (v / 16777216 mod 256).
Definition io_apic (M : Z -> Z) (a : Z) : Z -> Z := if M (a + 3) =? 0 then M else put4 (put4 M a 0x14) a 0x14.
(** multiprocessing.c:241-280, the loop over the entries: memory, processors, usable processors. [None]: assert(0). *)
Fixpoint entries (k : nat) (a : Z) (M : Z -> Z) (procs enabled : Z) : option ((Z -> Z) * Z * Z) :=
  match k with
  | O => Some (M, procs, enabled)
  | S k =>
      if M a =? 0 then entries k (a + 20) M (procs + 1) (if Z.testbit (M (a + 3)) 0 then enabled + 1 else enabled)
      else if M a =? 2 then entries k (a + 8) (io_apic M a) procs enabled
      else if (M a =? 1) || (M a =? 3) || (M a =? 4) then entries k (a + 8) M procs enabled
      else None
  end.
(** multiprocessing.c:231-286, up to the start of the processors. [Alone]: no structure was found; [Found]: lapic_address and multiprocessing_system; [Stop]: an assertion fails. *)
Inductive found := Alone | Found (M : Z -> Z) (lapic system : Z) | Stop.
Definition discover (NB : Z) (M : Z -> Z) : found :=
  let mp := if search_ebda M =? 0 then search_bios M else search_ebda M in
  if mp =? 0 then Alone
  else
    let t := word4 M (mp + 4) in
    match entries (Z.to_nat (word2 M (t + 34))) (t + 44) M 0 0 with
    | None => Stop
    | Some (M', procs, enabled) => if (procs <=? NB) && (u8 enabled =? NB) then Found M' (word4 M' (t + 36)) (u8 enabled) else Stop
    end.

(** ** The start *)
(** incr_var, proc_index and spinlocks, both of NB elements. *)
Record boot := { incr : Z; idx : Z -> Z; spin : Z -> Z }.
(** ap.c:32-38 with spinlock.h:23-43: a processor with APIC number [id], alone as the spin lock lets one through at a time. [None]: an element beyond the arrays, or an assertion fails. *)
Definition main_ap (NB id : Z) (b : boot) : option boot :=
  if NB <=? id then None
  else
    let sp := upd (spin b) (idx b id) (spin b (idx b id) + 1) in
    let ix := upd (idx b) id (incr b) in
    let sp := upd sp 0 (sp 0 - 1) in
    if NB <=? ix id then None
    else
      let sp := upd sp (ix id) (sp (ix id) + 1) in
      if sp (ix id) =? 0 then None
      else Some {| incr := u8 (incr b + 1); idx := ix; spin := upd sp (ix id) (sp (ix id) - 1) |}.
Fixpoint arrive (NB : Z) (order : list Z) (b : boot) : option boot :=
  match order with [] => Some b | id :: r => match main_ap NB id b with None => None | Some b' => arrive NB r b' end end.
(** multiprocessing.c:292-307 with 98: [self] is the APIC number of the processor that boots; the others come in this order. *)
Definition start (NB self : Z) (order : list Z) : option boot :=
  if NB <=? self then None
  else match arrive NB order {| incr := 1; idx := upd (fun _ => 0) self 0; spin := fun _ => 0 |} with
       | None => None
       | Some b => if incr b =? NB then Some b else None
       end.
(** multiprocessing.c:48-50, pok_get_proc_id for the processor with APIC number [id]. *)
Definition proc_id (system : Z) (b : boot) (id : Z) : Z := if system =? 0 then 0 else idx b id.
(** The stack of a processor grows down from here: x86-qemu/entry.S:16 for the processor that boots, start_ap.S:39-47 and 56 for the others. pok_stack, at [base], has NB * 0x4000 bytes (entry.S:39). *)
Definition stack_boot (base : Z) : Z := base + 0x4000.
Definition stack_ap (base id : Z) : Z := id * 0x4000 + (base + 0x4000).

(** ipi.c:53-59, pok_send_ipi: what is written to 0x310 and 0x300. *)
Definition send_ipi (group dest vector : Z) : Z * Z := (u32 (Z.shiftl dest 24), u32 (0x4000 + vector + Z.shiftl group 18)).
(** multiprocessing.c:52-62. *)
Definition send_global_schedule : Z * Z := send_ipi 3 0 34.
Definition send_schedule (dest : Z) : Z * Z := send_ipi 0 dest 35.
Definition send_schedule_others : Z * Z := send_ipi 3 0 35.
(** multiprocessing.c:81-96, the writes of pok_start_ap to 0x300. *)
Definition start_ap : list Z := [0xcc5ff; 0xc85ff; 0xc4600 + 1; 0xc4600 + 1].
(** misc/ldscripts/x86/x86-qemu/kernel.lds:7, where realmode_setup (multiprocessing.c:212-220) copies start_ap.S. *)
Definition real_base : Z := 0x1000.

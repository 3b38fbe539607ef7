(** Translation of addresses by the reference MMU of the SPARC Architecture Manual, version 8, appendix H. *)
From Verif Require Import Model.Base Model.Sparc.

(** Entries: ET are the bits 1-0. A descriptor (ET 1) has the address of the next table, without its lower six bits, in
    bits 31-2; an entry (ET 2) has the physical page number in bits 31-8 and ACC in bits 4-2. *)
Definition et (w : Z) : Z := w mod 4.
Definition table_of (w : Z) : Z := w / 4 * 64.
Definition page_of (w : Z) : Z := w / 256 * 4096.
Definition acc (w : Z) : Z := (w / 4) mod 8.

(** The entry found at level 1, 2 or 3 and the number of bits of its pages: 16 MB, 256 KB, 4 KB. *)
Definition walk (m : Z -> Z) (ctpr ctx va : Z) : option (Z * Z) :=
  let w0 := m (table_of ctpr + 4 * ctx) in
  if et w0 =? 2 then Some (w0, 32)
  else if negb (et w0 =? 1) then None
  else
    let w1 := m (table_of w0 + 4 * (va / 2 ^ 24)) in
    if et w1 =? 2 then Some (w1, 24)
    else if negb (et w1 =? 1) then None
    else
      let w2 := m (table_of w1 + 4 * ((va / 2 ^ 18) mod 64)) in
      if et w2 =? 2 then Some (w2, 18)
      else if negb (et w2 =? 1) then None
      else
        let w3 := m (table_of w2 + 4 * ((va / 2 ^ 12) mod 64)) in
        if et w3 =? 2 then Some (w3, 12) else None.

Inductive kind := Read | Write | Execute.
(** Access permissions of user mode, table H-2. *)
Definition user_acc (k : kind) (a : Z) : bool :=
  match k with
  | Read => (a =? 0) || (a =? 1) || (a =? 2) || (a =? 3) || (a =? 5)
  | Write => (a =? 1) || (a =? 3)
  | Execute => (a =? 2) || (a =? 3) || (a =? 4)
  end.

(** In context [ctx] an access of kind [k] in user mode to [va] reaches [pa]. *)
Definition sparc_reaches (m : Z -> Z) (ctpr ctx : Z) (k : kind) (va pa : Z) : Prop :=
  0 <= va < 2 ^ 32 /\
  exists w n, walk m ctpr ctx va = Some (w, n) /\ user_acc k (acc w) = true /\
    pa = page_of w / 2 ^ n * 2 ^ n + va mod 2 ^ n.

(** The tables lie one after the other below the heap, aligned as the attributes of space.c:49-64 say. *)
Definition placed (T : tables) (nb heap : Z) : Prop :=
  0 <= a_ctx T /\ a_ctx T mod 4 = 0 /\ a_l1 T mod 1024 = 0 /\ a_l2 T mod 256 = 0 /\
  a_ctx T + 4 * nb <= a_l1 T /\ a_l1 T + 1024 * nb <= a_l2 T /\ a_l2 T + 256 * nb <= heap /\ heap < 2 ^ 32.
(** aligned (POK_CONFIG_NB_PARTITIONS * sizeof (ptd)), space.c:50. *)
Definition ctx_aligned (T : tables) (nb : Z) : Prop := a_ctx T mod (4 * nb) = 0.

Fixpoint sparc_room (sizes : list Z) : Z := match sizes with [] => 0 | z :: r => z + PAGE + sparc_room r end.
Definition sparc_fits (sizes : list Z) (heap : Z) : Prop :=
  Forall (fun z => 0 <= z) sizes /\ heap + sparc_room sizes <= 2 ^ 32 - PAGE.

(** The part of a SPARC V8 processor with eight register windows that the trap code of the kernel uses (The SPARC Architecture
    Manual, version 8: windows in 4.2, trap model in 7, instructions in B).

    Registers have their numbers in instructions: %g0-%g7 are 0-7, %o0-%o7 are 8-15, %l0-%l7 are 16-23, %i0-%i7 are 24-31; %sp is 14
    and %fp is 30. A window has sixteen registers of its own, 16-31; its %o registers are the %i registers of the window below it.
    Words are at the address of their first byte. The delay of writes to PSR and WIM (three instructions, which the code fills) is left
    out, and so is the advance of the program counters over the code of the kernel. *)
From Verif Require Import Model.Base.

Definition NW := 8.

(** [acc]: what translation allows at an address: 0 nothing, 1 the supervisor, 2 everybody. *)
Record sparc := mkSparc
  { glob : Z -> Z; win : Z -> Z -> Z; psr : Z; wim : Z; yreg : Z; pc : Z; npc : Z; mem : Z -> Z; acc : Z -> Z }.
Definition set_glob g c := mkSparc g (win c) (psr c) (wim c) (yreg c) (pc c) (npc c) (mem c) (acc c).
Definition set_win w c := mkSparc (glob c) w (psr c) (wim c) (yreg c) (pc c) (npc c) (mem c) (acc c).
Definition set_psr p c := mkSparc (glob c) (win c) p (wim c) (yreg c) (pc c) (npc c) (mem c) (acc c).
Definition set_wim w c := mkSparc (glob c) (win c) (psr c) w (yreg c) (pc c) (npc c) (mem c) (acc c).
Definition set_y y c := mkSparc (glob c) (win c) (psr c) (wim c) y (pc c) (npc c) (mem c) (acc c).
Definition set_pcs p n c := mkSparc (glob c) (win c) (psr c) (wim c) (yreg c) p n (mem c) (acc c).
Definition set_mem m c := mkSparc (glob c) (win c) (psr c) (wim c) (yreg c) (pc c) (npc c) m (acc c).

(** ** The processor state register *)
Definition cwp (c : sparc) : Z := Z.land (psr c) 31.
Definition ET (c : sparc) : bool := Z.testbit (psr c) 5.
Definition PS (c : sparc) : bool := Z.testbit (psr c) 6.
Definition SUP (c : sparc) : bool := Z.testbit (psr c) 7.
Definition set_cwp (w p : Z) : Z := Z.lor (Z.ldiff p 31) w.
(** The integer condition codes: negative, zero, overflow, carry. *)
Definition icc (c : sparc) : Z := Z.land (Z.shiftr (psr c) 20) 15.
Definition set_icc (v p : Z) : Z := Z.lor (Z.ldiff p (Z.shiftl 15 20)) (Z.shiftl v 20).
Definition icc_of (v : Z) : Z := (if Z.testbit v 31 then 8 else 0) + (if v =? 0 then 4 else 0).

(** ** Registers *)
Definition below (w : Z) : Z := (w - 1) mod NW.
Definition above (w : Z) : Z := (w + 1) mod NW.
Definition upd2 (f : Z -> Z -> Z) (w r v : Z) : Z -> Z -> Z := fun w' r' => if (w' =? w) && (r' =? r) then v else f w' r'.
Definition reg (c : sparc) (r : Z) : Z :=
  if r =? 0 then 0 else if r <? 8 then glob c r else if r <? 16 then win c (below (cwp c)) (r + 16) else win c (cwp c) r.
Definition set_reg (r v : Z) (c : sparc) : sparc :=
  if r =? 0 then c else if r <? 8 then set_glob (upd (glob c) r v) c
  else if r <? 16 then set_win (upd2 (win c) (below (cwp c)) (r + 16) v) c else set_win (upd2 (win c) (cwp c) r v) c.

(** ** Instructions *)
Inductive instr :=
| Rdpsr (d : Z) | Wrpsr (s : Z) | Rdwim (d : Z) | Wrwim (s : Z) | Rdy (d : Z)
| Mov (d s : Z) | Movi (d n : Z) | Sub (d s n : Z) | And (d s n : Z) | Andn (d s n : Z) | Ori (d s n : Z) | Or (d s t : Z)
| Sll (d s n : Z) | Srl (d s n : Z) | Sllr (d s t : Z) | Andcc (s t : Z) | Tst (s : Z) | Subcc (d s n : Z)
| St (r a off : Z) | Std (r a off : Z) | Ld (a off r : Z) | Ldd (a off r : Z)
| Save | Restore | JmpRett (a b : Z).

Definition may (c : sparc) (a : Z) : bool := if SUP c then 1 <=? acc c a else acc c a =? 2.
Definition fine (c : sparc) (size a : Z) : bool := (a mod size =? 0) && may c a.

(** [None]: a trap. In the code of the kernel it comes with traps disabled, which puts the processor into error mode (manual, 7.1). *)
Definition exec (i : instr) (c : sparc) : option sparc :=
  match i with
  | Rdpsr d => Some (set_reg d (psr c) c)
  | Wrpsr s => if Z.land (reg c s) 31 <? NW then Some (set_psr (reg c s) c) else None
  | Rdwim d => Some (set_reg d (wim c) c)
  | Wrwim s => Some (set_wim (Z.land (reg c s) 255) c)
  | Rdy d => Some (set_reg d (yreg c) c)
  | Mov d s => Some (set_reg d (reg c s) c)
  | Movi d n => Some (set_reg d n c)
  | Sub d s n => Some (set_reg d (u32 (reg c s - n)) c)
  | And d s n => Some (set_reg d (Z.land (reg c s) n) c)
  | Andn d s n => Some (set_reg d (Z.ldiff (reg c s) n) c)
  | Ori d s n => Some (set_reg d (Z.lor (reg c s) n) c)
  | Or d s t => Some (set_reg d (Z.lor (reg c s) (reg c t)) c)
  | Sll d s n => Some (set_reg d (u32 (reg c s * 2 ^ n)) c)
  | Srl d s n => Some (set_reg d (reg c s / 2 ^ n) c)
  | Sllr d s t => Some (set_reg d (u32 (reg c s * 2 ^ (reg c t mod 32))) c)
  | Andcc s t => Some (set_psr (set_icc (icc_of (Z.land (reg c s) (reg c t))) (psr c)) c)
  | Tst s => Some (set_psr (set_icc (icc_of (reg c s)) (psr c)) c)
  | Subcc d s n => let v := u32 (reg c s - n) in
      Some (set_reg d v (set_psr (set_icc (icc_of v + (if reg c s <? n then 1 else 0)) (psr c)) c))
  | St r a off => let p := reg c a + off in if fine c 4 p then Some (set_mem (upd (mem c) p (reg c r)) c) else None
  | Std r a off => let p := reg c a + off in
      if fine c 8 p then Some (set_mem (upd (upd (mem c) p (reg c r)) (p + 4) (reg c (r + 1))) c) else None
  | Ld a off r => let p := reg c a + off in if fine c 4 p then Some (set_reg r (mem c p) c) else None
  | Ldd a off r => let p := reg c a + off in
      if fine c 8 p then Some (set_reg (r + 1) (mem c (p + 4)) (set_reg r (mem c p) c)) else None
  | Save => if Z.testbit (wim c) (below (cwp c)) then None else Some (set_psr (set_cwp (below (cwp c)) (psr c)) c)
  | Restore => if Z.testbit (wim c) (above (cwp c)) then None else Some (set_psr (set_cwp (above (cwp c)) (psr c)) c)
  | JmpRett a b =>
      if ET c || negb (SUP c) || Z.testbit (wim c) (above (cwp c)) then None
      else Some (set_pcs (reg c a) (reg c b)
             (set_psr (Z.lor (if PS c then Z.lor (set_cwp (above (cwp c)) (psr c)) 128 else Z.ldiff (set_cwp (above (cwp c)) (psr c)) 128) 32) c))
  end.
Fixpoint run (l : list instr) (c : sparc) : option sparc :=
  match l with [] => Some c | i :: r => match exec i c with None => None | Some c' => run r c' end end.

(** A trap: traps are disabled, the supervisor bit is kept in PS and set, the next window is taken without a look at WIM, and the
    program counters go to its %l1 and %l2. *)
Definition trap_psr (p : Z) : Z :=
  let q := Z.ldiff p 32 in Z.lor (if Z.testbit p 7 then Z.lor q 64 else Z.ldiff q 64) 128.
Definition trap (c : sparc) : sparc :=
  set_reg 18 (npc c) (set_reg 17 (pc c) (set_psr (set_cwp (below (cwp c)) (trap_psr (psr c))) c)).

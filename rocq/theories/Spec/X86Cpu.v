(** The part of an i386 processor that the entry, exit and switch code of the kernel uses (Intel SDM volumes 2 and 3:
    PUSHA, POPA, IRET, interrupt delivery through gates, segment registers with their hidden part).

    Words are at the address where a push puts them; stack pointers are multiples of 4 and do not wrap. Addition to esp
    is taken to leave the flags alone; IRET reloads them. *)
From Verif Require Import Model.Base.

(** A segment register: selector, and base and privilege level of the descriptor that was loaded with it. *)
Record sreg := mkS { sel : Z; base : Z; dpl : Z }.
(** General registers without esp. *)
Record gprs := mkGp { eax : Z; ecx : Z; edx : Z; ebx : Z; ebp : Z; esi : Z; edi : Z }.
(** [gdt]: base and privilege level of the present descriptors. [esp0]: kernel stack of the task state segment, whose
    ss0 is 0x10. [fpu]: the registers of the floating point unit. *)
Record cpu := mkCpu {
  gp : gprs; esp : Z; eip : Z; efl : Z;
  cs : sreg; ss : sreg; ds : sreg; es : sreg; fs : sreg; gs : sreg;
  fpu : Z; mem : Z -> Z; esp0 : Z; gdt : Z -> option (Z * Z) }.

Definition set_gp (v : gprs) (c : cpu) := mkCpu v (esp c) (eip c) (efl c) (cs c) (ss c) (ds c) (es c) (fs c) (gs c) (fpu c) (mem c) (esp0 c) (gdt c).
Definition set_esp (v : Z) (c : cpu) := mkCpu (gp c) v (eip c) (efl c) (cs c) (ss c) (ds c) (es c) (fs c) (gs c) (fpu c) (mem c) (esp0 c) (gdt c).
Definition set_eip (v : Z) (c : cpu) := mkCpu (gp c) (esp c) v (efl c) (cs c) (ss c) (ds c) (es c) (fs c) (gs c) (fpu c) (mem c) (esp0 c) (gdt c).
Definition set_efl (v : Z) (c : cpu) := mkCpu (gp c) (esp c) (eip c) v (cs c) (ss c) (ds c) (es c) (fs c) (gs c) (fpu c) (mem c) (esp0 c) (gdt c).
Definition set_cs (v : sreg) (c : cpu) := mkCpu (gp c) (esp c) (eip c) (efl c) v (ss c) (ds c) (es c) (fs c) (gs c) (fpu c) (mem c) (esp0 c) (gdt c).
Definition set_ss (v : sreg) (c : cpu) := mkCpu (gp c) (esp c) (eip c) (efl c) (cs c) v (ds c) (es c) (fs c) (gs c) (fpu c) (mem c) (esp0 c) (gdt c).
Definition set_ds (v : sreg) (c : cpu) := mkCpu (gp c) (esp c) (eip c) (efl c) (cs c) (ss c) v (es c) (fs c) (gs c) (fpu c) (mem c) (esp0 c) (gdt c).
Definition set_es (v : sreg) (c : cpu) := mkCpu (gp c) (esp c) (eip c) (efl c) (cs c) (ss c) (ds c) v (fs c) (gs c) (fpu c) (mem c) (esp0 c) (gdt c).
Definition set_fs (v : sreg) (c : cpu) := mkCpu (gp c) (esp c) (eip c) (efl c) (cs c) (ss c) (ds c) (es c) v (gs c) (fpu c) (mem c) (esp0 c) (gdt c).
Definition set_gs (v : sreg) (c : cpu) := mkCpu (gp c) (esp c) (eip c) (efl c) (cs c) (ss c) (ds c) (es c) (fs c) v (fpu c) (mem c) (esp0 c) (gdt c).
Definition set_mem (v : Z -> Z) (c : cpu) := mkCpu (gp c) (esp c) (eip c) (efl c) (cs c) (ss c) (ds c) (es c) (fs c) (gs c) (fpu c) v (esp0 c) (gdt c).
Definition set_esp0 (v : Z) (c : cpu) := mkCpu (gp c) (esp c) (eip c) (efl c) (cs c) (ss c) (ds c) (es c) (fs c) (gs c) (fpu c) (mem c) v (gdt c).

(** Loading a segment register; [None]: a fault. The null selectors can be loaded; there is no local table. *)
Definition load (t : Z -> option (Z * Z)) (s : Z) : option sreg :=
  if s <? 4 then Some (mkS s 0 3)
  else if (s / 4) mod 2 =? 1 then None
  else match t (s / 8) with Some (b, d) => Some (mkS s b d) | None => None end.
(** Privilege level in force. *)
Definition cpl (c : cpu) : Z := sel (cs c) mod 4.

Definition push (v : Z) (c : cpu) : cpu := set_mem (upd (mem c) (esp c - 4) v) (set_esp (esp c - 4) c).
Definition top (c : cpu) (off : Z) : Z := mem c (esp c + off).

(** Bit 9 of the flags: interrupts enabled. *)
Definition IF := 512.
Definition if_off (f : Z) : Z := if (f / IF) mod 2 =? 1 then f - IF else f.
Definition if_on (f : Z) : Z := if (f / IF) mod 2 =? 1 then f else f + IF.

(** On a return to an outer level, data segments of an inner level are made null. *)
Definition strip (l : Z) (s : sreg) : sreg := if dpl s <? l then mkS 0 0 3 else s.

Definition iret (c : cpu) : option cpu :=
  let l := top c 4 mod 4 in
  if l <? cpl c then None
  else match load (gdt c) (top c 4) with
  | None => None
  | Some code =>
    if (top c 4 <? 4) || negb (dpl code =? l) then None
    else if l =? cpl c then
      Some (set_esp (esp c + 12) (set_eip (top c 0) (set_efl (top c 8) (set_cs code c))))
    else match load (gdt c) (top c 16) with
    | None => None
    | Some stack =>
      if (top c 16 <? 4) || negb (dpl stack =? l) then None
      else Some (mkCpu (gp c) (top c 12) (top c 0) (top c 8) code stack
             (strip l (ds c)) (strip l (es c)) (strip l (fs c)) (strip l (gs c)) (fpu c) (mem c) (esp0 c) (gdt c))
    end
  end.

(** Instructions, in the order in which the sources use them. [Call]: a C function, as what it does to the processor
    between call and return. *)
Inductive instr :=
| Cli | Sti | AddEsp (n : Z) | Pusha | Popa | PushDs | PushEs | PopDs | PopEs | PushEsp
| MovAx (v : Z) | MovDsAx | MovEsAx | Pushf | PushCs | PushL (v : Z)
| LoadEbx (off : Z)     (** movl off(%esp), %ebx *)
| StoreEsp              (** movl %esp, (%ebx) *)
| LoadEsp (off : Z)     (** movl off(%esp), %esp *)
| StoreEax (off : Z)    (** movl %eax, off(%esp) *)
| Iret | Ret
| Call (f : cpu -> option cpu).

Definition set_eax (v : Z) (g : gprs) := mkGp v (ecx g) (edx g) (ebx g) (ebp g) (esi g) (edi g).
Definition set_ebx (v : Z) (g : gprs) := mkGp (eax g) (ecx g) (edx g) v (ebp g) (esi g) (edi g).

Definition exec (i : instr) (c : cpu) : option cpu :=
  let g := gp c in
  match i with
  | Cli => Some (set_efl (if_off (efl c)) c)
  | Sti => Some (set_efl (if_on (efl c)) c)
  | AddEsp n => Some (set_esp (esp c + n) c)
  | Pusha => Some (push (edi g) (push (esi g) (push (ebp g) (push (esp c) (push (ebx g)
               (push (edx g) (push (ecx g) (push (eax g) c))))))))
  | Popa => Some (set_esp (esp c + 32)
               (set_gp (mkGp (top c 28) (top c 24) (top c 20) (top c 16) (top c 8) (top c 4) (top c 0)) c))
  | PushDs => Some (push (sel (ds c)) c)
  | PushEs => Some (push (sel (es c)) c)
  | PopDs => match load (gdt c) (top c 0) with None => None | Some s => Some (set_esp (esp c + 4) (set_ds s c)) end
  | PopEs => match load (gdt c) (top c 0) with None => None | Some s => Some (set_esp (esp c + 4) (set_es s c)) end
  | PushEsp => Some (push (esp c) c)
  | MovAx v => Some (set_gp (set_eax (eax g / 65536 * 65536 + v) g) c)
  | MovDsAx => match load (gdt c) (eax g mod 65536) with None => None | Some s => Some (set_ds s c) end
  | MovEsAx => match load (gdt c) (eax g mod 65536) with None => None | Some s => Some (set_es s c) end
  | Pushf => Some (push (efl c) c)
  | PushCs => Some (push (sel (cs c)) c)
  | PushL v => Some (push v c)
  | LoadEbx off => Some (set_gp (set_ebx (top c off) g) c)
  | StoreEsp => Some (set_mem (upd (mem c) (ebx g) (esp c)) c)
  | LoadEsp off => Some (set_esp (top c off) c)
  | StoreEax off => Some (set_mem (upd (mem c) (esp c + off) (eax g)) c)
  | Iret => iret c
  | Ret => Some (set_esp (esp c + 4) (set_eip (top c 0) c))
  | Call f => f c
  end.
Fixpoint exec_all (l : list instr) (c : cpu) : option cpu :=
  match l with
  | [] => Some c
  | i :: r => match exec i c with None => None | Some c' => exec_all r c' end
  end.

(** Delivery of an interrupt through a gate to [handler] in the code segment 8 of level 0; [err]: the error code that
    the exceptions 8, 10 to 14 and 17 push, and no interrupt and no INT instruction; [trap]: a trap gate, which leaves
    IF. *)
Definition pushes (l : list Z) (c : cpu) : cpu := fold_left (fun c v => push v c) l c.
Definition enter (err : option Z) (trap : bool) (handler : Z) (c : cpu) : option cpu :=
  match load (gdt c) 8, load (gdt c) 16 with
  | Some code, Some stack =>
    let tail := match err with None => [] | Some e => [e] end in
    let c' := if cpl c =? 0 then pushes ([efl c; sel (cs c); eip c] ++ tail) c
              else pushes ([sel (ss c); esp c; efl c; sel (cs c); eip c] ++ tail) (set_ss stack (set_esp (esp0 c) c)) in
    Some (set_cs code (set_eip handler (set_efl (if trap then efl c else if_off (efl c)) c')))
  | _, _ => None
  end.
Definition pushes_error (vector : Z) : bool := existsb (Z.eqb vector) [8; 10; 11; 12; 13; 14; 17].

(** What a C function keeps: the stack pointer, ebx, ebp, esi, edi, the segment registers that C code uses and the
    [n] bytes on top of the stack; and when it returns the same descriptors are present as before (other threads may
    have run in between). *)
Definition keeps (n : Z) (c c' : cpu) : Prop :=
  esp c' = esp c /\ ebx (gp c') = ebx (gp c) /\ ebp (gp c') = ebp (gp c) /\ esi (gp c') = esi (gp c) /\
  edi (gp c') = edi (gp c) /\ cs c' = cs c /\ ss c' = ss c /\ ds c' = ds c /\ es c' = es c /\ gdt c' = gdt c /\
  (forall a, esp c <= a < esp c + n -> mem c' a = mem c a).
Definition c_function (n : Z) (h : cpu -> option cpu) : Prop := forall c, exists c', h c = Some c' /\ keeps n c c'.

(** A processor that runs a program: kernel segments are present, segment registers are loaded from the table, the
    data segments may be used at the level in force. *)
Record running (c : cpu) : Prop := mkRunning {
  run_kcode : gdt c 1 = Some (0, 0);
  run_kdata : gdt c 2 = Some (0, 0);
  run_level : cpl c = 3 \/ sel (cs c) = 8;
  run_code : 4 <= sel (cs c) < 65536 /\ load (gdt c) (sel (cs c)) = Some (cs c) /\ dpl (cs c) = cpl c;
  run_stack : 4 <= sel (ss c) < 65536 /\ load (gdt c) (sel (ss c)) = Some (ss c) /\ dpl (ss c) = cpl c;
  run_ds : load (gdt c) (sel (ds c)) = Some (ds c) /\ cpl c <= dpl (ds c);
  run_es : load (gdt c) (sel (es c)) = Some (es c) /\ cpl c <= dpl (es c) }.

(** The interrupted program goes on as if nothing had happened. *)
Definition resumed (c c' : cpu) : Prop :=
  gp c' = gp c /\ esp c' = esp c /\ eip c' = eip c /\ efl c' = efl c /\
  cs c' = cs c /\ ss c' = ss c /\ ds c' = ds c /\ es c' = es c /\ gdt c' = gdt c /\
  (cpl c = 3 -> esp0 c' = esp0 c).

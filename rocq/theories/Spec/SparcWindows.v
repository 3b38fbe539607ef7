(** What a program sees of the register windows: a machine with as many windows as there are calls, none of which is ever in memory.

    A register or a word of memory is [None] as long as its value is unspecified: the local registers of a function that has just been
    called, the memory of a new stack frame, and the sixteen words at each stack pointer, which belong to the processor (SPARC ABI, chapter
    3, register windows and stack frames). *)
From Verif Require Import Model.Base Spec.SparcCpu.

(** The memory of a program: its stack and other words it may use. *)
Record place := mkPlace { lo : Z; hi : Z; data : Z -> bool }.

(** Frames are numbered from the current function outwards; [p_depth] of them exist. *)
Record prog := mkProg { p_glob : Z -> option Z; p_out : Z -> option Z; p_fr : nat -> Z -> option Z; p_depth : nat; p_mem : Z -> option Z }.
Definition p_reg (A : prog) (r : Z) : option Z :=
  if r =? 0 then Some 0 else if r <? 8 then p_glob A r else if r <? 16 then p_out A r else p_fr A 0%nat r.
Definition set_fr (f : nat -> Z -> option Z) (r : Z) (v : option Z) : nat -> Z -> option Z :=
  fun k r' => match k with O => if r' =? r then v else f O r' | _ => f k r' end.
Definition p_set (r : Z) (v : option Z) (A : prog) : prog :=
  if r =? 0 then A else if r <? 8 then mkProg (upd (p_glob A) r v) (p_out A) (p_fr A) (p_depth A) (p_mem A)
  else if r <? 16 then mkProg (p_glob A) (upd (p_out A) r v) (p_fr A) (p_depth A) (p_mem A)
  else mkProg (p_glob A) (p_out A) (set_fr (p_fr A) r v) (p_depth A) (p_mem A).
Definition known (v : option Z) : Z := match v with Some x => x | None => 0 end.
(** The stack pointer of frame [k]: %sp of the current function, %fp of the frame before. *)
Definition p_sp (A : prog) (k : nat) : Z := match k with O => known (p_out A 14) | S j => known (p_fr A j 30) end.

(** Instructions by what they read and write. [Call n]: save %sp, -n, %sp. [Ret d rs f]: restore with the result of [f] for register [d]. *)
Inductive op :=
| Set_ (d : Z) (rs : list Z) (f : list Z -> Z)
| Load (d : Z) (rs : list Z) (f : list Z -> Z)
| Store (rs : list Z) (f g : list Z -> Z)
| Call (n : Z)
| Ret (d : Z) (rs : list Z) (f : list Z -> Z).

Definition value_reg (r : Z) : bool := (0 <=? r) && (r <? 32) && negb (r =? 14) && negb (r =? 30).
Definition any_reg (r : Z) : bool := (0 <=? r) && (r <? 32).
Fixpoint p_regs (A : prog) (rs : list Z) : option (list Z) :=
  match rs with
  | [] => Some []
  | r :: t => if any_reg r then
                match p_reg A r, p_regs A t with Some v, Some l => Some (v :: l) | _, _ => None end
              else None
  end.
Definition in_area (sp a : Z) : bool := (sp <=? a) && (a <? sp + 64).
(** Words a program may write: outside the stack, or in its part of the stack and not kept for registers. *)
Definition usable (K : place) (A : prog) (a : Z) : bool :=
  (a mod 4 =? 0) &&
  (((a <? lo K - 84) || (hi K <=? a)) && data K a
   || (p_sp A 0 <=? a) && (a <? hi K) && forallb (fun k => negb (in_area (p_sp A k) a)) (seq 0 (p_depth A))).
Definition forget (a b : Z) (m : Z -> option Z) : Z -> option Z := fun x => if (a <=? x) && (x <? b) then None else m x.

(** [None]: the program does something the manual leaves open. *)
Definition p_step (K : place) (A : prog) (i : op) : option prog :=
  match i with
  | Set_ d rs f => if value_reg d then match p_regs A rs with Some l => Some (p_set d (Some (f l)) A) | None => None end else None
  | Load d rs f => if value_reg d then
      match p_regs A rs with
      | Some l => if f l mod 4 =? 0 then match p_mem A (f l) with Some v => Some (p_set d (Some v) A) | None => None end else None
      | None => None end else None
  | Store rs f g =>
      match p_regs A rs with
      | Some l => if usable K A (f l) then Some (mkProg (p_glob A) (p_out A) (p_fr A) (p_depth A) (upd (p_mem A) (f l) (Some (g l)))) else None
      | None => None end
  | Call n =>
      let sp := p_sp A 0 - n in
      if (64 <=? n) && (n mod 8 =? 0) && (lo K <=? sp) then
        Some (mkProg (p_glob A) (fun r => if r =? 14 then Some sp else None)
          (fun k => match k with O => fun r => if 24 <=? r then p_out A (r - 16) else None | S j => p_fr A j end)
          (S (p_depth A)) (forget sp (p_sp A 0) (p_mem A)))
      else None
  | Ret d rs f =>
      match p_depth A with
      | S (S e) =>
          if value_reg d then
            match p_regs A rs with
            | Some l => Some (p_set d (Some (f l)) (mkProg (p_glob A) (fun r => p_fr A O (r + 16)) (fun k => p_fr A (S k))
                                (S e) (forget (p_sp A 0) (p_sp A 1) (p_mem A))))
            | None => None
            end
          else None
      | _ => None
      end
  end.
Fixpoint p_run (K : place) (A : prog) (l : list op) : option prog :=
  match l with [] => Some A | i :: t => match p_step K A i with Some A' => p_run K A' t | None => None end end.

(** ** The program on a processor with eight windows *)
(** The bit that is set in WIM, and how many frames are in windows: those from the current window up to the invalid one. *)
Definition invalid (c : sparc) : Z := Z.log2 (wim c).
Definition resident (c : sparc) : Z := (invalid c - cwp c) mod NW.
Definition windows (c : sparc) : Prop :=
  0 <= cwp c < NW /\ 0 <= invalid c < NW /\ wim c = 2 ^ invalid c /\ invalid c <> cwp c /\ ET c = true.

(** Register [r] of frame [k]: in a window or in memory. *)
Definition in_frame (c : sparc) (A : prog) (k : nat) (r : Z) : Z :=
  if Z.of_nat k <? resident c then win c ((cwp c + Z.of_nat k) mod NW) r else mem c (p_sp A k + 4 * (r - 16)).

Record shape (K : place) (A : prog) : Prop := {
  sh_place : 84 <= lo K /\ lo K <= hi K /\ hi K <= 2 ^ 32;
  sh_depth : (1 <= p_depth A)%nat;
  sh_sp : p_out A 14 = Some (p_sp A 0);
  sh_fp : forall k, (S k < p_depth A)%nat -> p_fr A k 30 = Some (p_sp A (S k));
  sh_lo : lo K <= p_sp A 0;
  sh_hi : p_sp A (p_depth A - 1) + 64 <= hi K;
  sh_grow : forall k, (S k < p_depth A)%nat -> p_sp A k + 64 <= p_sp A (S k);
  sh_align : forall k, (k < p_depth A)%nat -> p_sp A k mod 8 = 0;
  sh_area : forall k a, (k < p_depth A)%nat -> p_sp A k <= a < p_sp A k + 64 -> p_mem A a = None;
  sh_free : forall a, lo K - 84 <= a < p_sp A 0 -> p_mem A a = None }.

Record holds (K : place) (c : sparc) (A : prog) : Prop := {
  h_win : windows c;
  h_shape : shape K A;
  h_res : resident c <= Z.of_nat (p_depth A);
  h_glob : forall r v, 1 <= r < 8 -> p_glob A r = Some v -> glob c r = v;
  h_out : forall r v, 8 <= r < 16 -> p_out A r = Some v -> reg c r = v;
  h_fr : forall k r v, (k < p_depth A)%nat -> 16 <= r < 32 -> p_fr A k r = Some v -> in_frame c A k r = v;
  h_mem : forall a v, p_mem A a = Some v -> mem c a = v /\ acc c a = 2;
  h_acc : forall a, lo K - 84 <= a < hi K -> acc c a = 2;
  h_data : forall a, data K a = true -> acc c a = 2 }.

(** The rest of what a program sees of the state: condition codes, interrupt level and mode (PSR without PS and the number of the window), Y,
    the program counters. *)
Definition same_rest (c c' : sparc) : Prop :=
  (forall n, 5 <= n -> n <> 6 -> Z.testbit (psr c') n = Z.testbit (psr c) n) /\ yreg c' = yreg c /\ pc c' = pc c /\ npc c' = npc c /\
  forall a, acc c' a = acc c a.

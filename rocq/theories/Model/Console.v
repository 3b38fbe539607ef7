(** The console of the x86 port: kernel/arch/x86/x86-qemu/cons.c, cons.h, with POK_NEEDS_CONSOLE and POK_NEEDS_DEBUG.
    The spin lock around pok_cons_write and the busy waiting for the serial line are left out; the serial line is the
    list of the characters sent. Memory is bytes; characters are given as bytes (0 to 255), not as signed char. *)
From Verif Require Import Model.Base Model.Libc.

(** cons.c:31-33. *)
Definition screen_w := 80.
Definition screen_h := 25.
Definition vga_base := 0xb8000.
(** cons.h:25-29. *)
Definition CONS_ESCAPE := 255.
Definition CONS_CLEAR := 1.
Definition CONS_COLOR := 2.
Definition CONS_SETX := 3.
Definition CONS_SETY := 4.

(** struct s_cons, cons.h:46-50: three signed characters; memory; what was sent. *)
Record console := mkCons { cn_row : Z; cn_col : Z; cn_attr : Z; cn_mem : Z -> Z; cn_serial : list Z }.

(** cons.c:101-105, from column [i], [n] columns. *)
Fixpoint blank_row (n : nat) (i attr : Z) (m : Z -> Z) : Z -> Z :=
  match n with
  | O => m
  | S k => blank_row k (i + 1) attr
      (upd (upd m (vga_base + 2 * screen_w * (screen_h - 1) + 2 * i) 0)
           (vga_base + 2 * screen_w * (screen_h - 1) + 2 * i + 1) (u8 attr))
  end.
(** cons.c:99-107. *)
Definition scroll (g : console) : console :=
  if screen_h <=? cn_row g then
    let m := memcpy_i386 (cn_mem g) vga_base (vga_base + 2 * screen_w) ((screen_h - 1) * screen_w * 2) in
    mkCons (screen_h - 1) (cn_col g) (cn_attr g) (blank_row (Z.to_nat screen_w) 0 (cn_attr g) m) (cn_serial g)
  else g.
(** cons.c:94-97. *)
Definition wrap (g : console) : console :=
  if screen_w <=? cn_col g then mkCons (s8 (cn_row g + 1)) 0 (cn_attr g) (cn_mem g) (cn_serial g) else g.
(** cons.c:72-92. *)
Definition place_char (c : Z) (g : console) : console :=
  if c =? 13 then mkCons (cn_row g) 0 (cn_attr g) (cn_mem g) (cn_serial g)
  else if c =? 10 then mkCons (s8 (cn_row g + 1)) 0 (cn_attr g) (cn_mem g) (cn_serial g)
  else if c =? 9 then mkCons (cn_row g) (s8 (cn_col g + (8 - Z.rem (cn_col g) 8))) (cn_attr g) (cn_mem g) (cn_serial g)
  else
    let ptr := vga_base + 2 * screen_w * cn_row g + 2 * cn_col g in
    mkCons (cn_row g) (s8 (cn_col g + 1)) (cn_attr g) (upd (upd (cn_mem g) ptr c) (ptr + 1) (u8 (cn_attr g))) (cn_serial g).
(** pok_cons_print_char, cons.c:59-113, with write_serial, cons.c:43-48. *)
Definition print_char (c : Z) (g : console) : console :=
  scroll (wrap (place_char c (mkCons (cn_row g) (cn_col g) (cn_attr g) (cn_mem g) (cn_serial g ++ [c])))).
(** pok_cons_attr, cons.c:119. *)
Definition set_attr (a : Z) (g : console) : console := mkCons (cn_row g) (cn_col g) (s8 a) (cn_mem g) (cn_serial g).
(** The loops of pok_cons_clear, cons.c:131-138, for [n] cells. *)
Fixpoint clear_cells (n : nat) (ptr attr : Z) (m : Z -> Z) : Z -> Z :=
  match n with O => m | S k => clear_cells k (ptr + 2) attr (upd (upd m ptr 0) (ptr + 1) (u8 attr)) end.
(** pok_cons_clear, cons.c:121-144. *)
Definition cons_clear (g : console) : console :=
  mkCons 0 0 (cn_attr g) (clear_cells (Z.to_nat (screen_h * screen_w)) vga_base (cn_attr g) (cn_mem g)) (cn_serial g).
(** pok_cons_write, cons.c:148-190: the loop from index [i] on. [s]: the text and what follows it; [gas] bounds the number
    of iterations ([None]: more than that). The index has 32 bits; the result is an int. *)
Fixpoint write_loop (gas : nat) (s : Z -> Z) (len i res : Z) (g : console) : option (Z * console) :=
  if i <? len then
    match gas with
    | O => None
    | S k =>
        if s i =? CONS_ESCAPE then
          let j := u32 (i + 1) in
          if s j =? CONS_CLEAR then write_loop k s len (u32 (j + 1)) res (cons_clear g)
          else if s j =? CONS_COLOR then write_loop k s len (u32 (u32 (j + 1) + 1)) res (set_attr (s (u32 (j + 1))) g)
          else if s j =? CONS_SETY then write_loop k s len (u32 (u32 (j + 1) + 1)) res
                 (mkCons (s (u32 (j + 1)) mod screen_h) (cn_col g) (cn_attr g) (cn_mem g) (cn_serial g))
          else if s j =? CONS_SETX then write_loop k s len (u32 (u32 (j + 1) + 1)) res
                 (mkCons (cn_row g) (s (u32 (j + 1)) mod screen_w) (cn_attr g) (cn_mem g) (cn_serial g))
          else write_loop k s len (u32 (j + 1)) (s32 (res + 1)) (print_char (s j) g)
        else write_loop k s len (u32 (i + 1)) (s32 (res + 1)) (print_char (s i) g)
    end
  else Some (res, g).
Definition cons_write (s : Z -> Z) (len : Z) (g : console) : option (Z * console) :=
  write_loop (Z.to_nat len) s len 0 0 g.
(** pok_cons_init, cons.c:210-214; the cursor of the hardware and the serial line are left out. *)
Definition cons_init (g : console) : console :=
  cons_clear (mkCons (cn_row g) (cn_col g) 7 (cn_mem g) (cn_serial g)).

(** pok_cons_write of the other ports: arch/sparc/leon3/cons.c:40-44, arch/ppc/prep/cons.c:38-42. *)
Fixpoint serial_loop (n : nat) (s : Z -> Z) (i : Z) (sent : list Z) : list Z :=
  match n with O => sent | S k => serial_loop k s (i + 1) (sent ++ [s i]) end.
Definition serial_write (s : Z -> Z) (len : Z) (sent : list Z) : Z * list Z := (0, serial_loop (Z.to_nat len) s 0 sent).
(** POK_SYSCALL_CONSWRITE, core/syscall.c:70-78, once the pointer is accepted: POK_ERRNO_OK is 0, POK_ERRNO_EINVAL is 1
    (include/errno.h:19-20). *)
Definition conswrite_ret (res : Z) : Z := if res =? 0 then 1 else 0.

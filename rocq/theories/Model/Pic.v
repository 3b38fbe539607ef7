(** kernel/arch/x86/x86-qemu/pic.c and bsp.c: the interrupt controllers, and the registration of handlers. *)
From Verif Require Import Model.Base Spec.Pic8259.

(** outb and inb on the ports of pic.h:18-19. *)
Definition out (port v : Z) (p : pair) : pair :=
  if port =? 0x20 then {| first := wr0 v (first p); second := second p |}
  else if port =? 0x20 + 1 then {| first := wr1 v (first p); second := second p |}
  else if port =? 0xa0 then {| first := first p; second := wr0 v (second p) |}
  else if port =? 0xa0 + 1 then {| first := first p; second := wr1 v (second p) |}
  else p.
Definition inp (port : Z) (p : pair) : Z := if port =? 0x20 + 1 then rd1 (first p) else if port =? 0xa0 + 1 then rd1 (second p) else 0.
Definition outs (l : list (Z * Z)) (p : pair) : pair := fold_left (fun p o => out (fst o) (snd o) p) l p.

(** pic.c:22-40, pok_pic_init, with the words of pic.h:21-29. *)
Definition pic_init (p : pair) : pair :=
  outs [(0x20, 0x11); (0xa0, 0x11); (0x20 + 1, 0x20); (0xa0 + 1, 0x28); (0x20 + 1, 0x04); (0xa0 + 1, 0x02); (0x20 + 1, 0x01); (0xa0 + 1, 0x01); (0x20 + 1, 0xfb); (0xa0 + 1, 0xff)] p.
(** pic.c:42-58, pok_pic_mask. *)
Definition pic_mask (irq : Z) (p : pair) : Z * pair :=
  if 15 <? irq then (ERR_EINVAL, p)
  else if irq <? 8 then (ERR_OK, out (0x20 + 1) (u8 (Z.lor (inp (0x20 + 1) p) (Z.shiftl 1 irq))) p)
  else (ERR_OK, out (0xa0 + 1) (u8 (Z.lor (inp (0xa0 + 1) p) (Z.shiftl 1 (irq - 8)))) p).
(** pic.c:60-75, pok_pic_unmask. *)
Definition pic_unmask (irq : Z) (p : pair) : Z * pair :=
  if 15 <? irq then (ERR_EINVAL, p)
  else if irq <? 8 then (ERR_OK, out (0x20 + 1) (u8 (Z.land (inp (0x20 + 1) p) (Z.lnot (Z.shiftl 1 irq)))) p)
  else (ERR_OK, out (0xa0 + 1) (u8 (Z.land (inp (0xa0 + 1) p) (Z.lnot (Z.shiftl 1 (irq - 8))))) p).
(** pic.c:77-83, pok_pic_eoi. *)
Definition pic_eoi (irq : Z) (p : pair) : pair := let p := if 8 <=? irq then out 0xa0 0x20 p else p in out 0x20 0x20 p.

(** The controllers and the handlers of the 256 vectors, by number. *)
Record irqs := { pics : pair; gates : Z -> Z }.
(** bsp.c:31-35, pok_bsp_irq_acknowledge. *)
Definition irq_acknowledge (irq : Z) (s : irqs) : Z * irqs := (ERR_OK, {| pics := pic_eoi irq (pics s); gates := gates s |}).
(** bsp.c:37-43, pok_bsp_irq_register with pok_arch_event_register (arch.c:52-57), whose vector is a uint8_t. *)
Definition irq_register (irq h : Z) (s : irqs) : Z * irqs := (ERR_OK, {| pics := snd (pic_unmask irq (pics s)); gates := upd (gates s) (u8 (32 + irq)) h |}).

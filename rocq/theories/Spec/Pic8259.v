(** Two 8259A interrupt controllers as in a PC: the second is on line 2 of the first (Intel 8259A data sheet, "Programming", "Interrupt sequence", "End of interrupt", "Cascade mode"). *)
From Verif Require Import Model.Base.

(** One controller. [step]: the initialisation word it waits for, 0 when ready; [base]: first vector; [irr], [isr]: lines with a request, in service. *)
Record chip := { step : Z; single : bool; need4 : bool; base : Z; icw3 : Z; icw4 : Z; imr : Z; irr : Z -> bool; isr : Z -> bool }.
Definition lines : list Z := [0; 1; 2; 3; 4; 5; 6; 7].
(** The line of highest priority in service. *)
Definition serving (c : chip) : option Z := find (isr c) lines.

(** A write to the first port. Bit 4 begins an initialisation: requests and masks are dropped. Otherwise, if bit 3 is 0, the three high bits are a command: 001 ends the service of highest
    priority, 011 that of the line in the low bits. Other commands, which rotate priorities, are left out. *)
Definition wr0 (v : Z) (c : chip) : chip :=
  if Z.testbit v 4 then {| step := 2; single := Z.testbit v 1; need4 := Z.testbit v 0; base := base c; icw3 := icw3 c; icw4 := 0; imr := 0; irr := fun _ => false; isr := isr c |}
  else if Z.testbit v 3 then c
  else
    let ends l := {| step := step c; single := single c; need4 := need4 c; base := base c; icw3 := icw3 c; icw4 := icw4 c; imr := imr c; irr := irr c; isr := upd (isr c) l false |} in
    if v / 32 mod 8 =? 1 then match serving c with Some l => ends l | None => c end
    else if v / 32 mod 8 =? 3 then ends (v mod 8) else c.
(** A write to the second port: the word the controller waits for, or the mask. *)
Definition wr1 (v : Z) (c : chip) : chip :=
  let last := if need4 c then 4 else 0 in
  if step c =? 2 then {| step := if single c then last else 3; single := single c; need4 := need4 c; base := v / 8 * 8; icw3 := icw3 c; icw4 := icw4 c; imr := imr c; irr := irr c; isr := isr c |}
  else if step c =? 3 then {| step := last; single := single c; need4 := need4 c; base := base c; icw3 := v; icw4 := icw4 c; imr := imr c; irr := irr c; isr := isr c |}
  else if step c =? 4 then {| step := 0; single := single c; need4 := need4 c; base := base c; icw3 := icw3 c; icw4 := v; imr := imr c; irr := irr c; isr := isr c |}
  else {| step := 0; single := single c; need4 := need4 c; base := base c; icw3 := icw3 c; icw4 := icw4 c; imr := v; irr := irr c; isr := isr c |}.
(** A read of the second port. *)
Definition rd1 (c : chip) : Z := imr c.

(** The line a controller asks for with requests [r]: the first that is not masked and comes before all in service; only when it is ready and in the mode of the 8086. *)
Definition asks (r : Z -> bool) (c : chip) : option Z :=
  if (step c =? 0) && Z.testbit (icw4 c) 0
  then find (fun i => r i && negb (Z.testbit (imr c) i) && forallb (fun j => negb (isr c j) || (i <? j)) lines) lines
  else None.
(** The processor accepts line [i]: the request is dropped, and the line is in service unless services end by themselves (bit 1 of the fourth word). *)
Definition accept (i : Z) (c : chip) : chip :=
  {| step := step c; single := single c; need4 := need4 c; base := base c; icw3 := icw3 c; icw4 := icw4 c; imr := imr c;
     irr := upd (irr c) i false; isr := if Z.testbit (icw4 c) 1 then isr c else upd (isr c) i true |}.
Definition raise (i : Z) (c : chip) : chip :=
  {| step := step c; single := single c; need4 := need4 c; base := base c; icw3 := icw3 c; icw4 := icw4 c; imr := imr c; irr := upd (irr c) i true; isr := isr c |}.

Record pair := { first : chip; second : chip }.
(** A device asks on one of 16 lines; line 2 has none. *)
Definition device (irq : Z) : Prop := 0 <= irq < 16 /\ irq <> 2.
Definition request (irq : Z) (p : pair) : pair :=
  if irq <? 8 then {| first := raise irq (first p); second := second p |} else {| first := first p; second := raise (irq - 8) (second p) |}.
(** What the processor gets when it takes interrupts: a vector. A line of the first controller that carries another one (third word) is answered by that one if its third word is that line. *)
Definition interrupt (p : pair) : option (Z * pair) :=
  match asks (upd (irr (first p)) 2 (match asks (irr (second p)) (second p) with Some _ => true | None => false end)) (first p) with
  | None => None
  | Some i =>
      if Z.testbit (icw3 (first p)) i
      then match asks (irr (second p)) (second p) with
           | Some j => if icw3 (second p) =? i then Some (base (second p) + j, {| first := accept i (first p); second := accept j (second p) |}) else None
           | None => None
           end
      else Some (base (first p) + i, {| first := accept i (first p); second := second p |})
  end.

(** The state of one of the 16 lines. *)
Definition masked (p : pair) (irq : Z) : bool := if irq <? 8 then Z.testbit (imr (first p)) irq else Z.testbit (imr (second p)) (irq - 8).
Definition asked (p : pair) (irq : Z) : bool := if irq <? 8 then irr (first p) irq else irr (second p) (irq - 8).
Definition quiet (p : pair) : Prop := forall l, In l lines -> isr (first p) l = false /\ isr (second p) l = false.
(** Line 0 comes first, then 1, then those of the second controller, then 3 to 7. *)
Definition rank (irq : Z) : Z := if irq <? 2 then irq else if irq <? 8 then irq + 8 else irq - 6.

(** The timer unit of the Leon3 (GRLIB IP core manual, GPTIMER). The prescaler counts down with the system clock; below zero it is loaded from its reload
    register and the timer counts down by one; a timer below zero is loaded from its reload register and requests an interrupt. *)
From Verif Require Import Model.Base.

Record gpt := mkGpt { scaler : Z; scaler_reload : Z; counter : Z; reload : Z }.
(** One clock; whether it requests an interrupt. *)
Definition clock (g : gpt) : gpt * bool :=
  if scaler g =? 0 then
    if counter g =? 0 then (mkGpt (scaler_reload g) (scaler_reload g) (reload g) (reload g), true)
    else (mkGpt (scaler_reload g) (scaler_reload g) (counter g - 1) (reload g), false)
  else (mkGpt (scaler g - 1) (scaler_reload g) (counter g) (reload g), false).
(** The interrupts of [n] clocks. *)
Fixpoint interrupts (n : nat) (g : gpt) : Z :=
  match n with O => 0 | S k => let '(g', b) := clock g in (if b then 1 else 0) + interrupts k g' end.

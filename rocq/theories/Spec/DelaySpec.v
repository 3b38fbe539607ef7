(** Threads that wait for their partition to start. *)
From Verif Require Import Model.Base Model.State Model.Kernel Spec.SchedSpec Spec.KernelSpec.

(** Step [l] in state [s] is no creation of a thread by partition [j] (a creation may sort the threads anew). *)
Definition creates_nothing (j : Z) (s : kstate) (l : klabel) : Prop :=
  match l with
  | KCall _ (SCreate _) | KCall _ (SErrorCreate _ _ _ _) => k_cp s <> j
  | _ => True
  end.
(** Along the execution of [ls] from [s], partition [j] initialises itself, [t] is not its error handler, and no
    step designates [t] or creates a thread of the partition. *)
Fixpoint prepares (cfg : config) (j t : Z) (s : kstate) (ls : list klabel) : Prop :=
  is_init (mode_of s j) /\ t <> p_error (k_part s j) /\
  match ls with
  | [] => True
  | l :: ls' => leaves_alone cfg j t s l /\ creates_nothing j s l /\
      match kstep cfg s l with KNext s' _ => prepares cfg j t s' ls' | _ => prepares cfg j t s ls' end
  end.

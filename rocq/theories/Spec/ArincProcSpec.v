(** The processes of the calling partition. *)
From Verif Require Import Model.Base Model.State Model.Kernel Spec.SchedSpec Spec.KernelSpec.

(** Thread [t] has been created by partition [j], which executes. *)
Definition own_process (cfg : config) (j t : Z) (s : kstate) : Prop :=
  is_part cfg j /\ thread_of cfg j t /\ created cfg s j t /\ k_cp s = j.
(** ... it is not the error handler, executes on no processor and waits for no lock object. *)
Definition apart (cfg : config) (j t : Z) (s : kstate) : Prop :=
  t <> p_error (k_part s j) /\ unqueued cfg s t /\ executes_nowhere cfg s t.
(** State [s'] is [s] except that thread [t] is now in state [st]. *)
Definition only_state (t st : Z) (s s' : kstate) : Prop :=
  s' = on_th t (set_t_state st) s.

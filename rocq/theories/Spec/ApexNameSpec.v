(** The semaphores or the events of a partition. *)
From Verif Require Import Model.Base Model.Arinc Model.ArincSync.

(** The services [ops] have been called since the partition started and have given [outs]; [names] are the names
    declared in the configuration. *)
Definition object_history (names : list (list Z)) (ops : list obj_op) (outs : list pout) (o : objs) : Prop :=
  exists r c, obj_run ops (objs_start names r c) = (o, outs).

(** Creations that were granted: name, identifier, kernel object. *)
Record grant := mkGrant { g_name : list Z; g_id : Z; g_core : Z }.
Fixpoint grants (ops : list obj_op) (outs : list pout) : list grant :=
  match ops, outs with
  | BCreate name _ k :: ops', PProcess i e :: outs' => (if e =? NO_ERROR then [mkGrant name i k] else []) ++ grants ops' outs'
  | _ :: ops', _ :: outs' => grants ops' outs'
  | _, _ => []
  end.

Definition starts_with (declared name : list Z) : Prop := exists rest, declared = name ++ rest.

(** Ports as the ARINC 653 interface shows them (part 1, section 3.6.2). *)
From Coq Require Import ZArith List Bool.
From Verif Require Import Model.Port.
Import ListNotations.
Open Scope Z_scope.

Inductive direction := Source | Destination.
(** PORT_DIRECTION_TYPE. *)
Definition direction_number (d : direction) : Z := match d with Source => 0 | Destination => 1 end.

(** A port of the kernel has a direction: messages leave the partition through sources. *)
Definition has_direction (p : port) (d : direction) : Prop :=
  match d with Source => pt_dir p = 2 | Destination => pt_dir p = 1 end.

(** The port named [name] of partition [part], of the given kind, exists and has the number [id]. *)
Definition designates (cfg : pconfig) (part kind name id : Z) : Prop :=
  0 <= id < q_nports cfg /\ q_owner cfg id = part /\ q_kind cfg id = kind /\ q_name cfg id = name.

(** The return codes of the standard. *)
Definition is_code (c : Z) : Prop := 0 <= c <= 6.

(** No port but [id] has changed. *)
Definition other_ports (s s' : pstate) (id : Z) : Prop := forall j, j <> id -> ps_port s' j = ps_port s j.

(** C61: Partitions access only the I/O ports of their device.
    Proved: only ports between the two bounds stored for the partition. The bounds
    themselves are not the device's: refuted. *)
From Coq Require Import ZArith List Bool Lia.
From Verif Require Import Model.Base Model.Syscall Spec.MemSpec Proof.Tac.
Open Scope Z_scope.

(** Exactly the ports between the bounds, no truncation. *)
Theorem C61_bounds : forall i arg, 0 <= io_min i -> io_max i < 2 ^ 16 -> is_u32 arg ->
  forall p, io_access i arg = Some p <-> p = arg /\ io_min i <= p <= io_max i.
Proof.
  intros i arg H1 H2 H3 p. unfold io_access, is_u32, u16 in *.
  destruct (Z.ltb_spec arg (io_min i)); cbn [orb]; [split; [discriminate|lia]|].
  destruct (Z.ltb_spec (io_max i) arg); [split; [discriminate|lia]|].
  rewrite Z.mod_small by lia. split; [intros X; injection X as <-; lia|intros [-> _]; reflexivity].
Qed.
Print Assumptions C61_bounds.

(** Registration: if the device has [n] ports from [base] on, base a multiple of 32,
    and the caller says [n], then the partition gets these and the one behind. Missing: the one behind, and a caller that says more. *)
Theorem C61_registered_partial : forall base n info, 0 <= base -> base mod 32 = 0 -> 0 <= info < 32 -> 0 < n -> base + n < 2 ^ 16 ->
  forall arg p, is_u32 arg -> (io_access (pci_register (base + info) n) arg = Some p <-> p = arg /\ base <= p <= base + n).
Proof.
  intros base n info Hb Hm Hi Hn Hr arg p Ha.
  assert (E : pci_register (base + info) n = mkIo base (base + n)).
  { unfold pci_register. assert (M : (base + info) mod 32 = info) by (rewrite Z.add_mod, Hm, Z.add_0_l, Z.mod_mod by lia; apply Z.mod_small; lia).
    rewrite M. replace (base + info - info) with base by lia. unfold u32, u16. rewrite !(Z.mod_small base) by lia. rewrite Z.mod_small by lia. reflexivity. }
  rewrite E. apply C61_bounds; cbn [io_min io_max]; assumption || lia.
Qed.
Print Assumptions C61_registered_partial.

(** The port behind the device can be accessed. *)
Theorem C61_behind_refuted : ~ forall base n arg p, 0 <= base -> base mod 32 = 0 -> 0 < n -> base + n < 2 ^ 16 -> is_u32 arg ->
  io_access (pci_register base n) arg = Some p -> base <= p < base + n.
Proof. intros H. specialize (H 49152 32 49184 49184 ltac:(lia) eq_refl ltac:(lia) ltac:(lia) ltac:(unfold is_u32; lia) eq_refl). lia. Qed.
Print Assumptions C61_behind_refuted.

(** The number of ports is whatever the partition claims: the device has 32 ports from 768 on, the partition reaches the configuration
    register of the bus, at 3320. *)
Theorem C61_claimed_refuted : ~ forall base n range arg p, 0 <= base -> base mod 32 = 0 -> 0 < n -> base + n < 2 ^ 16 -> 0 <= range < 2 ^ 16 -> is_u32 arg ->
  io_access (pci_register base range) arg = Some p -> base <= p <= base + n.
Proof. intros H. specialize (H 768 32 60000 3320 3320 ltac:(lia) eq_refl ltac:(lia) ltac:(lia) ltac:(lia) ltac:(unfold is_u32; lia) eq_refl). lia. Qed.
Print Assumptions C61_claimed_refuted.

(** Without any device the bounds are 0 (partitions are static data), and I/O port 0 can be accessed. *)
Theorem C61_none_refuted : ~ forall arg, is_u32 arg -> io_access (mkIo 0 0) arg = None.
Proof. intros H. specialize (H 0 ltac:(unfold is_u32; lia)). discriminate H. Qed.
Print Assumptions C61_none_refuted.

Example C61_example : io_access (pci_register 49153 32) 49160 = Some 49160 /\ io_access (pci_register 49153 32) 49200 = None /\
  io_access (pci_register 49153 32) (65536 + 49160) = None.
Proof. vm_compute. auto. Qed.

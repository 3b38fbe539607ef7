From Coq Require Import ZArith List Bool Lia.
From Verif Require Import Model.Base Model.Mem Model.Syscall Spec.MemSpec Spec.SyscallSpec Proof.Tac Proof.MemProof.
Import ListNotations.
Open Scope Z_scope.

Lemma strcmp_reads_bound : forall s m a, 1 <= strcmp_reads m a s <= Z.of_nat (length s) + 1.
Proof.
  induction s as [|c s IH]; intros m a; cbn [strcmp_reads length]; [lia|].
  destruct (m a =? c); [|lia]. specialize (IH m (a + 1)). lia.
Qed.

Lemma word_u32 : forall m a, byte_memory m -> is_u32 (word_at m a).
Proof. intros m a H. unfold is_u32, word_at. pose proof (H a). pose proof (H (a + 1)). pose proof (H (a + 2)). pose proof (H (a + 3)). lia. Qed.

Lemma cons_reads_plain : forall k m s i len r, 0 <= i -> (forall j, 0 <= j < len -> m (s + j) <> CONS_ESCAPE) ->
  In r (cons_reads k m s i len) -> snd r = 1 /\ s <= fst r < s + len.
Proof.
  induction k as [|k IH]; intros m s i len r Hi H; cbn [cons_reads]; [intros []|].
  destruct (Z.ltb_spec i len); [|intros []].
  destruct (Z.eqb_spec (m (s + i)) CONS_ESCAPE) as [E|_]; [destruct (H i ltac:(lia) E)|].
  intros [<-|X]; [cbn; lia|]. apply (IH m s (i + 1) len r); [lia|exact H|exact X].
Qed.

Section Calls.
Variables (nparts : Z) (psize pbase : Z -> Z) (pid : Z) (e : env) (m : Z -> Z).
Hypothesis P : placed psize pbase pid.
Hypothesis E : sound_env e.
Hypothesis B : byte_memory m.

(** A tested range: everything within it lies in the partition. *)
Lemma tested : forall p n q k, is_u32 p -> is_u32 n -> ptr_in_partition nparts psize pid p n = true ->
  0 <= q -> q + k <= n -> inside (u32 (p + pbase pid) + q) k (pbase pid) (pbase pid + psize pid).
Proof.
  intros p n q k Hp Hn H Hq Hk j Hj. destruct P as (P1 & P2 & P3).
  rewrite ptr_accept in H; [|assumption|assumption|unfold is_u32; lia]. unfold is_u32, u32 in *. rewrite Z.mod_small by lia. lia.
Qed.

Lemma tested0 : forall p n k, is_u32 p -> is_u32 n -> ptr_in_partition nparts psize pid p n = true ->
  k <= n -> inside (u32 (p + pbase pid)) k (pbase pid) (pbase pid + psize pid).
Proof. intros p n k Hp Hn H Hk. rewrite <- (Z.add_0_r (u32 (p + pbase pid))). eapply tested; eauto; lia. Qed.

Lemma tested_fields : forall p n l, is_u32 p -> is_u32 n -> ptr_in_partition nparts psize pid p n = true ->
  (forall o k, In (o, k) l -> 0 <= o /\ o + k <= n) ->
  forall a k, In (a, k) (fields (u32 (p + pbase pid)) l) -> inside a k (pbase pid) (pbase pid + psize pid).
Proof.
  intros p n l Hp Hn H L a k X. unfold fields in X. apply in_map_iff in X. destruct X as ([o k'] & X & Y).
  injection X as <- <-. destruct (L o k' Y). eapply tested; eauto.
Qed.

Lemma tested_name : forall p a k, is_u32 p -> ptr_in_partition nparts psize pid p (u32 (e_maxlen e + 1)) = true ->
  In (a, k) (name_reads m e (u32 (p + pbase pid))) -> inside a k (pbase pid) (pbase pid + psize pid).
Proof.
  intros p a k Hp H X. destruct E as (E1 & E2 & _). unfold u32 at 1 in H. rewrite Z.mod_small in H by lia.
  unfold name_reads in X. apply in_map_iff in X. destruct X as (s & X & Y). injection X as <- <-.
  specialize (E2 s Y). pose proof (strcmp_reads_bound s m (u32 (p + pbase pid))).
  eapply tested0; [exact Hp| |exact H|lia]. unfold is_u32; lia.
Qed.

Lemma args_u32 : forall p, let a := args_at m p in
  is_u32 (arg1 a) /\ is_u32 (arg2 a) /\ is_u32 (arg3 a) /\ is_u32 (arg4 a) /\ is_u32 (arg5 a).
Proof. intros p. cbn. repeat split; apply word_u32; exact B. Qed.

(** The conditions under which the remaining calls are safe too. *)
Definition room (c : call) (a : args) : Prop :=
  match c with
  | ConsWrite => forall j, 0 <= j < arg2 a -> m (u32 (arg1 a + pbase pid) + j) <> CONS_ESCAPE
  | GetChar => arg1 a < psize pid
  | NodeMacAddr => arg2 a + 6 <= psize pid
  | SamplingRead => e_psize e (u8 (arg1 a)) <= e_psize e pid
  | LockobjOperation => arg2 a <> 0 /\ arg2 a + 20 <= psize pid
  | NetRead | NetPollAndRead => Z.min (arg3 a) (e_qlen e (u8 (arg1 a))) <= 4
  | NetWrite => arg3 a <= 4
  | _ => True
  end.

Ltac fin := first [ assumption | lia | unfold is_u32; lia ].

Ltac fld := unfold thread_attr_fields, thread_attr_size, error_status_fields, error_status_size, sampling_status_fields, sampling_status_size,
  queueing_status_fields, queueing_status_size, lockobj_attr_fields, lockobj_attr_size, lockattr_fields, pci_device_fields, pci_device_size;
  let o := fresh in let k := fresh in let X := fresh in
  intros o k X; cbn [In] in X; repeat (destruct X as [X|X]; [injection X as <- <-; lia|]); destruct X.

Lemma raw : forall p n q k, is_u32 p -> p + n <= psize pid -> 0 <= q -> q + k <= n ->
  inside (u32 (p + pbase pid) + q) k (pbase pid) (pbase pid + psize pid).
Proof.
  intros p n q k Hp H Hq Hk j Hj. destruct P as (P1 & P2 & P3). unfold is_u32, u32 in *. rewrite Z.mod_small by lia. lia.
Qed.

Lemma accesses_inside : forall c p, let a := args_at m p in room c a ->
  forallb (fun '(p, n) => ptr_in_partition nparts psize pid p n) (checks c e a) = true ->
  forallb (fun '(p, n) => ptr_in_partition nparts psize pid p n) (late_checks c e pid a) = true ->
  forall x n, In (x, n) (accesses c e (pbase pid) m a) -> inside x n (pbase pid) (pbase pid + psize pid).
Proof.
  intros c p a R C L x n X. destruct (args_u32 p) as (A1 & A2 & A3 & A4 & A5). fold a in A1, A2, A3, A4, A5.
  clearbody a. rewrite forallb_forall in C, L.
  pose proof E as (E1 & E2 & E3 & E4 & E5 & E6).
  assert (C' : forall q k, In (q, k) (checks c e a) -> ptr_in_partition nparts psize pid q k = true) by (intros q k Y; exact (C _ Y)).
  assert (L' : forall q k, In (q, k) (late_checks c e pid a) -> ptr_in_partition nparts psize pid q k = true) by (intros q k Y; exact (L _ Y)).
  clear C L.
  assert (U8 : forall z, 0 <= u8 z < 256) by (intros z; unfold u8; apply Z.mod_pos_bound; lia).
  assert (U8le : forall z, is_u32 z -> u8 z <= z) by (intros z Hz; unfold u8, is_u32 in *; apply Z.mod_le; lia).
  destruct c; cbn [checks late_checks accesses room] in *.
  - apply (cons_reads_plain _ _ _ _ _ (x, n) (Z.le_refl 0) R) in X. cbn [fst snd] in X. destruct X as [-> X].
    replace x with (u32 (arg1 a + pbase pid) + (x - u32 (arg1 a + pbase pid))) by lia.
    eapply tested; [exact A1|exact A2|apply C'; left; reflexivity|lia|lia].
  - destruct X as [X|[]]. injection X as <- <-. rewrite <- (Z.add_0_r (u32 _)). apply (raw (arg1 a) 1); fin.
  - apply in_app_or in X. destruct X as [X|[X|[]]].
    + eapply tested_name; [exact A1|apply C'; left; reflexivity|exact X].
    + injection X as <- <-. eapply (tested0 _ 1); [exact A2|fin|apply C'; right; left; reflexivity|lia].
  - destruct X as [X|[]]. injection X as <- <-. eapply (tested0 _ 4); [exact A2|fin|apply C'; left; reflexivity|lia].
  - destruct X as [X|[]]. injection X as <- <-. eapply (tested0 _ 4); [exact A3|fin|apply C'; left; reflexivity|lia].
  - destruct X as [X|[]]. injection X as <- <-. eapply (tested0 _ 1); [exact A2|fin|apply C'; left; reflexivity|lia].
  - destruct X as [X|[]]. injection X as <- <-. eapply (tested0 _ 4); [exact A2|fin|apply C'; left; reflexivity|lia].
  - destruct X as [X|[X|[]]]; injection X as <- <-.
    + eapply (tested0 _ 6); [exact A1|fin|apply C'; left; reflexivity|lia].
    + rewrite <- (Z.add_0_r (u32 _)). apply (raw (arg2 a) 6); fin.
  - destruct X as [X|[]]. injection X as <- <-. eapply (tested0 _ 8); [exact A1|fin|apply C'; left; reflexivity|lia].
  - destruct X as [X|X].
    + injection X as <- <-. eapply (tested0 _ 4); [exact A1|fin|apply C'; left; reflexivity|lia].
    + eapply (tested_fields (arg2 a) thread_attr_size); [exact A2|unfold thread_attr_size; fin|apply C'; right; left; reflexivity| |exact X]. fld.
  - destruct X as [X|[]]. injection X as <- <-. eapply (tested0 _ 4); [exact A1|fin|apply C'; left; reflexivity|lia].
  - eapply (tested_fields (arg2 a) thread_attr_size); [exact A2|unfold thread_attr_size; fin|apply C'; left; reflexivity| |exact X]. fld.
  - destruct X as [X|[]]. injection X as <- <-. eapply (tested0 _ 1); [exact A1|fin|apply C'; left; reflexivity|lia].
  - destruct X as [X|[]]. injection X as <- <-. eapply (tested0 _ 8); [exact A1|fin|apply C'; left; reflexivity|lia].
  - destruct X as [X|[]]. injection X as <- <-. eapply (tested0 _ 8); [exact A1|fin|apply C'; left; reflexivity|lia].
  - destruct X as [X|[]]. injection X as <- <-. eapply (tested0 _ 4); [exact A1|fin|apply C'; left; reflexivity|lia].
  - destruct X as [X|[]]. injection X as <- <-. eapply (tested0 _ 4); [exact A1|fin|apply C'; left; reflexivity|lia].
  - destruct X as [X|[]]. injection X as <- <-. eapply (tested0 _ 4); [exact A1|fin|apply C'; left; reflexivity|lia].
  - destruct X as [X|[]]. injection X as <- <-. eapply (tested0 _ (arg2 a)); [exact A1|exact A2|apply C'; left; reflexivity|lia].
  - eapply (tested_fields (arg1 a) error_status_size); [exact A1|unfold error_status_size; fin|apply C'; left; reflexivity| |exact X]. fld.
  - apply in_app_or in X. destruct X as [X|[X|[]]].
    + eapply tested_name; [exact A1|apply C'; left; reflexivity|exact X].
    + injection X as <- <-. eapply (tested0 _ 1); [exact A5|fin|apply C'; right; left; reflexivity|lia].
  - destruct X as [X|[]]. injection X as <- <-. eapply (tested0 _ (arg3 a)); [exact A2|exact A3|apply C'; left; reflexivity|auto].
  - destruct X as [X|[X|[X|[]]]]; injection X as <- <-.
    + eapply (tested0 _ (e_psize e pid)); [exact A2|apply E3|apply L'; left; reflexivity|exact R].
    + eapply (tested0 _ 4); [exact A4|fin|apply C'; right; left; reflexivity|lia].
    + eapply (tested0 _ 4); [exact A3|fin|apply C'; left; reflexivity|lia].
  - apply in_app_or in X. destruct X as [X|[X|[]]].
    + eapply tested_name; [exact A1|apply C'; left; reflexivity|exact X].
    + injection X as <- <-. eapply (tested0 _ 1); [exact A2|fin|apply C'; right; left; reflexivity|lia].
  - eapply (tested_fields (arg2 a) sampling_status_size); [exact A2|unfold sampling_status_size; fin|apply C'; left; reflexivity| |exact X]. fld.
  - apply in_app_or in X. destruct X as [X|[X|[]]].
    + eapply tested_name; [exact A1|apply C'; left; reflexivity|exact X].
    + injection X as <- <-. eapply (tested0 _ 1); [exact A5|fin|apply C'; right; left; reflexivity|lia].
  - destruct X as [X|[]]. injection X as <- <-. eapply (tested0 _ (arg3 a)); [exact A2|exact A3|apply C'; left; reflexivity|auto].
  - destruct X as [X|[X|[X|[]]]]; injection X as <- <-.
    + eapply (tested0 _ 4); [exact A5|fin|apply C'; right; left; reflexivity|lia].
    + eapply (tested0 _ (arg3 a)); [exact A4|exact A3|apply C'; left; reflexivity|lia].
    + eapply (tested0 _ (arg3 a)); [exact A4|exact A3|apply C'; left; reflexivity|lia].
  - apply in_app_or in X. destruct X as [X|[X|[]]].
    + eapply tested_name; [exact A1|apply C'; left; reflexivity|exact X].
    + injection X as <- <-. eapply (tested0 _ 1); [exact A2|fin|apply C'; right; left; reflexivity|lia].
  - eapply (tested_fields (arg2 a) queueing_status_size); [exact A2|unfold queueing_status_size; fin|apply C'; left; reflexivity| |exact X]. fld.
  - destruct X as [X|X].
    + injection X as <- <-. eapply (tested0 _ 1); [exact A1|fin|apply C'; left; reflexivity|lia].
    + eapply (tested_fields (arg2 a) lockobj_attr_size); [exact A2|unfold lockobj_attr_size; fin|apply C'; right; left; reflexivity| |exact X]. fld.
  - destruct R as [R1 R2]. destruct (Z.eqb_spec (arg2 a) 0) as [|_]; [contradiction|].
    unfold fields, lockattr_fields in X. cbn [map] in X.
    repeat (destruct X as [X|X]; [injection X as <- <-; apply (raw (arg2 a) 20); fin|]). destruct X.
  - eapply (tested_fields (arg1 a) pci_device_size); [exact A1|unfold pci_device_size; fin|apply C'; left; reflexivity| |exact X]. fld.
  - destruct X as [X|[]]. injection X as <- <-. eapply (tested0 _ 4); [exact A2|fin|apply C'; left; reflexivity|lia].
  - destruct X as [X|[]]. injection X as <- <-. eapply (tested0 _ 4); [exact A2|fin|apply C'; left; reflexivity|lia].
  - destruct X as [X|[]]. injection X as <- <-. eapply (tested0 _ 4); [exact A2|fin|apply C'; left; reflexivity|lia].
  - destruct X.
Qed.

Lemma syscall_room : forall c ebx, is_u32 ebx -> room c (args_at m (u32 (ebx + pbase pid))) ->
  stays_inside (pbase pid) (psize pid) (syscall nparts psize pbase pid ebx c e m m).
Proof.
  intros c ebx Hx R a n X. unfold syscall in X.
  destruct (ptr_in_partition nparts psize pid ebx 24) eqn:G; [|destruct X].
  assert (I : forall a n, In (a, n) [(u32 (ebx + pbase pid), 24)] -> inside a n (pbase pid) (pbase pid + psize pid)).
  { intros a' n' [Y|[]]. injection Y as <- <-. eapply (tested0 _ 24); [exact Hx|unfold is_u32; lia|exact G|lia]. }
  cbn zeta in X.
  destruct (forallb _ (checks c e _)) eqn:K; [|apply I; exact X].
  destruct (forallb _ (late_checks c e pid _)) eqn:L; [|apply I; exact X].
  cbn [touched In] in X. destruct X as [X|X]; [apply I; left; exact X|].
  eapply accesses_inside; eauto.
Qed.
End Calls.

Lemma undertested_room : forall psize pbase pid e m c a, ~ undertested c -> room psize pbase pid e m c a.
Proof. intros psize pbase pid e m c a H. destruct c; cbn in *; try exact I; destruct (H I). Qed.

Lemma refused_inside : forall nparts psize pbase pid ebx c e m0 m l, placed psize pbase pid -> is_u32 ebx ->
  syscall nparts psize pbase pid ebx c e m0 m = Refused l -> stays_inside (pbase pid) (psize pid) (Refused l).
Proof.
  intros nparts psize pbase pid ebx c e m0 m l P Hx H a n X. unfold syscall in H.
  destruct (ptr_in_partition nparts psize pid ebx 24) eqn:G; [|injection H as <-; destruct X].
  assert (Y : l = [(u32 (ebx + pbase pid), 24)]).
  { cbn zeta in H. destruct (forallb _ (checks c e _)); [|now injection H as <-]. destruct (forallb _ (late_checks c e pid _)); [discriminate H|now injection H as <-]. }
  subst l. destruct X as [X|[]]. injection X as <- <-. eapply (tested0 nparts psize pbase pid P _ 24); [exact Hx|unfold is_u32; lia|exact G|lia].
Qed.

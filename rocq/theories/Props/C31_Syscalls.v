(** C31: System calls touch user memory only inside the caller's partition.
    False of eight calls; refuted for each. Proved for all others. *)
From Coq Require Import ZArith List Bool Lia.
From Verif Require Import Model.Base Model.Mem Model.Syscall Spec.MemSpec Spec.SyscallSpec Proof.Tac Proof.SyscallProof.
Import ListNotations.
Open Scope Z_scope.

(** The claim for one call, as long as nobody changes the arguments meanwhile. *)
Definition claim (c : call) : Prop := forall nparts psize pbase pid e m ebx,
  placed psize pbase pid -> sound_env e -> byte_memory m -> is_u32 ebx ->
  stays_inside (pbase pid) (psize pid) (syscall nparts psize pbase pid ebx c e m m).

(** Missing: the eight calls below, for which it is false. *)
Theorem C31_calls_partial : forall c, ~ undertested c -> claim c.
Proof. intros c H nparts psize pbase pid e m ebx P E B X. apply syscall_room; try assumption. apply undertested_room, H. Qed.
Print Assumptions C31_calls_partial.

(** A call that is refused touches at most its own argument structure, whatever happens to it meanwhile. *)
Theorem C31_refused : forall nparts psize pbase pid ebx c e m0 m l, placed psize pbase pid -> is_u32 ebx ->
  syscall nparts psize pbase pid ebx c e m0 m = Refused l -> stays_inside (pbase pid) (psize pid) (Refused l).
Proof. exact refused_inside. Qed.
Print Assumptions C31_refused.

(** The eight calls under the conditions they should have tested. *)
Theorem C31_others_partial : forall nparts psize pbase pid e m ebx c a,
  placed psize pbase pid -> sound_env e -> byte_memory m -> is_u32 ebx -> a = args_at m (u32 (ebx + pbase pid)) ->
  match c with
  | ConsWrite => forall j, 0 <= j < arg2 a -> m (u32 (arg1 a + pbase pid) + j) <> 255
  | GetChar => arg1 a < psize pid
  | NodeMacAddr => arg2 a + 6 <= psize pid
  | SamplingRead => e_psize e (u8 (arg1 a)) <= e_psize e pid
  | LockobjOperation => arg2 a <> 0 /\ arg2 a + 20 <= psize pid
  | NetRead | NetPollAndRead => Z.min (arg3 a) (e_qlen e (u8 (arg1 a))) <= 4
  | NetWrite => arg3 a <= 4
  | _ => True
  end -> stays_inside (pbase pid) (psize pid) (syscall nparts psize pbase pid ebx c e m m).
Proof. intros nparts psize pbase pid e m ebx c a P E B X -> R. apply syscall_room; try assumption. Qed.
Print Assumptions C31_others_partial.

(** ** Witnesses: one partition of 64 bytes at address 4096, its arguments at offset 0. *)
Definition demo_bytes (a : args) : list Z :=
  let w x := [x mod 256; x / 256 mod 256; x / 65536 mod 256; x / 16777216 mod 256] in
  [0; 0; 0; 0] ++ w (arg1 a) ++ w (arg2 a) ++ w (arg3 a) ++ w (arg4 a) ++ w (arg5 a).
(** The last two bytes of the partition are given, the others are 0. *)
Definition demo_mem (a : args) (y z : Z) (x : Z) : Z :=
  if x =? 4158 then y mod 256 else if x =? 4159 then z mod 256
  else if (4096 <=? x) && (x <? 4120) then nth (Z.to_nat (x - 4096)) (demo_bytes a) 0 else 0.
Definition demo_env := mkEnv [[97]] 3 (fun i => if i =? 1 then 8 else 4) (fun _ => 4) 0 (fun _ => 20).
Definition demo_call (c : call) (a : args) (y z : Z) : outcome :=
  syscall 1 (fun _ => 64) (fun _ => 4096) 0 0 c demo_env (demo_mem a y z) (demo_mem a y z).

Lemma demo_placed : placed (fun _ => 64) (fun _ => 4096) 0. Proof. unfold placed; lia. Qed.
Lemma demo_sound : sound_env demo_env.
Proof.
  unfold sound_env, is_u32, demo_env; cbn [e_names e_maxlen e_psize e_consumed e_msgsize e_qlen].
  repeat split; try lia; try (destruct (i =? 1); lia). intros s [<-|[]]. cbn. lia.
Qed.
Lemma demo_byte : forall a y z, byte_memory (demo_mem a y z).
Proof.
  intros a y z x. assert (M : forall v, 0 <= v mod 256 < 256) by (intros v; apply Z.mod_pos_bound; lia). change (2 ^ 8) with 256.
  unfold demo_mem. destruct (x =? 4158); [apply M|]. destruct (x =? 4159); [apply M|].
  destruct ((4096 <=? x) && (x <? 4120)); [|lia].
  assert (F : Forall (fun b => 0 <= b < 256) (demo_bytes a)) by (unfold demo_bytes; cbn [app]; repeat (constructor; [first [apply M|lia]|]); constructor).
  destruct (nth_in_or_default (Z.to_nat (x - 4096)) (demo_bytes a) 0) as [I|D]; [|rewrite D; lia].
  rewrite Forall_forall in F. apply F, I.
Qed.

Lemma demo_refutes : forall c a y z r, In r (touched (demo_call c a y z)) -> 0 < snd r -> ~ (4096 <= fst r /\ fst r + snd r <= 4160) -> ~ claim c.
Proof.
  intros c a y z [x n] I N O H. specialize (H 1 (fun _ => 64) (fun _ => 4096) 0 demo_env (demo_mem a y z) 0 demo_placed demo_sound (demo_byte a y z) ltac:(unfold is_u32; lia)).
  specialize (H x n I). cbn [fst snd] in *. apply O. pose proof (H 0 ltac:(lia)). pose proof (H (n - 1) ltac:(lia)). lia.
Qed.

(** An escape character at the end of the text makes the console read the next two bytes. *)
Theorem C31_conswrite_refuted : ~ claim ConsWrite.
Proof. apply (demo_refutes _ (mkArgs 62 2 0 0 0) 0 255 (4160, 1)); [vm_compute; tauto|cbn; lia|cbn; lia]. Qed.
Print Assumptions C31_conswrite_refuted.

(** The size tested is 0. *)
Theorem C31_getchar_refuted : ~ claim GetChar.
Proof. apply (demo_refutes _ (mkArgs 64 0 0 0 0) 0 0 (4160, 1)); [vm_compute; tauto|cbn; lia|cbn; lia]. Qed.
Print Assumptions C31_getchar_refuted.

(** Six bytes are written, four are tested. *)
Theorem C31_mac_refuted : ~ claim NodeMacAddr.
Proof. apply (demo_refutes _ (mkArgs 30 60 0 0 0) 0 0 (4156, 6)); [vm_compute; tauto|cbn; lia|cbn; lia]. Qed.
Print Assumptions C31_mac_refuted.

(** The size tested is that of another port. *)
Theorem C31_samplingread_refuted : ~ claim SamplingRead.
Proof. apply (demo_refutes _ (mkArgs 1 60 30 34 0) 0 0 (4156, 8)); [vm_compute; tauto|cbn; lia|cbn; lia]. Qed.
Print Assumptions C31_samplingread_refuted.

(** The null pointer is not tested and denotes address 0 of the kernel. *)
Theorem C31_lockobj_null_refuted : ~ claim LockobjOperation.
Proof. apply (demo_refutes _ (mkArgs 0 0 0 0 0) 0 0 (4, 4)); [vm_compute; tauto|cbn; lia|cbn; lia]. Qed.
Print Assumptions C31_lockobj_null_refuted.

(** The size of another, smaller structure is tested. *)
Theorem C31_lockobj_size_refuted : ~ forall nparts psize pbase pid e m ebx,
  placed psize pbase pid -> sound_env e -> byte_memory m -> is_u32 ebx -> arg2 (args_at m (u32 (ebx + pbase pid))) <> 0 ->
  stays_inside (pbase pid) (psize pid) (syscall nparts psize pbase pid ebx LockobjOperation e m m).
Proof.
  intros H. specialize (H 1 (fun _ => 64) (fun _ => 4096) 0 demo_env (demo_mem (mkArgs 0 48 0 0 0) 0 0) 0 demo_placed demo_sound (demo_byte _ _ _)
    ltac:(unfold is_u32; lia) ltac:(vm_compute; discriminate) 4156 8 ltac:(vm_compute; tauto) 7 ltac:(lia)). lia.
Qed.
Print Assumptions C31_lockobj_size_refuted.

(** Four bytes are tested, whatever the length. *)
Theorem C31_net_refuted : ~ claim NetRead /\ ~ claim NetPollAndRead /\ ~ claim NetWrite.
Proof.
  repeat split.
  - apply (demo_refutes _ (mkArgs 0 60 8 0 0) 0 0 (4156, 8)); [vm_compute; tauto|cbn; lia|cbn; lia].
  - apply (demo_refutes _ (mkArgs 0 60 8 0 0) 0 0 (4156, 8)); [vm_compute; tauto|cbn; lia|cbn; lia].
  - apply (demo_refutes _ (mkArgs 0 60 8 0 0) 0 0 (4156, 8)); [vm_compute; tauto|cbn; lia|cbn; lia].
Qed.
Print Assumptions C31_net_refuted.

(** If another processor changes the arguments between test and use, no test helps. *)
Theorem C31_race_refuted : ~ forall nparts psize pbase pid ebx c e m0 m,
  placed psize pbase pid -> sound_env e -> byte_memory m0 -> byte_memory m -> is_u32 ebx -> ~ undertested c ->
  (forall x, ~ (pbase pid <= x < pbase pid + psize pid) -> m x = m0 x) ->
  stays_inside (pbase pid) (psize pid) (syscall nparts psize pbase pid ebx c e m0 m).
Proof.
  intros H. specialize (H 1 (fun _ => 64) (fun _ => 4096) 0 0 GetTick demo_env (demo_mem (mkArgs 30 0 0 0 0) 0 0) (demo_mem (mkArgs 1000 0 0 0 0) 0 0)
    demo_placed demo_sound (demo_byte _ _ _) (demo_byte _ _ _) ltac:(unfold is_u32; lia) ltac:(cbn; tauto)).
  assert (S : forall x, ~ (4096 <= x < 4096 + 64) -> demo_mem (mkArgs 1000 0 0 0 0) 0 0 x = demo_mem (mkArgs 30 0 0 0 0) 0 0 x).
  { intros x Hx. unfold demo_mem. destruct (Z.eqb_spec x 4158); [lia|]. destruct (Z.eqb_spec x 4159); [lia|].
    destruct (Z.leb_spec 4096 x); [|reflexivity]. destruct (Z.ltb_spec x 4120); [lia|reflexivity]. }
  specialize (H S 5096 8 ltac:(vm_compute; tauto) 0 ltac:(lia)). lia.
Qed.
Print Assumptions C31_race_refuted.

(** Non-vacuity: a name at the end of the partition is accepted and read; one byte further it is refused. *)
Example C31_example :
  demo_call SamplingId (mkArgs 60 40 0 0 0) 0 0 = Done [(4096, 24); (4156, 1); (4136, 1)] /\
  demo_call SamplingId (mkArgs 61 40 0 0 0) 0 0 = Refused [(4096, 24)] /\
  demo_call ConsWrite (mkArgs 62 2 0 0 0) 65 66 = Done [(4096, 24); (4158, 1); (4159, 1)] /\ ~ undertested SamplingId.
Proof. vm_compute. repeat split. tauto. Qed.

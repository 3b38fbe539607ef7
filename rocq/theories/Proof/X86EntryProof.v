(** The entry stubs give back what they found. *)
From Verif Require Import Model.Base Spec.X86Cpu Model.X86Entry Proof.Tac.

Lemma upd_get : forall (m : Z -> Z) a v b, a = b -> upd m a v b = v.
Proof. intros m a v b ->. apply upd_same. Qed.
Ltac rd := repeat match goal with
  | |- context [upd ?m ?a ?v ?b] => first [rewrite (upd_get m a v b) by lia | rewrite (upd_other _ m a v b) by lia]
  end.

(** ** Saving: the words of the frame from its third word (edi) to eax, and es, ds below *)
Record saved (F : Z) (g : gprs) (sp es ds : Z) (m : Z -> Z) : Prop := mkSaved {
  sv_ptr : m (F - 4) = F; sv_es : m F = es; sv_ds : m (F + 4) = ds;
  sv_edi : m (F + 8) = edi g; sv_esi : m (F + 12) = esi g; sv_ebp : m (F + 16) = ebp g;
  sv_ebx : m (F + 24) = ebx g; sv_edx : m (F + 28) = edx g; sv_ecx : m (F + 32) = ecx g; sv_eax : m (F + 36) = eax g }.

Lemma load_kernel : forall t, t 2 = Some (0, 0) -> load t 16 = Some (mkS 16 0 0).
Proof. intros t H. unfold load. change (16 <? 4) with false. change ((16 / 4) mod 2 =? 1) with false. change (16 / 8) with 2. now rewrite H. Qed.
Lemma load_kcode : forall t, t 1 = Some (0, 0) -> load t 8 = Some (mkS 8 0 0).
Proof. intros t H. unfold load. change (8 <? 4) with false. change ((8 / 4) mod 2 =? 1) with false. change (8 / 8) with 1. now rewrite H. Qed.

Lemma ax_16 : forall x, (x / 65536 * 65536 + 16) mod 65536 = 16.
Proof. intros x. rewrite Z.add_comm, Z_mod_plus_full. reflexivity. Qed.

Lemma save_ok : forall c F, gdt c 2 = Some (0, 0) -> esp c = F + 40 -> exists g m,
  exec_all stub_save c =
    Some (mkCpu g (F - 4) (eip c) (efl c) (cs c) (ss c) (mkS 16 0 0) (mkS 16 0 0) (fs c) (gs c) (fpu c) m (esp0 c) (gdt c)) /\
  saved F (gp c) (esp c) (sel (es c)) (sel (ds c)) m /\ (forall a, F + 40 <= a -> m a = mem c a) /\
  ebx g = ebx (gp c) /\ ebp g = ebp (gp c) /\ esi g = esi (gp c) /\ edi g = edi (gp c).
Proof.
  intros c F HG HE. pose proof (load_kernel _ HG) as L. unfold stub_save.
  cbn [exec_all exec push set_gp set_esp set_eip set_mem set_ds set_es gp esp eip efl cs ss ds es fs gs fpu mem esp0 gdt set_eax eax ecx edx ebx ebp esi edi].
  rewrite ax_16, L. cbn [exec_all exec push set_gp set_esp set_eip set_mem set_ds set_es gp esp eip efl cs ss ds es fs gs fpu mem esp0 gdt set_eax eax ecx edx ebx ebp esi edi].
  rewrite ax_16, L.
  do 2 eexists. split; [unfold set_es; cbn; f_equal; f_equal; rewrite HE; lia|].
  cbn [ebx ebp esi edi gp]. split; [|split; [|repeat split]].
  - rewrite HE. constructor; rd; auto; try lia; try (f_equal; lia).
  - intros a Ha. rewrite HE. rd. reflexivity.
Qed.

Ltac cpu := cbn [exec_all exec push set_gp set_esp set_eip set_efl set_cs set_ss set_mem set_ds set_es set_esp0
  gp esp eip efl cs ss ds es fs gs fpu mem esp0 gdt set_eax eax ecx edx ebx ebp esi edi sel base dpl app].

(** ** Restoring *)
Lemma restore_ok : forall c F g sp sde sdd, esp c = F - 4 -> saved F g sp (sel sde) (sel sdd) (mem c) ->
  load (gdt c) (sel sde) = Some sde -> load (gdt c) (sel sdd) = Some sdd ->
  exec_all stub_restore c =
    Some (mkCpu g (F + 44) (eip c) (if_on (efl c)) (cs c) (ss c) sdd sde (fs c) (gs c) (fpu c) (mem c) (esp0 c) (gdt c)).
Proof.
  intros c F g sp sde sdd HE [S1 S2 S3 S4 S5 S6 S7 S8 S9 S10] L1 L2. unfold stub_restore. unfold top.
  cpu. rewrite HE. unfold top. cpu.
  replace (F - 4 + 4 + 0) with F by lia. rewrite S2, L1. cpu. unfold top. cpu.
  replace (F - 4 + 4 + 4 + 0) with (F + 4) by lia. rewrite S3, L2. cpu. unfold top. cpu.
  replace (F - 4 + 4 + 4 + 4 + 28) with (F + 36) by lia. replace (F - 4 + 4 + 4 + 4 + 24) with (F + 32) by lia.
  replace (F - 4 + 4 + 4 + 4 + 20) with (F + 28) by lia. replace (F - 4 + 4 + 4 + 4 + 16) with (F + 24) by lia.
  replace (F - 4 + 4 + 4 + 4 + 8) with (F + 16) by lia. replace (F - 4 + 4 + 4 + 4 + 4) with (F + 12) by lia.
  replace (F - 4 + 4 + 4 + 4 + 0) with (F + 8) by lia. replace (F - 4 + 4 + 4 + 4 + 32 + 4) with (F + 44) by lia.
  rewrite S4, S5, S6, S7, S8, S9, S10. now destruct g.
Qed.

(** ** The upper part of the frame, as the processor pushes it *)
Record pushed (F : Z) (c : cpu) (m : Z -> Z) : Prop := mkPushed {
  pu_eip : m (F + 44) = eip c; pu_cs : m (F + 48) = sel (cs c); pu_efl : m (F + 52) = efl c;
  pu_esp : cpl c = 3 -> m (F + 56) = esp c; pu_ss : cpl c = 3 -> m (F + 60) = sel (ss c);
  pu_own : sel (cs c) = 8 -> esp c = F + 56;
  pu_tss : cpl c = 3 -> esp0 c = F + 64 }.

(** After the entry, with a word for the error code at [F + 40]. *)
Definition entered (F : Z) (c c1 : cpu) : Prop :=
  gp c1 = gp c /\ esp c1 = F + 40 /\ cs c1 = mkS 8 0 0 /\ (ss c1 = if cpl c =? 0 then ss c else mkS 16 0 0) /\
  ds c1 = ds c /\ es c1 = es c /\ gdt c1 = gdt c /\ esp0 c1 = esp0 c /\ pushed F c (mem c1).

Lemma level : forall c, running c -> (cpl c = 3 /\ sel (cs c) <> 8) \/ (cpl c = 0 /\ sel (cs c) = 8).
Proof.
  intros c R. unfold cpl. destruct (run_level c R) as [L | L]; unfold cpl in L.
  - left. split; [exact L|]. intros E. rewrite E in L. discriminate L.
  - right. rewrite L. split; reflexivity.
Qed.

Lemma enter_plain : forall c c1 trap hd, running c -> enter None trap hd c = Some c1 ->
  exists F c2, exec_all [Cli; AddEsp (-4)] c1 = Some c2 /\ entered F c c2.
Proof.
  intros c c1 trap hd R H. unfold enter in H. rewrite (load_kernel _ (run_kdata _ R)), (load_kcode _ (run_kcode _ R)) in H.
  destruct (level c R) as [(L & K) | (L & K)]; rewrite L in H; cbn [Z.eqb] in H; injection H as <-.
  - exists (esp0 c - 64). eexists. split; [cbn [exec_all exec]; reflexivity|].
    unfold entered, pushes. rewrite L. cbn [fold_left app]. cpu. cbn [Z.eqb].
    repeat split; auto; try lia; intros; try (rd; auto); try lia; try contradiction.
  - exists (esp c - 56). eexists. split; [cbn [exec_all exec]; reflexivity|].
    unfold entered, pushes. rewrite L. cbn [fold_left app]. cpu. cbn [Z.eqb].
    repeat split; auto; try lia; intros; try (rd; auto); try lia; try contradiction.
Qed.
Lemma enter_error : forall c c1 e trap hd, running c -> enter (Some e) trap hd c = Some c1 ->
  exists F c2, exec_all [Cli] c1 = Some c2 /\ entered F c c2.
Proof.
  intros c c1 e trap hd R H. unfold enter in H. rewrite (load_kernel _ (run_kdata _ R)), (load_kcode _ (run_kcode _ R)) in H.
  destruct (level c R) as [(L & K) | (L & K)]; rewrite L in H; cbn [Z.eqb] in H; injection H as <-.
  - exists (esp0 c - 64). eexists. split; [cbn [exec_all exec]; reflexivity|].
    unfold entered, pushes. rewrite L. cbn [fold_left app]. cpu. cbn [Z.eqb].
    repeat split; auto; try lia; intros; try (rd; auto); try lia; try contradiction.
  - exists (esp c - 56). eexists. split; [cbn [exec_all exec]; reflexivity|].
    unfold entered, pushes. rewrite L. cbn [fold_left app]. cpu. cbn [Z.eqb].
    repeat split; auto; try lia; intros; try (rd; auto); try lia; try contradiction.
Qed.

(** ** The end *)
Lemma strip_no : forall l s, l <= dpl s -> strip l s = s.
Proof. intros l s H. unfold strip. destruct (Z.ltb_spec (dpl s) l); [lia|reflexivity]. Qed.

Lemma iret_ok : forall c F d, running c -> esp d = F + 44 -> pushed F c (mem d) -> cs d = mkS 8 0 0 ->
  gdt d = gdt c -> ds d = ds c -> es d = es c -> ss d = (if cpl c =? 0 then ss c else mkS 16 0 0) -> gp d = gp c ->
  (cpl c = 3 -> esp0 d = esp0 c) ->
  exists c', iret d = Some c' /\ resumed c c' /\ fpu c' = fpu d /\ mem c' = mem d /\
    (cpl c = 3 -> fs c' = strip 3 (fs d) /\ gs c' = strip 3 (gs d)).
Proof.
  intros c F d R HE P Hcs Hg Hds Hes Hss Hgp Ht. unfold iret, top. rewrite HE.
  replace (F + 44 + 4) with (F + 48) by lia. replace (F + 44 + 8) with (F + 52) by lia.
  replace (F + 44 + 12) with (F + 56) by lia. replace (F + 44 + 16) with (F + 60) by lia.
  replace (F + 44 + 0) with (F + 44) by lia.
  rewrite (pu_cs _ _ _ P), (pu_eip _ _ _ P), (pu_efl _ _ _ P).
  assert (C : cpl d = 0) by (unfold cpl; rewrite Hcs; reflexivity). rewrite C.
  change (sel (cs c) mod 4) with (cpl c). rewrite Hg.
  destruct (run_code _ R) as (C1 & C2 & C3). rewrite C2, C3, Z.eqb_refl.
  destruct (Z.ltb_spec (sel (cs c)) 4) as [X|_]; [lia|]. cbn [orb negb].
  destruct (run_ds _ R) as [D1 D2], (run_es _ R) as [E1 E2], (run_stack _ R) as (K1 & K2 & K3).
  destruct (level c R) as [(L & K) | (L & K)]; rewrite L; cbn [Z.eqb Z.ltb Z.compare].
  - rewrite (pu_ss _ _ _ P L), (pu_esp _ _ _ P L), K2, K3, L. cbn [Z.eqb Pos.eqb negb].
    destruct (Z.ltb_spec (sel (ss c)) 4) as [X|_]; [lia|]. cbn [orb].
    eexists. split; [reflexivity|]. split; [|cbn; auto]. unfold resumed. cbn.
    rewrite Hds, Hes, !strip_no by lia. repeat split; auto.
  - eexists. split; [reflexivity|]. split; [|split; [reflexivity|split; [reflexivity|intros X; discriminate X]]].
    unfold resumed. cbn. repeat split; auto.
    + rewrite (pu_own _ _ _ P K). lia.
    + rewrite Hss, L. reflexivity.
Qed.

(** ** The body of the stubs *)
Lemma exec_app : forall l1 l2 c, exec_all (l1 ++ l2) c =
  match exec_all l1 c with None => None | Some c' => exec_all l2 c' end.
Proof.
  intros l1. induction l1 as [|i l1 IH]; intros l2 c; [reflexivity|]. cbn [app exec_all].
  destruct (exec i c); [apply IH|reflexivity].
Qed.

Lemma saved_same : forall F g sp e d m m', saved F g sp e d m -> (forall a, F - 4 <= a < F + 64 -> m' a = m a) -> saved F g sp e d m'.
Proof. intros F g sp e d m m' [] H. constructor; rewrite H by lia; assumption. Qed.
Lemma pushed_same : forall F c m m', running c -> pushed F c m -> (forall a, F - 4 <= a < F + 64 -> m' a = m a) -> pushed F c m'.
Proof.
  intros F c m m' R [] H. constructor; auto; intros; rewrite H by lia; auto.
Qed.

Lemma tss_ok : forall F c y j, running c -> esp y = F - 4 -> mem y (F - 4) = F -> pushed F c (mem y) ->
  exists z, update_tss j y = Some z /\ keeps 68 y z /\ mem z = mem y /\ fpu z = fpu y /\ fs z = fs y /\ gs z = gs y /\
    (cpl c = 3 -> esp0 z = esp0 c).
Proof.
  intros F c y [[j1 j2] j3] R HE HF P. unfold update_tss, top. rewrite HE, Z.add_0_r, HF, (pu_cs _ _ _ P).
  destruct (run_code _ R) as (C1 & _). rewrite Z.mod_small by lia.
  destruct (level c R) as [(L & K) | (L & K)].
  - destruct (Z.eqb_spec (sel (cs c)) 8) as [X|_]; [contradiction|]. eexists. split; [reflexivity|].
    unfold clobber, keeps. cbn. repeat split; auto. intros _. now rewrite (pu_tss _ _ _ P L).
  - rewrite K. cbn [Z.eqb Pos.eqb]. eexists. split; [reflexivity|].
    unfold clobber, keeps. cbn. repeat split; auto. intros X. rewrite L in X. discriminate X.
Qed.

(** From an entered state through the stub; [mid]: nothing, or storing eax. *)
Lemma body_ok : forall c F c2 h j (sys : bool), running c -> entered F c c2 -> c_function 68 h ->
  exists y c', exec_all (stub_save ++ [Call h]) c2 = Some y /\
    exec_all (stub_save ++ [Call h] ++ (if sys then [StoreEax 40] else []) ++ [Call (update_tss j)] ++ stub_restore ++ [Iret]) c2 = Some c' /\
    resumed (if sys then set_gp (set_eax (eax (gp y)) (gp c)) c else c) c' /\
    fpu c' = fpu y /\ (cpl c = 3 -> fs c' = strip 3 (fs y) /\ gs c' = strip 3 (gs y)).
Proof.
  intros c F c2 h j sys R (E1 & E2 & E3 & E4 & E5 & E6 & E7 & E8 & E9) Hh.
  destruct (save_ok c2 F ltac:(rewrite E7; apply (run_kdata _ R)) E2) as (g & m & SV & S1 & S2 & _).
  set (x := mkCpu g (F - 4) (eip c2) (efl c2) (cs c2) (ss c2) (mkS 16 0 0) (mkS 16 0 0) (fs c2) (gs c2) (fpu c2) m (esp0 c2) (gdt c2)) in *.
  destruct (Hh x) as (y & HY & K). exists y.
  destruct K as (K1 & _ & _ & _ & _ & K2 & K3 & _ & _ & K4 & K5). cbn [x esp cs ss gdt mem] in K1, K2, K3, K4, K5.
  assert (M : forall a, F - 4 <= a < F + 64 -> mem y a = m a) by (intros a Ha; apply K5; lia).
  assert (P0 : pushed F c m).
  { destruct E9. constructor; auto; intros; rewrite S2 by lia; auto. }
  assert (PY : pushed F c (mem y)) by (apply (pushed_same F c m); assumption).
  assert (SY : saved F (gp c) (esp c2) (sel (es c)) (sel (ds c)) (mem y)).
  { rewrite <- E5, <- E6, <- E1. apply (saved_same _ _ _ _ _ m); assumption. }
  set (y1 := if sys then set_mem (upd (mem y) (F + 36) (eax (gp y))) y else y).
  assert (G1 : exec_all (if sys then [StoreEax 40] else []) y = Some y1).
  { unfold y1. destruct sys; [|reflexivity]. cbn [exec_all exec]. rewrite K1. replace (F - 4 + 40) with (F + 36) by lia. reflexivity. }
  set (gr := if sys then set_eax (eax (gp y)) (gp c) else gp c).
  assert (Y1 : esp y1 = F - 4 /\ cs y1 = cs y /\ ss y1 = ss y /\ gdt y1 = gdt y /\ fpu y1 = fpu y /\ fs y1 = fs y /\ gs y1 = gs y)
    by (unfold y1; destruct sys; cbn; auto 10).
  assert (PY1 : pushed F c (mem y1)).
  { unfold y1. destruct sys; [|exact PY]. cbn. destruct PY. constructor; auto; intros; rewrite upd_other by lia; auto. }
  assert (SY1 : saved F gr (esp c2) (sel (es c)) (sel (ds c)) (mem y1)).
  { unfold y1, gr. destruct sys; [|exact SY]. cbn. destruct SY. constructor; cbn; rd; auto. }
  destruct Y1 as (A1 & A2 & A3 & A4 & A5 & A6 & A7).
  destruct (tss_ok F c y1 j R A1 (sv_ptr _ _ _ _ _ _ SY1) PY1) as (z & TZ & KZ & MZ & B1 & B2 & B3 & B4).
  destruct KZ as (C1 & _ & _ & _ & _ & C2 & C3 & _ & _ & C4 & _).
  assert (LE : load (gdt z) (sel (es c)) = Some (es c)) by (rewrite C4, A4, K4, E7; apply (run_es _ R)).
  assert (LD : load (gdt z) (sel (ds c)) = Some (ds c)) by (rewrite C4, A4, K4, E7; apply (run_ds _ R)).
  assert (SZ : saved F gr (esp c2) (sel (es c)) (sel (ds c)) (mem z)) by (rewrite MZ; exact SY1).
  pose proof (restore_ok z F gr (esp c2) (es c) (ds c) ltac:(rewrite C1; exact A1) SZ LE LD) as RS.
  set (cx := if sys then set_gp gr c else c).
  assert (RX : running cx) by (unfold cx; destruct sys; [destruct R; constructor; assumption|exact R]).
  assert (PX : pushed F cx (mem z)) by (rewrite MZ; unfold cx; destruct sys; [destruct PY1; constructor; assumption|exact PY1]).
  match type of RS with _ = Some ?d => pose proof (iret_ok cx F d RX eq_refl PX) as IR end. cbn [cs gdt ds es ss gp esp0 fpu fs gs mem] in IR.
  destruct IR as (c' & I1 & I2 & I3 & I4 & I5); try (unfold cx; destruct sys; reflexivity).
  - rewrite C2, A2, K2. exact E3.
  - rewrite C4, A4, K4, E7. unfold cx. now destruct sys.
  - rewrite C3, A3, K3, E4. unfold cx. now destruct sys.
  - intros L. rewrite B4 by (unfold cx in L; now destruct sys). unfold cx. now destruct sys.
  - exists c'. split; [|split; [|split; [|split]]].
    + rewrite exec_app, SV. cbn [exec_all exec]. now rewrite HY.
    + rewrite exec_app, SV. rewrite exec_app. cbn [exec_all exec]. rewrite HY. rewrite exec_app, G1.
      rewrite exec_app. cbn [exec_all exec]. rewrite TZ. rewrite exec_app, RS. cbn [exec_all exec]. now rewrite I1.
    + unfold cx, gr in I2. destruct sys; exact I2.
    + rewrite I3, B1, A5. reflexivity.
    + intros L. destruct I5 as [I6 I7]; [unfold cx; now destruct sys|]. rewrite I6, I7, B2, B3, A6, A7. split; reflexivity.
Qed.

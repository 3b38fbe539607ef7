(** The table of processes is the list of created processes, from entry 1 on. *)
From Verif Require Import Model.Base Model.Arinc Spec.ArincNameSpec Proof.Tac.

Lemma same_name_iff : forall a b, same_name a b = true <-> a = b.
Proof. intros a b. unfold same_name. destruct (list_eq_dec Z.eq_dec a b); intuition congruence. Qed.

Lemma NoDup_app_snoc_names : forall (l : list (list Z)) x, NoDup l -> ~ In x l -> NoDup (l ++ [x]).
Proof.
  induction l as [|a l IH]; intros x U N; cbn.
  - constructor; [intros []|constructor].
  - inversion U as [|? ? A B]; subst. constructor.
    + rewrite in_app_iff. cbn. intros [X|[X|[]]]; [auto|]. apply N. left. auto.
    + apply IH; [assumption|]. intros X. apply N. right. exact X.
Qed.

Lemma app_assoc_cons : forall A (l : list A) x m, l ++ x :: m = (l ++ [x]) ++ m.
Proof. intros. rewrite <- app_assoc. reflexivity. Qed.

(** The table [p] shows the processes [l]. *)
Definition shows (nbt : Z) (l : list (list Z * Z * Z)) (p : procs) : Prop :=
  pr_nb p = Z.of_nat (length l) /\ Z.of_nat (length l) < nbt /\
  (forall n x, nth_error l n = Some x ->
     pr_name p (Z.of_nat n + 1) = p_name x /\ pr_core p (Z.of_nat n + 1) = p_thread x /\
     pr_prio p (Z.of_nat n + 1) = p_prio x) /\
  (forall i, i <= 0 \/ Z.of_nat (length l) < i -> pr_name p i = [] /\ pr_core p i = 0 /\ pr_prio p i = 0).

Lemma loop_miss : forall n p name i,
  (forall j, i <= j < i + Z.of_nat n -> pr_name p j <> name) -> name_loop n p name i = 0.
Proof.
  induction n as [|n IH]; intros p name i H; cbn [name_loop]; [reflexivity|].
  destruct (same_name name (pr_name p i)) eqn:E.
  - apply same_name_iff in E. exfalso. apply (H i); [lia|auto].
  - apply IH. intros j Hj. apply H. lia.
Qed.

Lemma loop_hit : forall n p name i k,
  i <= k < i + Z.of_nat n -> pr_name p k = name -> (forall j, i <= j < k -> pr_name p j <> name) ->
  name_loop n p name i = k.
Proof.
  induction n as [|n IH]; intros p name i k B E F; cbn [name_loop]; [lia|].
  destruct (same_name name (pr_name p i)) eqn:D.
  - apply same_name_iff in D. destruct (Z.eq_dec i k) as [K|K]; [auto|].
    exfalso. apply (F i); [lia|auto].
  - destruct (Z.eq_dec i k) as [K|K].
    + subst i. rewrite E in D. assert (X : same_name name name = true) by (apply same_name_iff; reflexivity).
      rewrite X in D. discriminate D.
    + apply IH; [lia|auto|]. intros j Hj. apply F. lia.
Qed.

Section S.
Variable nbt : Z.
Hypothesis Hn : 0 < nbt < 2 ^ 31.

Lemma exist_miss : forall l p name, shows nbt l p -> name <> [] -> ~ In name (map p_name l) ->
  name_exist nbt p name = 0.
Proof.
  intros l p name (A & B & C & D) N F. unfold name_exist. apply loop_miss. intros j Hj X.
  destruct (Z_le_gt_dec j 0) as [J|J].
  { destruct (D j (or_introl J)) as (Y & _). congruence. }
  destruct (Z_lt_ge_dec (Z.of_nat (length l)) j) as [K|K].
  { destruct (D j (or_intror K)) as (Y & _). congruence. }
  assert (Q : exists x, nth_error l (Z.to_nat (j - 1)) = Some x).
  { destruct (nth_error l (Z.to_nat (j - 1))) eqn:E; [eauto|]. apply nth_error_None in E. lia. }
  destruct Q as (x & Q). destruct (C _ _ Q) as (Y & _).
  replace (Z.of_nat (Z.to_nat (j - 1)) + 1) with j in Y by lia.
  apply F. rewrite <- X, Y. apply in_map. eapply nth_error_In. exact Q.
Qed.

Lemma exist_hit : forall l p n x, shows nbt l p -> NoDup (map p_name l) -> ~ In [] (map p_name l) ->
  nth_error l n = Some x -> name_exist nbt p (p_name x) = Z.of_nat n + 1.
Proof.
  intros l p n x (A & B & C & D) U N E.
  assert (L : (n < length l)%nat) by (apply nth_error_Some; congruence).
  unfold name_exist. apply loop_hit; [lia|apply (C _ _ E)|].
  intros j Hj X. destruct (Z_le_gt_dec j 0) as [J|J].
  { destruct (D j (or_introl J)) as (Y & _). apply N. rewrite <- Y, X. apply in_map. eapply nth_error_In. exact E. }
  assert (Q : exists y, nth_error l (Z.to_nat (j - 1)) = Some y).
  { destruct (nth_error l (Z.to_nat (j - 1))) eqn:F; [eauto|]. apply nth_error_None in F. lia. }
  destruct Q as (y & Q). destruct (C _ _ Q) as (Y & _).
  replace (Z.of_nat (Z.to_nat (j - 1)) + 1) with j in Y by lia.
  assert (I : Z.to_nat (j - 1) = n).
  { rewrite NoDup_nth_error in U. apply U.
    - rewrite map_length. lia.
    - rewrite !nth_error_map, Q, E. cbn. congruence. }
  lia.
Qed.

Definition table_ok (l : list (list Z * Z * Z)) (p : procs) : Prop :=
  shows nbt l p /\ NoDup (map p_name l) /\ ~ In [] (map p_name l).

Lemma in_dec_name : forall name (l : list (list Z)), {In name l} + {~ In name l}.
Proof. intros. apply in_dec. apply list_eq_dec. apply Z.eq_dec. Qed.

Lemma create_cases : forall l p name prio r id r2 p' o,
  table_ok l p -> name <> [] -> create_process nbt name prio r id r2 p = (p', o) ->
  (p' = p /\ o = POutside) \/ 
  (p' = p /\ exists e, o = PReturns e /\
     ((In name (map p_name l) /\ e = NO_ACTION) \/
      (~ In name (map p_name l) /\ ~ MIN_PRIORITY <= prio <= MAX_PRIORITY /\ e = INVALID_PARAM) \/
      (~ In name (map p_name l) /\ MIN_PRIORITY <= prio <= MAX_PRIORITY /\ r <> 0 /\ e = r))) \/
  (o = PProcess (Z.of_nat (length l) + 1) r2 /\ ~ In name (map p_name l) /\ MIN_PRIORITY <= prio <= MAX_PRIORITY /\
     r = 0 /\ table_ok (l ++ [(name, id, prio)]) p').
Proof.
  intros l p name prio r id r2 p' o (T & U & N) NE H. unfold create_process in H.
  destruct (in_dec_name name (map p_name l)) as [I|I].
  - assert (X : exists x, In x l /\ p_name x = name) by (apply in_map_iff in I; destruct I as (x & ? & ?); eauto).
    destruct X as (x & J & E). destruct (In_nth_error _ _ J) as (n & K).
    pose proof (exist_hit _ _ _ _ T U N K) as Y. rewrite E in Y. rewrite Y in H.
    assert (Z0' : (Z.of_nat n + 1 =? 0) = false) by (apply Z.eqb_neq; lia). rewrite Z0' in H. cbn [negb] in H.
    injection H as <- <-. right. left. split; [reflexivity|]. exists NO_ACTION. split; [reflexivity|]. left. auto.
  - rewrite (exist_miss _ _ _ T NE I) in H. change (negb (0 =? 0)) with false in H. cbv iota in H.
    destruct ((MAX_PRIORITY <? prio) || (prio <? MIN_PRIORITY)) eqn:P.
    + injection H as <- <-. right. left. split; [reflexivity|]. exists INVALID_PARAM. split; [reflexivity|].
      right. left. split; [exact I|]. split; [|reflexivity].
      apply orb_true_iff in P. destruct P as [P|P]; apply Z.ltb_lt in P; lia.
    + apply orb_false_iff in P. destruct P as (P1 & P2). apply Z.ltb_ge in P1, P2.
      change ERR_OK with 0 in H. destruct (r =? 0) eqn:R; cbn [negb] in H; cbv zeta in H.
      * apply Z.eqb_eq in R. destruct T as (A & B & C & D).
        assert (W : u32 (pr_nb p + 1) = Z.of_nat (length l) + 1).
        { rewrite A. unfold u32. apply Z.mod_small. lia. }
        rewrite W in H. destruct (nbt <=? Z.of_nat (length l) + 1) eqn:O.
        { injection H as <- <-. left. auto. }
        apply Z.leb_gt in O. injection H as <- <-. right. right.
        split; [reflexivity|]. split; [exact I|]. split; [lia|]. split; [exact R|].
        split; [|split].
        -- unfold shows. cbn [pr_nb pr_name pr_core pr_prio]. rewrite app_length. cbn [length].
           split; [lia|]. split; [lia|]. split.
           ++ intros n x Q. destruct (Nat.lt_ge_cases n (length l)) as [L|L].
              ** rewrite nth_error_app1 in Q by exact L. destruct (C _ _ Q) as (X1 & X2 & X3).
                 rewrite !upd_other by lia. auto.
              ** rewrite nth_error_app2 in Q by exact L.
                 destruct (n - length l)%nat as [|m] eqn:M; [|destruct m; discriminate Q].
                 cbn in Q. injection Q as <-. replace (Z.of_nat n) with (Z.of_nat (length l)) by lia.
                 rewrite !upd_same. auto.
           ++ intros i Hi. rewrite !upd_other by lia. apply D. lia.
        -- rewrite map_app. cbn [map]. apply NoDup_app_snoc_names; assumption.
        -- rewrite map_app, in_app_iff. cbn. intros [X|[X|[]]]; [auto|]. apply NE. exact X.
      * apply Z.eqb_neq in R. injection H as <- <-. right. left. split; [reflexivity|]. exists r.
        split; [reflexivity|]. right. right. auto.
Qed.

Lemma run_shows : forall ops p l p' outs,
  table_ok l p -> named ops -> proc_run nbt ops p = (p', outs) -> ~ In POutside outs ->
  table_ok (l ++ processes ops outs) p'.
Proof.
  induction ops as [|o ops IH]; intros p l p' outs T N R O; cbn [proc_run] in R.
  - injection R as <- <-. cbn. rewrite app_nil_r. exact T.
  - destruct (proc_step nbt o p) as [p1 a] eqn:E. destruct (proc_run nbt ops p1) as [p2 rs] eqn:E2.
    injection R as <- <-.
    assert (N' : named ops) by (intros a1 a2 a3 a4 a5 X; apply (N a1 a2 a3 a4 a5); right; exact X).
    assert (O' : ~ In POutside rs) by (intros X; apply O; right; exact X).
    destruct o as [name prio r id r2|name]; cbn [proc_step] in E.
    + assert (NE : name <> []) by (apply (N name prio r id r2); left; reflexivity).
      destruct (create_cases _ _ _ _ _ _ _ _ _ T NE E) as [(_ & X)|[(-> & e & -> & _)|(-> & _ & _ & _ & T1)]].
      * exfalso. apply O. left. auto.
      * cbn [processes]. eapply IH; eassumption.
      * cbn [processes]. rewrite app_assoc_cons. eapply IH; eassumption.
    + injection E as <- <-. cbn [processes get_process_id]. eapply IH; eassumption.
Qed.

Lemma granted_pos : forall ops, 0 <= granted ops.
Proof.
  induction ops as [|[name prio r id r2|name] t IH]; cbn [granted]; [lia| |exact IH]. destruct (r =? 0); lia.
Qed.

Lemma run_inside : forall ops p l p' outs,
  table_ok l p -> named ops -> proc_run nbt ops p = (p', outs) -> Z.of_nat (length l) + granted ops < nbt ->
  ~ In POutside outs.
Proof.
  induction ops as [|o ops IH]; intros p l p' outs T N R G; cbn [proc_run] in R.
  - injection R as <- <-. intros [].
  - destruct (proc_step nbt o p) as [p1 a] eqn:E. destruct (proc_run nbt ops p1) as [p2 rs] eqn:E2.
    injection R as <- <-. pose proof (granted_pos ops) as GP.
    assert (N' : named ops) by (intros a1 a2 a3 a4 a5 X; apply (N a1 a2 a3 a4 a5); right; exact X).
    destruct o as [name prio r id r2|name]; cbn [proc_step] in E; cbn [granted] in G.
    + assert (NE : name <> []) by (apply (N name prio r id r2); left; reflexivity).
      destruct (create_cases _ _ _ _ _ _ _ _ _ T NE E) as [(-> & ->)|[(-> & e & -> & _)|(-> & _ & _ & -> & T1)]].
      * exfalso. unfold create_process in E. destruct T as ((A & B & _) & _).
        destruct (negb (name_exist nbt p name =? 0)); [discriminate E|].
        destruct (_ || _); [discriminate E|]. change ERR_OK with 0 in E.
        destruct (r =? 0); cbn [negb] in E; cbv zeta in E; [|discriminate E].
        assert (W : u32 (pr_nb p + 1) = Z.of_nat (length l) + 1).
        { rewrite A. unfold u32. apply Z.mod_small. lia. }
        rewrite W in E. destruct (nbt <=? Z.of_nat (length l) + 1) eqn:O; [|discriminate E].
        apply Z.leb_le in O. lia.
      * intros [X|X]; [discriminate X|]. revert X. eapply IH; [exact T|exact N'|exact E2|].
        destruct (r =? 0); lia.
      * intros [X|X]; [discriminate X|]. revert X. eapply IH; [exact T1|exact N'|exact E2|].
        rewrite app_length. cbn [length]. rewrite Z.eqb_refl in G. lia.
    + injection E as <- <-. intros [X|X]; [discriminate X|]. revert X. eapply IH; eassumption.
Qed.

Lemma start_shows : table_ok [] procs_start.
Proof.
  split; [|split; [constructor|intros []]].
  unfold shows, procs_start. cbn. split; [reflexivity|]. split; [lia|]. split.
  - intros n x X. destruct n; discriminate X.
  - auto.
Qed.
End S.

Lemma history_table : forall nbt ops p outs, history nbt ops p outs -> named ops ->
  table_ok nbt (processes ops outs) p.
Proof.
  intros nbt ops p outs (B & R & O) N.
  apply (run_shows nbt B ops procs_start [] p outs (start_shows nbt B) N R O).
Qed.

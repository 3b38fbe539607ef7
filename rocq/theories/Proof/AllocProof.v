(** Invariants of the allocator. *)
From Verif Require Import Model.Base Model.Alloc Spec.AllocSpec Proof.Tac.

Lemma u32_id : forall x, 0 <= x < 2 ^ 32 -> u32 x = x.
Proof. intros. unfold u32. now apply Z.mod_small. Qed.

Lemma first_fit_spec : forall n i t needed,
  match first_fit n i t needed with
  | Some k => i <= k < i + Z.of_nat n /\ sp_alloc (sps t k) = 0 /\ needed <= sp_size (sps t k)
  | None => forall k, i <= k < i + Z.of_nat n -> sp_alloc (sps t k) = 0 -> sp_size (sps t k) < needed
  end.
Proof.
  induction n as [|n IH]; intros i t needed; cbn [first_fit]; [intros; lia|].
  destruct (Z.eqb_spec (sp_alloc (sps t i)) 0) as [A|A], (Z.leb_spec needed (sp_size (sps t i))) as [B|B]; cbn [andb]; [lia|..];
    specialize (IH (i + 1) t needed); destruct (first_fit n (i + 1) t needed) as [k|]; try (intuition lia);
    intros k Hk Ak; (destruct (Z.eq_dec k i) as [Ek|Nk]; [subst k; first [lia | congruence] | apply IH; [lia|exact Ak]]).
Qed.

Lemma find_space_spec : forall n i t p,
  match find_space n i t p with
  | Some k => i <= k < i + Z.of_nat n /\ sp_start (sps t k) = p
  | None => forall k, i <= k < i + Z.of_nat n -> sp_start (sps t k) <> p
  end.
Proof.
  induction n as [|n IH]; intros i t p; cbn [find_space]; [intros; lia|].
  destruct (Z.eqb_spec p (sp_start (sps t i))) as [A|A]; [split; [lia|congruence]|].
  specialize (IH (i + 1) t p). destruct (find_space n (i + 1) t p) as [k|]; [intuition lia|].
  intros k Hk. destruct (Z.eq_dec k i) as [Ek|Nk]; [subst k; congruence|apply IH; lia].
Qed.

Lemma adjacent_none : forall n j i t,
  (forall k, j <= k < j + Z.of_nat n -> k <> i -> sp_alloc (sps t k) <> 1 ->
     sp_start (sps t i) <> u32 (sp_start (sps t k) + sp_size (sps t k)) /\
     sp_start (sps t k) <> u32 (sp_start (sps t i) + sp_size (sps t i))) ->
  adjacent n j i t = None.
Proof.
  induction n as [|n IH]; intros j i t H; cbn [adjacent]; [reflexivity|].
  assert (R : adjacent n (j + 1) i t = None) by (apply IH; intros k Hk; apply H; lia).
  destruct (Z.eqb_spec j i) as [A|A]; cbn [orb]; [exact R|].
  destruct (Z.eqb_spec (sp_alloc (sps t j)) 1) as [B|B]; [exact R|].
  destruct (H j ltac:(lia) A B) as [X Y].
  destruct (Z.eqb_spec (sp_start (sps t i)) (u32 (sp_start (sps t j) + sp_size (sps t j)))); [contradiction|].
  destruct (Z.eqb_spec (sp_start (sps t j)) (u32 (sp_start (sps t i) + sp_size (sps t i)))); [contradiction|exact R].
Qed.

(** * Histories without merging *)

Record heap_ok (c : acfg) (t : table) (l : blocks) : Prop := {
  ho_used : 1 <= used t <= a_nb c - 1;
  ho_in : forall i, 0 <= i < used t -> 0 <= sp_start (sps t i) /\ 0 < sp_size (sps t i) /\ sp_start (sps t i) + sp_size (sps t i) <= a_mem c;
  ho_dis : forall i j, 0 <= i < used t -> 0 <= j < used t -> i <> j ->
    sp_start (sps t i) + sp_size (sps t i) <= sp_start (sps t j) \/ sp_start (sps t j) + sp_size (sps t j) <= sp_start (sps t i);
  ho_bit : forall i, 0 <= i < used t -> sp_alloc (sps t i) = 0 \/ sp_alloc (sps t i) = 1;
  ho_live : forall p n, In (p, n) l <-> exists i, 0 <= i < used t /\ sp_alloc (sps t i) = 1 /\ sp_start (sps t i) = p /\ sp_size (sps t i) = n;
  ho_nodup : NoDup (map fst l)
}.

Lemma heap_start : forall c, good_acfg c -> heap_ok c (table_start c) [].
Proof.
  intros c [G1 G2]. constructor; cbn [table_start sps used]; try lia.
  - intros i Hi. replace i with 0 by lia. rewrite upd_same. cbn. lia.
  - intros i Hi. replace i with 0 by lia. rewrite upd_same. cbn. lia.
  - intros p n. split; [intros []|]. intros (i & Hi & A & _). replace i with 0 in A by lia. rewrite upd_same in A. discriminate A.
  - constructor.
Qed.

Lemma heap_placed : forall c t l, heap_ok c t l -> well_placed c l.
Proof.
  intros c t l [U I D B L N]. split.
  - intros [p n] Hb. apply L in Hb as (i & Hi & _ & <- & <-). cbn. apply I. exact Hi.
  - assert (X : forall a b, In a l -> In b l -> fst a <> fst b -> forall x, inside a x -> inside b x -> False).
    { intros [p n] [q m] Ha Hb Ne x. unfold inside. cbn [fst snd] in *.
      apply L in Ha as (i & Hi & _ & <- & <-). apply L in Hb as (j & Hj & _ & <- & <-).
      assert (i <> j) by (intros ->; congruence). pose proof (D i j Hi Hj H). lia. }
    clear - X N. induction l as [|a l IH]; [constructor|]. cbn [map] in N. inversion N; subst. constructor.
    + apply Forall_forall. intros b Hb. apply X; [now left|now right|]. intros E. apply H1. rewrite E. now apply in_map.
    + apply IH; auto. intros u v Hu Hv. apply X; now right.
Qed.

Lemma allocate_ok : forall c t l n t' r, good_acfg c -> heap_ok c t l -> 0 < n < 2 ^ 32 ->
  allocate c n t = (t', r) -> heap_ok c t' (live_step (OAlloc n) r l).
Proof.
  intros c t l n t' r [G1 G2] K Hn E. pose proof K as [U I D B L N]. unfold allocate in E.
  destruct (Z.leb_spec (a_nb c - 1) (used t)); [inversion E; subst; exact K|].
  pose proof (first_fit_spec (Z.to_nat (used t)) 0 t n) as F.
  destruct (first_fit (Z.to_nat (used t)) 0 t n) as [i|]; [|inversion E; subst; exact K].
  destruct F as (Hi & Ai & Si). rewrite Z2Nat.id in Hi by lia. destruct (I i ltac:(lia)) as (I1 & I2 & I3).
  assert (NEW : ~ In (sp_start (sps t i)) (map fst l)).
  { intros X. apply in_map_iff in X as ([p m] & Ep & Hp). cbn in Ep. apply L in Hp as (j & Hj & Aj & Pj & Sj).
    assert (j <> i) by (intros ->; lia). pose proof (I j Hj). pose proof (D i j ltac:(lia) Hj ltac:(lia)). lia. }
  destruct (Z.eqb_spec (sp_size (sps t i)) n) as [Es|Ns].
  - inversion E; subst; clear E. cbn [live_step].
    assert (X : forall k, sp_start (upd (sps t) i (mkSpace (sp_start (sps t i)) (sp_size (sps t i)) 1) k) = sp_start (sps t k) /\
                          sp_size (upd (sps t) i (mkSpace (sp_start (sps t i)) (sp_size (sps t i)) 1) k) = sp_size (sps t k)).
    { intros k. unfold upd. destruct (Z.eqb_spec k i) as [->|]; auto. }
    constructor; cbn [sps used]; auto.
    + intros k Hk. destruct (X k) as [-> ->]. auto.
    + intros j k Hj Hk. destruct (X k) as [-> ->], (X j) as [-> ->]. auto.
    + intros k Hk. unfold upd. destruct (k =? i); cbn; auto.
    + intros p n. split.
      * intros [Hp|Hp].
        -- inversion Hp; subst. exists i. rewrite upd_same. cbn. repeat split; (assumption || reflexivity || lia).
        -- apply L in Hp as (j & Hj & Aj & Pj & Sj). exists j. rewrite upd_other by (intros ->; lia). auto.
      * intros (j & Hj & Aj & Pj & Sj). destruct (X j) as [Y1 Y2]. rewrite Y1 in Pj. rewrite Y2 in Sj. clear X Y1 Y2.
        destruct (Z.eq_dec j i) as [Ej|Nj]; [left; subst; reflexivity|]. rewrite upd_other in Aj by lia. right. apply L. exists j. auto.
    + cbn [map fst]. constructor; assumption.
  - inversion E; subst; clear E. cbn [live_step].
    assert (V : u32 (used t + 1) = used t + 1) by (apply u32_id; lia).
    rewrite (u32_id (sp_start (sps t i) + n)), (u32_id (sp_size (sps t i) - n)) by lia.
    set (f := upd (upd (sps t) (used t) _) i _).
    assert (Fi : f i = mkSpace (sp_start (sps t i)) n 1) by (unfold f; apply upd_same).
    assert (Fu : f (used t) = mkSpace (sp_start (sps t i) + n) (sp_size (sps t i) - n) 0)
      by (unfold f; rewrite upd_other by lia; apply upd_same).
    assert (Fo : forall k, k <> i -> k <> used t -> f k = sps t k) by (intros; unfold f; rewrite !upd_other by lia; reflexivity).
    clearbody f.
    assert (C : forall k, 0 <= k < used t + 1 -> k = i \/ k = used t \/ (k <> i /\ 0 <= k < used t /\ f k = sps t k)).
    { intros k Hk. destruct (Z.eq_dec k i); [auto|]. destruct (Z.eq_dec k (used t)); [auto|]. right. right. split; [assumption|]. split; [lia|]. apply Fo; lia. }
    constructor; cbn [sps used]; rewrite ?V.
    + lia.
    + intros k Hk. destruct (C k Hk) as [->|[->|(N1 & N2 & ->)]]; [rewrite Fi; cbn; lia|rewrite Fu; cbn; lia|auto].
    + intros j k Hj Hk Ne. destruct (C k Hk) as [Ek|[Ek|(M1 & M2 & Ek)]], (C j Hj) as [Ej|[Ej|(N1 & N2 & Ej)]]; try lia;
        try subst k; try subst j; rewrite ?Ek, ?Ej, ?Fi, ?Fu; cbn [sp_start sp_size];
        first [ lia | pose proof (D i j ltac:(lia) N2 ltac:(lia)); lia | pose proof (D i k ltac:(lia) M2 ltac:(lia)); lia | apply D; auto ].
    + intros k Hk. destruct (C k Hk) as [->|[->|(N1 & N2 & ->)]]; [rewrite Fi; cbn; lia|rewrite Fu; cbn; lia|auto].
    + intros p m. split.
      * intros [Hp|Hp].
        -- inversion Hp; subst. exists i. rewrite Fi. cbn. repeat split; (assumption || reflexivity || lia).
        -- apply L in Hp as (j & Hj & Aj & Pj & Sj). exists j. assert (j <> i) by (intros ->; lia). rewrite Fo by lia. repeat split; (assumption || reflexivity || lia).
      * intros (j & Hj & Aj & Pj & Sj). destruct (C j Hj) as [->|[->|(N1 & N2 & Ej)]].
        -- rewrite Fi in *. cbn in *. left. congruence.
        -- rewrite Fu in Aj. discriminate Aj.
        -- rewrite Ej in *. right. apply L. exists j. auto.
    + cbn [map fst]. constructor; assumption.
Qed.

Lemma in_filter_addr : forall l p q n, In (q, n) (filter (fun b : Z * Z => negb (fst b =? p)) l) <-> In (q, n) l /\ q <> p.
Proof.
  intros. rewrite filter_In. cbn [fst]. destruct (Z.eqb_spec q p); cbn; intuition congruence.
Qed.

Lemma nodup_filter_map : forall l p, NoDup (map fst l) -> NoDup (map fst (filter (fun b : Z * Z => negb (fst b =? p)) l)).
Proof.
  induction l as [|a l IH]; intros p N; [constructor|]. cbn [map] in N. inversion N; subst. cbn [filter].
  destruct (negb (fst a =? p)); [|auto]. cbn [map]. constructor; [|auto]. intros X. apply H1.
  apply in_map_iff in X as (b & <- & Hb). apply filter_In in Hb as [Hb _]. now apply in_map.
Qed.

Lemma free_isolated : forall c t l p n, good_acfg c -> heap_ok c t l -> In (p, n) l ->
  (p = 0 \/ covered l (p - 1)) -> (p + n = a_mem c \/ covered l (p + n)) ->
  heap_ok c (free_block c p t) (live_step (OFree p) None l).
Proof.
  intros c t l p n [G1 G2] K Hp Left Right. pose proof K as [U I D B L N].
  apply L in Hp as (i & Hi & Ai & Pi & Si).
  unfold free_block. pose proof (find_space_spec (Z.to_nat (used t)) 0 t p) as F.
  destruct (find_space (Z.to_nat (used t)) 0 t p) as [k|]; [|exfalso; apply (F i); lia].
  destruct F as [Hk Pk]. rewrite Z2Nat.id in Hk by lia.
  assert (k = i).
  { destruct (Z.eq_dec k i); [assumption|]. exfalso. pose proof (I i Hi). pose proof (I k ltac:(lia)). pose proof (D i k Hi ltac:(lia) ltac:(lia)). lia. }
  subst k. set (t1 := mkTable (upd (sps t) i (mkSpace (sp_start (sps t i)) (sp_size (sps t i)) 0)) (used t)).
  assert (X : forall k, sp_start (sps t1 k) = sp_start (sps t k) /\ sp_size (sps t1 k) = sp_size (sps t k)).
  { intros k. unfold t1, upd. cbn [sps]. destruct (Z.eqb_spec k i) as [->|]; auto. }
  assert (M : merge_space (Z.to_nat (used t)) c i t1 = t1).
  { destruct (Z.to_nat (used t)) as [|m] eqn:Em; [reflexivity|]. cbn [merge_space]. destruct (used t1 =? 1); [reflexivity|].
    rewrite adjacent_none; [reflexivity|]. intros k Hk' Nk Ak. destruct (X k) as [-> ->], (X i) as [-> ->].
    cbn [used t1] in Hk'. rewrite Z2Nat.id in Hk' by (unfold t1; cbn; lia). unfold t1 in Hk'. cbn [used] in Hk'. unfold t1 in Ak. cbn [sps] in Ak. rewrite upd_other in Ak by lia.
    pose proof (I k ltac:(lia)) as Ik. pose proof (I i Hi) as Ii.
    rewrite !u32_id by lia.
    assert (Q : forall x, covered l x -> ~ (sp_start (sps t k) <= x < sp_start (sps t k) + sp_size (sps t k))).
    { intros x ([q m'] & Hb & Hx) Y. unfold inside in Hx. cbn [fst snd] in Hx. apply L in Hb as (j & Hj & Aj & Pj & Sj).
      assert (j <> k) by (intros ->; lia). pose proof (D j k Hj ltac:(lia) ltac:(lia)). lia. }
    split; intros Y.
    - destruct Left as [Z0'|Cv]; [lia|]. apply (Q _ Cv). lia.
    - destruct Right as [Z0'|Cv]; [lia|]. apply (Q _ Cv). lia. }
  rewrite M. cbn [live_step]. constructor; try (unfold t1; cbn [used]; lia).
  - intros k Hk'. destruct (X k) as [-> ->]. auto.
  - intros j k Hj Hk'. destruct (X k) as [-> ->], (X j) as [-> ->]. auto.
  - intros k Hk'. unfold t1, upd. cbn [sps]. destruct (k =? i); cbn; auto.
  - intros q m. rewrite in_filter_addr. rewrite L. split.
    + intros ((j & Hj & Aj & Pj & Sj) & Nq). exists j. destruct (X j) as [-> ->]. split; [exact Hj|]. split; [|auto].
      unfold t1. cbn [sps]. rewrite upd_other by (intros ->; congruence). exact Aj.
    + intros (j & Hj & Aj & Pj & Sj). destruct (X j) as [Y1 Y2]. rewrite Y1 in Pj. rewrite Y2 in Sj. unfold t1 in Aj. cbn [sps] in Aj.
      destruct (Z.eq_dec j i) as [Ej|Nj]; [subst j; rewrite upd_same in Aj; discriminate Aj|]. rewrite upd_other in Aj by lia.
      split; [exists j; auto|]. intros ->. pose proof (I i Hi). pose proof (I j Hj). pose proof (D i j Hi Hj ltac:(lia)). lia.
  - now apply nodup_filter_map.
Qed.

Lemma isolated_ok : forall c t l, good_acfg c -> alloc_history c (isolated_use c) t l -> heap_ok c t l.
Proof.
  intros c t l G H. induction H as [|t l o t' r H K R E]; [now apply heap_start|].
  destruct o as [n|p]; cbn [isolated_use alloc_step] in *.
  - eapply allocate_ok; eauto.
  - destruct R as (n & R1 & R2 & R3). inversion E; subst. eapply free_isolated; eauto.
Qed.

(** * Stacks *)

(** The blocks one after the other from address 0, the last at the head of the list. *)
Fixpoint top (l : blocks) : Z := match l with [] => 0 | (_, n) :: l => top l + n end.
Fixpoint stacked (l : blocks) : Prop :=
  match l with [] => True | (p, n) :: l => p = top l /\ 0 < n /\ stacked l end.

Record stack_ok (c : acfg) (t : table) (l : blocks) : Prop := {
  so_stacked : stacked l;
  so_top : top l <= a_mem c;
  so_at : forall i b, nth_error (rev l) i = Some b -> sps t (Z.of_nat i) = mkSpace (fst b) (snd b) 1;
  so_rest : let k := Z.of_nat (length l) in
    (used t = k + 1 /\ top l < a_mem c /\ sps t k = mkSpace (top l) (a_mem c - top l) 0) \/ (used t = k /\ top l = a_mem c);
  so_used : 1 <= used t <= a_nb c - 1;
  so_ghost : forall i, used t <= i < a_nb c -> harmless c (sps t i)
}.

Lemma top_pos : forall l, stacked l -> 0 <= top l /\ (l <> [] -> 0 < top l).
Proof.
  induction l as [|[p n] l IH]; cbn [stacked top]; [intros _; split; [lia|now intros []]|]. intros (_ & H & Hs). specialize (IH Hs). lia.
Qed.

Lemma harmless_zero : forall c, good_acfg c -> harmless c (mkSpace 0 0 0).
Proof. intros c [G1 G2]. unfold harmless. cbn [sp_start sp_size]. split; [lia|]. rewrite u32_id by lia. lia. Qed.

Lemma stack_start : forall c, good_acfg c -> stack_ok c (table_start c) [].
Proof.
  intros c G. pose proof G as [G1 G2]. constructor; cbn [stacked top table_start sps used length]; auto; try lia.
  - intros i b Hb. destruct i; discriminate Hb.
  - left. change (Z.of_nat 0) with 0. rewrite upd_same, Z.sub_0_r. repeat split; (assumption || reflexivity || lia).
  - intros i Hi. rewrite upd_other by lia. now apply harmless_zero.
Qed.

Lemma nth_rev_range : forall (l : blocks) i, (i < length l)%nat -> exists b, nth_error (rev l) i = Some b.
Proof. intros l i H. destruct (nth_error (rev l) i) eqn:E; [eauto|]. apply nth_error_None in E. rewrite rev_length in E. lia. Qed.

Lemma so_taken : forall c t l i, stack_ok c t l -> 0 <= i < Z.of_nat (length l) -> sp_alloc (sps t i) = 1.
Proof.
  intros c t l i K Hi. destruct (nth_rev_range l (Z.to_nat i) ltac:(lia)) as [b Hb].
  rewrite <- (Z2Nat.id i) by lia. rewrite (so_at _ _ _ K _ _ Hb). reflexivity.
Qed.

Lemma first_fit_skip : forall n i t needed m, (m <= n)%nat ->
  (forall k, i <= k < i + Z.of_nat m -> sp_alloc (sps t k) = 1) ->
  first_fit n i t needed = first_fit (n - m) (i + Z.of_nat m) t needed.
Proof.
  induction n as [|n IH]; intros i t needed m Hm A.
  - replace m with 0%nat by lia. cbn [Nat.sub]. now rewrite Z.add_0_r.
  - destruct m as [|m]; [now rewrite Z.add_0_r, Nat.sub_0_r|]. cbn [first_fit]. rewrite (A i) by lia. cbn [Z.eqb andb].
    rewrite (IH (i + 1) t needed m) by (lia || (intros k Hk; apply A; lia)). cbn [Nat.sub]. f_equal. lia.
Qed.

(** Allocation from a stack: it succeeds exactly if a space in the table is left and the memory suffices. *)
Lemma stack_alloc : forall c t l n, good_acfg c -> stack_ok c t l -> 0 < n < 2 ^ 32 ->
  snd (allocate c n t) = (if (used t <? a_nb c - 1) && (top l + n <=? a_mem c) then Some (top l) else None) /\
  stack_ok c (fst (allocate c n t)) (live_step (OAlloc n) (snd (allocate c n t)) l).
Proof.
  intros c t l n G K Hn. pose proof G as [G1 G2]. pose proof K as [S T A R U H]. pose proof (top_pos l S) as [TP _]. unfold allocate.
  destruct (Z.leb_spec (a_nb c - 1) (used t)); destruct (Z.ltb_spec (used t) (a_nb c - 1)); try lia; [split; [reflexivity|exact K]|].
  cbn [andb]. destruct R as [(R1 & R2 & R3)|(R1 & R2)].
  - rewrite (first_fit_skip (Z.to_nat (used t)) 0 t n (length l)) by (lia || (intros; eapply so_taken; [exact K|lia])).
    replace (Z.to_nat (used t) - length l)%nat with 1%nat by lia. cbn [first_fit]. rewrite Z.add_0_l, R3. cbn [sp_alloc sp_size sp_start Z.eqb andb].
    destruct (Z.leb_spec n (a_mem c - top l)), (Z.leb_spec (top l + n) (a_mem c)); try lia; [|split; [reflexivity|exact K]].
    rewrite R3. cbn [sp_size sp_start]. destruct (Z.eqb_spec (a_mem c - top l) n) as [En|Nn]; cbn [fst snd live_step].
    + split; [reflexivity|]. constructor; cbn [stacked top sps used length]; [split; [reflexivity|split; [lia|exact S]]|lia| | |lia|].
      * intros i b Hb. cbn [rev] in Hb. destruct (Nat.lt_ge_cases i (length l)) as [Hi|Hi].
        -- rewrite nth_error_app1 in Hb by (rewrite rev_length; lia). rewrite upd_other by lia. now apply A.
        -- rewrite nth_error_app2 in Hb by (rewrite rev_length; lia). rewrite rev_length in Hb. destruct (i - length l)%nat as [|q] eqn:Eq; [|destruct q; discriminate Hb].
           cbn in Hb. inversion Hb; subst b. replace i with (length l) by lia. rewrite upd_same. cbn [fst snd]. congruence.
      * right. lia.
      * intros i Hi. rewrite upd_other by lia. now apply H.
    + rewrite !u32_id by lia. split; [reflexivity|]. constructor; cbn [stacked top sps used length]; [split; [reflexivity|split; [lia|exact S]]|lia| | |lia|].
      * intros i b Hb. cbn [rev] in Hb. destruct (Nat.lt_ge_cases i (length l)) as [Hi|Hi].
        -- rewrite nth_error_app1 in Hb by (rewrite rev_length; lia). rewrite !upd_other by lia. now apply A.
        -- rewrite nth_error_app2 in Hb by (rewrite rev_length; lia). rewrite rev_length in Hb. destruct (i - length l)%nat as [|q] eqn:Eq; [|destruct q; discriminate Hb].
           cbn in Hb. inversion Hb; subst b. replace i with (length l) by lia. rewrite upd_same. reflexivity.
      * left. split; [lia|]. split; [lia|]. replace (Z.of_nat (Datatypes.S (length l))) with (used t) by lia. rewrite upd_other by lia. rewrite upd_same. f_equal; lia.
      * intros i Hi. rewrite !upd_other by lia. apply H. lia.
  - pose proof (first_fit_spec (Z.to_nat (used t)) 0 t n) as F. destruct (first_fit (Z.to_nat (used t)) 0 t n) as [k|].
    + destruct F as (F1 & F2 & _). rewrite (so_taken c t l k K) in F2 by lia. discriminate F2.
    + destruct (Z.leb_spec (top l + n) (a_mem c)); [lia|]. split; [reflexivity|exact K].
Qed.

Lemma stacked_lower : forall l i b, stacked l -> nth_error (rev l) i = Some b -> fst b + snd b <= top l /\ 0 <= fst b /\ 0 < snd b.
Proof.
  induction l as [|[p n] l IH]; intros i b S Hb; [destruct i; discriminate Hb|]. cbn [stacked top rev] in *. destruct S as (-> & Hn & S).
  pose proof (top_pos l S) as [TP _].
  destruct (Nat.lt_ge_cases i (length l)) as [Hi|Hi].
  - rewrite nth_error_app1 in Hb by (rewrite rev_length; lia). pose proof (IH i b S Hb). lia.
  - rewrite nth_error_app2 in Hb by (rewrite rev_length; lia). rewrite rev_length in Hb. destruct (i - length l)%nat as [|q] eqn:Eq; [|destruct q; discriminate Hb].
    cbn in Hb. inversion Hb; subst b. cbn. lia.
Qed.

Lemma find_space_first : forall n i t p k, i <= k < i + Z.of_nat n -> sp_start (sps t k) = p ->
  (forall j, i <= j < k -> sp_start (sps t j) <> p) -> find_space n i t p = Some k.
Proof.
  induction n as [|n IH]; intros i t p k Hk Pk Q; [lia|]. cbn [find_space]. destruct (Z.eqb_spec p (sp_start (sps t i))) as [E|E].
  - f_equal. destruct (Z.eq_dec i k); [assumption|]. exfalso. apply (Q i); lia.
  - apply IH; [|exact Pk|intros; apply Q; lia]. destruct (Z.eq_dec i k) as [->|]; [congruence|lia].
Qed.

Lemma adjacent_skip : forall n j i t m, (m <= n)%nat ->
  (forall k, j <= k < j + Z.of_nat m -> k = i \/ sp_alloc (sps t k) = 1) ->
  adjacent n j i t = adjacent (n - m) (j + Z.of_nat m) i t.
Proof.
  induction n as [|n IH]; intros j i t m Hm A.
  - replace m with 0%nat by lia. cbn [Nat.sub]. now rewrite Z.add_0_r.
  - destruct m as [|m]; [now rewrite Z.add_0_r, Nat.sub_0_r|]. cbn [adjacent].
    assert (X : (j =? i) || (sp_alloc (sps t j) =? 1) = true).
    { destruct (A j ltac:(lia)) as [->|E]; [now rewrite Z.eqb_refl|]. rewrite E. apply orb_true_r. }
    rewrite X. rewrite (IH (j + 1) i t m) by (lia || (intros k Hk; apply A; lia)). cbn [Nat.sub]. f_equal. lia.
Qed.

Lemma filter_stacked : forall l p n, stacked ((p, n) :: l) -> filter (fun b : Z * Z => negb (fst b =? p)) l = l.
Proof.
  intros l p n (-> & Hn & S).
  assert (Q : forall l', stacked l' -> forall x, top l' <= x -> filter (fun b : Z * Z => negb (fst b =? x)) l' = l').
  { induction l' as [|[q m] l' IH]; intros S' x Hx; [reflexivity|]. cbn [stacked top filter fst] in *. destruct S' as (-> & Hm & S').
    destruct (Z.eqb_spec (top l') x); [lia|]. cbn [negb]. f_equal. apply IH; [exact S'|lia]. }
  apply Q; [exact S|lia].
Qed.

Lemma stack_free : forall c t l p n, good_acfg c -> harmless c (a_beyond c) -> stack_ok c t ((p, n) :: l) ->
  stack_ok c (free_block c p t) l.
Proof.
  intros c t l p n G BE K. pose proof G as [G1 G2]. pose proof K as [S T A R U H].
  pose proof S as (Ep & Hn & Sl). pose proof (top_pos l Sl) as [TP TP']. cbn [top] in T, R. cbn [length] in R.
  set (k := Z.of_nat (length l)) in *. replace (Z.of_nat (Datatypes.S (length l))) with (k + 1) in R by lia.
  assert (K0 : 0 <= k) by lia.
  assert (Tk : sps t k = mkSpace p n 1).
  { unfold k. rewrite (A (length l) (p, n)); [reflexivity|]. cbn [rev]. rewrite nth_error_app2 by (rewrite rev_length; lia). now rewrite rev_length, Nat.sub_diag. }
  assert (Al : forall i b, nth_error (rev l) i = Some b -> sps t (Z.of_nat i) = mkSpace (fst b) (snd b) 1).
  { intros i b Hb. apply A. cbn [rev]. rewrite nth_error_app1; [exact Hb|]. apply nth_error_Some. congruence. }
  assert (Ul : k + 1 <= used t) by (destruct R as [(R1 & _)|(R1 & _)]; lia).
  unfold free_block. rewrite (find_space_first (Z.to_nat (used t)) 0 t p k).
  2: lia. 2: now rewrite Tk.
  2: { intros j Hj. destruct (nth_rev_range l (Z.to_nat j) ltac:(lia)) as [b Hb]. rewrite <- (Z2Nat.id j) by lia. rewrite (Al _ _ Hb). cbn [sp_start].
       pose proof (stacked_lower l _ b Sl Hb). lia. }
  cbv zeta. rewrite Tk. cbn [sp_start sp_size].
  set (t1 := mkTable (upd (sps t) k (mkSpace p n 0)) (used t)).
  destruct (Z.to_nat (used t)) as [|fuel] eqn:Ef; [lia|]. cbn [merge_space].
  assert (Taken : forall i, 0 <= i < k -> sp_alloc (sps t i) = 1) by (intros; eapply so_taken; [exact K|cbn [length]; lia]).
  assert (Done : used t = k + 1 -> top l + n = a_mem c -> stack_ok c t1 l).
  { intros E1 E2. constructor; auto; try lia.
    - intros i b Hb. assert (i < length l)%nat by (rewrite <- rev_length; apply nth_error_Some; congruence). unfold t1. cbn [sps]. rewrite upd_other by lia. now apply Al.
    - left. unfold t1. cbn [sps used]. fold k. rewrite upd_same. split; [lia|]. split; [lia|]. f_equal; lia.
    - intros i Hi. unfold t1 in *. cbn [sps used] in *. rewrite upd_other by lia. now apply H. }
  unfold t1 at 1. cbn [used]. destruct (Z.eqb_spec (used t) 1) as [E1|N1].
  - apply Done; destruct R as [(R1 & _)|(R1 & R2)]; lia.
  - destruct R as [(R1 & R2 & R3)|(R1 & R2)].
    + rewrite (adjacent_skip (Z.to_nat (used t1)) 0 k t1 (Z.to_nat (k + 1))).
      2: unfold t1; cbn [used]; lia.
      2: { intros i Hi. destruct (Z.eq_dec i k); [auto|]. right. unfold t1. cbn [sps]. rewrite upd_other by lia. apply Taken. lia. }
      replace (Z.to_nat (used t1) - Z.to_nat (k + 1))%nat with 1%nat by (unfold t1; cbn [used]; lia). rewrite Z.add_0_l, Z2Nat.id by lia.
      assert (T1k : sps t1 k = mkSpace p n 0) by (unfold t1; cbn [sps]; apply upd_same).
      assert (T1r : sps t1 (k + 1) = mkSpace (top l + n) (a_mem c - (top l + n)) 0) by (unfold t1; cbn [sps]; rewrite upd_other by lia; exact R3).
      cbn [adjacent]. rewrite T1k, T1r. cbn [sp_start sp_size sp_alloc].
      destruct (Z.eqb_spec (k + 1) k); [lia|]. change (0 =? 1) with false. cbn [orb].
      rewrite !u32_id by lia. destruct (Z.eqb_spec p (top l + n + (a_mem c - (top l + n)))); [lia|].
      destruct (Z.eqb_spec (top l + n) (p + n)); [|lia].
      rewrite T1r. cbn [sp_size].
      set (t2 := delete_space c (k + 1) (grow t1 k (a_mem c - (top l + n)))).
      assert (Use2 : used t2 = k + 1) by (unfold t2; cbn [delete_space used grow t1]; unfold t1; cbn [used]; rewrite u32_id by lia; lia).
      assert (Lo : forall i, i < k -> sps t2 i = sps t i).
      { intros i Hi. unfold t2, delete_space, grow, t1. cbn [sps used]. destruct (Z.leb_spec (k + 1) i); [lia|]. cbn [andb]. rewrite !upd_other by lia. reflexivity. }
      assert (Mid : sps t2 k = mkSpace p (a_mem c - top l) 0).
      { unfold t2, delete_space, grow, t1. cbn [sps used]. destruct (Z.leb_spec (k + 1) k); [lia|]. cbn [andb]. rewrite !upd_same. cbn [sp_start sp_size sp_alloc].
        rewrite u32_id by lia. f_equal. lia. }
      assert (Hi : forall i, k + 1 <= i < a_nb c -> harmless c (sps t2 i)).
      { intros i Hi. unfold t2, delete_space, grow, t1. cbn [sps used]. destruct (Z.leb_spec (k + 1) i); [|lia]. destruct (Z.ltb_spec i (a_nb c)); [|lia]. cbn [andb].
        destruct (Z.eqb_spec i (a_nb c - 1)); [exact BE|]. rewrite !upd_other by lia. apply H. lia. }
      clearbody t2.
      assert (Res : stack_ok c t2 l).
      { constructor; auto; try lia.
        - intros i b Hb. assert (i < length l)%nat by (rewrite <- rev_length; apply nth_error_Some; congruence). rewrite Lo by lia. now apply Al.
        - left. fold k. rewrite Mid, Use2. split; [lia|]. split; [lia|]. f_equal; lia.
        - intros i Hi'. apply Hi. lia. }
      destruct fuel as [|fuel]; [exact Res|]. cbn [merge_space]. destruct (Z.eqb_spec (used t2) 1) as [E2|N2]; [exact Res|].
      rewrite adjacent_none; [exact Res|]. intros i Hi' Ni Ai. rewrite Use2 in Hi'.
      destruct (Z.eq_dec i k) as [->|Nik].
      * destruct (Hi (k + 1) ltac:(lia)) as [Q1 Q2]. rewrite Mid. cbn [sp_start sp_size]. rewrite u32_id by lia. split; [lia|].
        assert (0 < p) by (rewrite Ep; apply TP'; intros ->; cbn in k; lia). lia.
      * exfalso. apply Ai. rewrite Lo by lia. apply Taken. lia.
    + rewrite (adjacent_skip (Z.to_nat (used t1)) 0 k t1 (Z.to_nat (used t1))).
      2: lia.
      2: { intros i Hi. rewrite Z2Nat.id in Hi by (unfold t1; cbn [used]; lia). unfold t1 in *. cbn [used] in Hi. destruct (Z.eq_dec i k); [auto|]. right. cbn [sps]. rewrite upd_other by lia. apply Taken. lia. }
      rewrite Nat.sub_diag. cbn [adjacent]. apply Done; lia.
Qed.

Lemma stack_hist_ok : forall c t l, good_acfg c -> harmless c (a_beyond c) -> alloc_history c stack_use t l -> stack_ok c t l.
Proof.
  intros c t l G BE H. induction H as [|t l o t' r H K R E]; [now apply stack_start|].
  destruct o as [n|p]; cbn [stack_use alloc_step] in *.
  - destruct (stack_alloc c t l n G K R) as [_ X]. now rewrite E in X.
  - destruct R as (n & rest & ->). inversion E; subst. cbn [live_step filter fst]. rewrite Z.eqb_refl. cbn [negb].
    rewrite (filter_stacked rest p n (so_stacked _ _ _ K)). eapply stack_free; eauto.
Qed.

Lemma stacked_in : forall l b, stacked l -> In b l -> 0 <= fst b /\ 0 < snd b /\ fst b + snd b <= top l.
Proof.
  induction l as [|[p n] l IH]; intros b S Hb; [destruct Hb|]. cbn [stacked top] in *; destruct S as (-> & Hn & S); pose proof (top_pos l S) as [TP _]. destruct Hb as [<-|Hb].
  - cbn. lia.
  - specialize (IH b S Hb). lia.
Qed.

Lemma stacked_placed : forall c l, stacked l -> top l <= a_mem c -> well_placed c l.
Proof.
  intros c l S T. split.
  - intros b Hb. pose proof (stacked_in l b S Hb). lia.
  - clear T. induction l as [|[p n] l IH]; [constructor|]. cbn [stacked] in S. destruct S as (-> & Hn & S). constructor; [|auto].
    apply Forall_forall. intros b Hb x Ha Hx. pose proof (stacked_in l b S Hb). unfold inside in *. cbn [fst snd] in *. lia.
Qed.

Lemma top_sum : forall l, top l = fold_right Z.add 0 (map snd l).
Proof. induction l as [|[p n] l IH]; [reflexivity|]. cbn. rewrite IH. lia. Qed.

Lemma run_history : forall c (rule : alloc_op -> blocks -> Prop) check, (forall o l, check o l = true -> rule o l) ->
  forall ops t l t' l' rs, alloc_history c rule t l -> alloc_run c check ops t l = Some (t', l', rs) -> alloc_history c rule t' l'.
Proof.
  intros c rule check CH ops. induction ops as [|o rest IH]; intros t l t' l' rs H E; cbn [alloc_run] in E; [inversion E; subst; exact H|].
  destruct (check o l) eqn:B; [|discriminate]. destruct (alloc_step c o t) as [t1 r] eqn:St.
  destruct (alloc_run c check rest t1 (live_step o r l)) as [[[t2 l2] rs2]|] eqn:R; [|discriminate]. inversion E; subst.
  refine (IH t1 _ t' l' rs2 _ R). eapply ah_step; [exact H|now apply CH|exact St].
Qed.

Lemma any_useb_ok : forall o l, any_useb o l = true -> any_use o l.
Proof.
  intros o l B. destruct o as [n|p]; cbn [any_use any_useb] in *.
  - apply andb_prop in B as [B1 B2]. apply Z.ltb_lt in B1, B2. auto.
  - apply existsb_exists in B as ([q n] & Hb & Eb). apply Z.eqb_eq in Eb. cbn in Eb. subst q. eauto.
Qed.

Lemma coveredb_ok : forall l x, coveredb l x = true -> covered l x.
Proof.
  intros l x B. apply existsb_exists in B as (b & Hb & E). apply andb_prop in E as [E1 E2]. apply Z.leb_le in E1. apply Z.ltb_lt in E2.
  exists b. split; [exact Hb|]. split; assumption.
Qed.

Lemma isolated_useb_ok : forall c o l, isolated_useb c o l = true -> isolated_use c o l.
Proof.
  intros c o l B. destruct o as [n|p]; cbn [isolated_use isolated_useb] in *.
  - apply andb_prop in B as [B1 B2]. apply Z.ltb_lt in B1, B2. auto.
  - apply existsb_exists in B as ([q n] & Hb & E). cbn [fst snd] in E. apply andb_prop in E as [E E3]. apply andb_prop in E as [E1 E2].
    apply Z.eqb_eq in E1. subst q. exists n. split; [exact Hb|]. apply orb_prop in E2, E3.
    split; [destruct E2 as [E|E]; [left; now apply Z.eqb_eq|right; now apply coveredb_ok]|destruct E3 as [E|E]; [left; now apply Z.eqb_eq|right; now apply coveredb_ok]].
Qed.

Lemma stack_useb_ok : forall o l, stack_useb o l = true -> stack_use o l.
Proof.
  intros o l B. destruct o as [n|p]; cbn [stack_use stack_useb] in *.
  - destruct l; apply andb_prop in B as [B1 B2]; apply Z.ltb_lt in B1, B2; auto.
  - destruct l as [|[q n] rest]; [discriminate|]. apply Z.eqb_eq in B. cbn in B. subst q. eauto.
Qed.

Lemma run_reached : forall c (rule : alloc_op -> blocks -> Prop) check, (forall o l, check o l = true -> rule o l) ->
  forall ops l rs, run_blocks c check ops = Some (l, rs) -> exists t, alloc_history c rule t l.
Proof.
  intros c rule check CH ops l rs E. unfold run_blocks in E.
  destruct (alloc_run c check ops (table_start c) []) as [[[t l2] rs2]|] eqn:R; [|discriminate]. inversion E; subst.
  exists t. eapply (run_history c rule check CH ops); [apply ah_start|exact R].
Qed.

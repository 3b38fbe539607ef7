(** The MMU tables of the SPARC port after boot. *)
From Verif Require Import Model.Base Model.Sparc Spec.SparcMmu Proof.Tac Proof.PpcProof.

(** ** Loops *)
Lemma loop_inv : forall (A : Type) (P : Z -> A -> Prop) (f : Z -> A -> A) n i x,
  P i x -> (forall k y, i <= k < i + Z.of_nat n -> P k y -> P (k + 1) (f k y)) ->
  P (i + Z.of_nat n) (loop n i f x).
Proof.
  intros A P f n. induction n as [|n IH]; intros i x H0 HS; cbn [loop].
  - now replace (i + Z.of_nat 0) with i by lia.
  - replace (i + Z.of_nat (S n)) with (i + 1 + Z.of_nat n) by lia.
    apply IH; [apply HS; [lia|exact H0]|]. intros k y Hk. apply HS. lia.
Qed.
Lemma fill_in : forall (g : Z -> Z) v n i m j, i <= j < i + Z.of_nat n ->
  loop n i (fun k (m : Z -> Z) => upd m (g k) v) m (g j) = v.
Proof.
  intros g v n i m j Hj.
  assert (Q : forall k, i <= k < i + Z.of_nat n -> loop n i (fun k (m : Z -> Z) => upd m (g k) v) m (g k) = v); [|now apply Q].
  apply (loop_inv _ (fun e m => forall k, i <= k < e -> m (g k) = v) (fun k m => upd m (g k) v) n i m).
  - intros k Hk. lia.
  - intros k y Hk IH k' Hk'. unfold upd. destruct (Z.eqb_spec (g k') (g k)); [reflexivity|].
    apply IH. assert (k' <> k) by congruence. lia.
Qed.
Lemma fill_out : forall (g : Z -> Z) v n i m x, (forall j, i <= j < i + Z.of_nat n -> x <> g j) ->
  loop n i (fun k (m : Z -> Z) => upd m (g k) v) m x = m x.
Proof.
  intros g v n. induction n as [|n IH]; intros i m x H; cbn [loop]; [reflexivity|].
  rewrite IH; [|intros j Hj; apply H; lia]. apply upd_other. apply H. lia.
Qed.

(** ** Places of the tables *)
Lemma sep_ctx_ctx : forall T p q, p <> q -> ctx_at T p <> ctx_at T q.
Proof. intros T p q H. unfold ctx_at. lia. Qed.
Lemma sep_l1_l1 : forall T p q j k, 0 <= j < 256 -> 0 <= k < 256 -> p <> q \/ j <> k -> l1_at T p j <> l1_at T q k.
Proof. intros T p q j k Hj Hk H. unfold l1_at. clear - Hj Hk H. lia. Qed.
Lemma sep_l2_l2 : forall T p q j k, 0 <= j < 64 -> 0 <= k < 64 -> p <> q \/ j <> k -> l2_at T p j <> l2_at T q k.
Proof. intros T p q j k Hj Hk H. unfold l2_at. clear - Hj Hk H. lia. Qed.
Section Sep.
  Variables (T : tables) (nb heap : Z).
  Hypothesis P : placed T nb heap.
  Lemma sep_ctx_l1 : forall p q j, 0 <= p < nb -> 0 <= q -> 0 <= j -> ctx_at T p <> l1_at T q j.
  Proof. intros p q j Hp Hq Hj. destruct P as (_ & _ & _ & _ & A & _). unfold ctx_at, l1_at. clear - A Hp Hq Hj. lia. Qed.
  Lemma sep_l1_l2 : forall p q j k, 0 <= p < nb -> 0 <= q -> 0 <= j < 256 -> 0 <= k -> l1_at T p j <> l2_at T q k.
  Proof.
    intros p q j k Hp Hq Hj Hk. destruct P as (_ & _ & _ & _ & _ & A & _). unfold l1_at, l2_at.
    clear - A Hp Hq Hj Hk. lia.
  Qed.
  Lemma sep_ctx_l2 : forall p q j, 0 <= p < nb -> 0 <= q -> 0 <= j -> ctx_at T p <> l2_at T q j.
  Proof.
    intros p q j Hp Hq Hj. destruct P as (_ & _ & _ & _ & A & B & _). unfold ctx_at, l2_at.
    clear - A B Hp Hq Hj. lia.
  Qed.
End Sep.

(** ** Words of the entries *)
Definition ptd_word (a : Z) : Z := a / 16 + 1.
Definition pte_word (a : Z) : Z := a / 16 + 142.
Definition kernel_word : Z := 0x4000000 + 158.

Lemma ptd_ok : forall a, 0 <= a < 2 ^ 32 -> a mod 64 = 0 -> Z.lor (Z.shiftr (u32 a) 4) ET_PTD = ptd_word a.
Proof.
  intros a Ha H. unfold u32, ET_PTD, ptd_word. rewrite Z.mod_small by lia.
  rewrite Z.shiftr_div_pow2 by lia. change (2 ^ 4) with 16.
  replace (a / 16) with (2 ^ 2 * (a / 64)) by (change (2 ^ 2) with 4; lia). apply lor_add; lia.
Qed.
Lemma pte_ok : forall a, 0 <= a < 2 ^ 32 -> a mod PAGE = 0 ->
  Z.lor (Z.lor (Z.lor (Z.shiftr a 4) ACC_RWE) ET_PTE) CACHEABLE = pte_word a.
Proof.
  intros a Ha H. rewrite <- !Z.lor_assoc. change (Z.lor ACC_RWE (Z.lor ET_PTE CACHEABLE)) with 142.
  unfold pte_word. rewrite Z.shiftr_div_pow2 by lia. change (2 ^ 4) with 16. change PAGE with 262144 in H.
  replace (a / 16) with (2 ^ 14 * (a / 262144)) by (change (2 ^ 14) with 16384; lia).
  apply lor_add; lia.
Qed.
Lemma kernel_ok : Z.lor (Z.lor (Z.lor (Z.shiftr RAM_ADDR 4) ACC_S_RWE) ET_PTE) CACHEABLE = kernel_word.
Proof. reflexivity. Qed.
Lemma ptd_walk : forall a, 0 <= a -> a mod 64 = 0 -> et (ptd_word a) = 1 /\ table_of (ptd_word a) = a.
Proof.
  intros a Ha H. unfold et, table_of, ptd_word.
  assert (E : a = 64 * (a / 64)) by lia. set (q := a / 64) in *. clearbody q. subst a.
  replace (64 * q / 16) with (4 * q) by lia. lia.
Qed.
Lemma pte_walk : forall a, 0 <= a -> a mod PAGE = 0 ->
  et (pte_word a) = 2 /\ acc (pte_word a) = 3 /\ page_of (pte_word a) / 2 ^ 18 * 2 ^ 18 = a.
Proof.
  intros a Ha H. change PAGE with 262144 in H. change (2 ^ 18) with 262144. unfold et, acc, page_of, pte_word.
  assert (E : a = 262144 * (a / 262144)) by lia. set (q := a / 262144) in *. clearbody q. subst a.
  replace (262144 * q / 16) with (16384 * q) by lia.
  split; [lia|]. split; [|].
  - replace ((16384 * q + 142) / 4) with (4096 * q + 35) by lia. lia.
  - replace ((16384 * q + 142) / 256) with (64 * q) by lia. lia.
Qed.
Lemma kernel_walk : et kernel_word = 2 /\ acc kernel_word = 7.
Proof. split; reflexivity. Qed.

(** ** The tables after initialisation *)
Record inited (T : tables) (nb : Z) (m : Z -> Z) : Prop := mkInited {
  in_ctx : forall p, 0 <= p < nb -> m (ctx_at T p) = ptd_word (l1_at T p 0);
  in_l1 : forall p j, 0 <= p < nb -> 0 <= j < 256 -> m (l1_at T p j) = if j =? 64 then kernel_word else 0;
  in_l2 : forall p j, 0 <= p < nb -> 0 <= j < 64 -> m (l2_at T p j) = 0 }.

Lemma l1_range : forall T nb heap p, placed T nb heap -> 0 <= p < nb ->
  0 <= l1_at T p 0 < 2 ^ 32 /\ l1_at T p 0 mod 64 = 0.
Proof.
  intros T nb heap p (A & _ & B & _ & C & D & E & F) Hp. unfold l1_at. clear - A B C D E F Hp.
  split; [lia|]. assert (G : a_l1 T = 1024 * (a_l1 T / 1024)) by lia.
  set (q := a_l1 T / 1024) in *. clearbody q. rewrite G. clear. lia.
Qed.
Lemma l2_range : forall T nb heap p, placed T nb heap -> 0 <= p < nb ->
  0 <= l2_at T p 0 < 2 ^ 32 /\ l2_at T p 0 mod 64 = 0.
Proof.
  intros T nb heap p (A & _ & _ & B & C & D & E & F) Hp. unfold l2_at. clear - A B C D E F Hp.
  split; [lia|]. assert (G : a_l2 T = 256 * (a_l2 T / 256)) by lia.
  set (q := a_l2 T / 256) in *. clearbody q. rewrite G. clear. lia.
Qed.

Lemma init_ok : forall T nb heap m, placed T (Z.of_nat nb) heap -> inited T (Z.of_nat nb) (space_init T nb m).
Proof.
  intros T nb heap m P. unfold space_init. cbv zeta.
  set (m1 := loop nb 0 (fun i m => upd m (ctx_at T i) ET_INVALID) m). clearbody m1. clear m.
  set (step := fun i m =>
    loop 64 0 (fun j m => upd m (l2_at T i j) ET_INVALID)
      (loop 256 0 (fun j m => upd m (l1_at T i j) ET_INVALID)
        (upd m (ctx_at T i) (Z.lor (Z.shiftr (u32 (l1_at T i 0)) 4) ET_PTD)))).
  assert (S2 : forall p, 0 <= p < 0 + Z.of_nat nb ->
    loop nb 0 step m1 (ctx_at T p) = ptd_word (l1_at T p 0) /\
    (forall j, 0 <= j < 256 -> loop nb 0 step m1 (l1_at T p j) = 0) /\
    (forall j, 0 <= j < 64 -> loop nb 0 step m1 (l2_at T p j) = 0)).
  { apply (loop_inv _ (fun e m => forall p, 0 <= p < e -> m (ctx_at T p) = ptd_word (l1_at T p 0) /\
      (forall j, 0 <= j < 256 -> m (l1_at T p j) = 0) /\ (forall j, 0 <= j < 64 -> m (l2_at T p j) = 0)) step nb 0 m1).
    - intros p Hp. lia.
    - intros k y Hk IH p Hp. rewrite Z.add_0_l in Hk.
      assert (Hp' : 0 <= p < Z.of_nat nb) by (clear - Hk Hp; lia).
      assert (D : p = k \/ 0 <= p < k) by (clear - Hk Hp; lia).
      unfold step. split; [|split].
      + rewrite (fill_out (l2_at T k)) by (intros j Hj; apply (sep_ctx_l2 _ _ _ P); clear - Hk Hj Hp'; lia).
        rewrite (fill_out (l1_at T k)) by (intros j Hj; apply (sep_ctx_l1 _ _ _ P); clear - Hk Hj Hp'; lia).
        destruct D as [-> | D].
        * rewrite upd_same. destruct (l1_range _ _ _ _ P Hp'). now apply ptd_ok.
        * rewrite upd_other by (apply sep_ctx_ctx; clear - D; lia). now apply IH.
      + intros j Hj.
        rewrite (fill_out (l2_at T k)) by (intros j' Hj'; apply (sep_l1_l2 _ _ _ P); clear - Hk Hj' Hj Hp'; lia).
        destruct D as [-> | D].
        * apply (fill_in (l1_at T k)). clear - Hj. change (Z.of_nat 256) with 256. lia.
        * rewrite (fill_out (l1_at T k)).
          -- rewrite upd_other; [now apply IH|].
             intros E. symmetry in E. revert E. apply (sep_ctx_l1 _ _ _ P); clear - Hk Hj Hp'; lia.
          -- intros j' Hj'. change (Z.of_nat 256) with 256 in Hj'.
             apply sep_l1_l1; [exact Hj|exact Hj'|]. left. clear - D. lia.
      + intros j Hj. destruct D as [-> | D].
        * apply (fill_in (l2_at T k)). clear - Hj. change (Z.of_nat 64) with 64. lia.
        * rewrite (fill_out (l2_at T k)).
          -- rewrite (fill_out (l1_at T k)).
             ++ rewrite upd_other; [now apply IH|].
                intros E. symmetry in E. revert E. apply (sep_ctx_l2 _ _ _ P); clear - Hk Hj Hp'; lia.
             ++ intros j' Hj' E. change (Z.of_nat 256) with 256 in Hj'. symmetry in E. revert E.
                apply (sep_l1_l2 _ _ _ P); clear - Hk Hj Hp' Hj'; lia.
          -- intros j' Hj'. change (Z.of_nat 64) with 64 in Hj'.
             apply sep_l2_l2; [exact Hj|exact Hj'|]. left. clear - D. lia. }
  set (m2 := loop nb 0 step m1) in *. rewrite Z.add_0_l in S2.
  change (loop nb 0 (fun i m0 => loop 64 0 (fun j m => upd m (l2_at T i j) ET_INVALID)
      (loop 256 0 (fun j m => upd m (l1_at T i j) ET_INVALID)
        (upd m0 (ctx_at T i) (Z.lor (Z.shiftr (u32 (l1_at T i 0)) 4) ET_PTD)))) m1) with m2.
  clearbody m2. clear step m1. rewrite kernel_ok. change (index1 RAM_ADDR) with 64.
  constructor.
  - intros p Hp. rewrite (fill_out (fun i => l1_at T i 64)); [now apply S2|].
    intros j Hj. apply (sep_ctx_l1 _ _ _ P); clear - Hp Hj; lia.
  - intros p j Hp Hj. destruct (Z.eqb_spec j 64) as [-> | N].
    + apply (fill_in (fun i => l1_at T i 64)). clear - Hp. lia.
    + rewrite (fill_out (fun i => l1_at T i 64)); [now apply S2|].
      intros k Hk. apply sep_l1_l1; [exact Hj|lia|]. now right.
  - intros p j Hp Hj. rewrite (fill_out (fun i => l1_at T i 64)); [now apply S2|].
    intros k Hk E. symmetry in E. revert E. apply (sep_l1_l2 _ _ _ P); clear - Hp Hj Hk; lia.
Qed.

(** ** The tables after boot *)
Record booted (T : tables) (nb : Z) (base size : Z -> Z) (m : Z -> Z) : Prop := mkBooted {
  bo_ctx : forall p, 0 <= p < nb -> m (ctx_at T p) = ptd_word (l1_at T p 0);
  bo_l1 : forall p j, 0 <= p < nb -> 0 <= j < 256 ->
    m (l1_at T p j) = if j =? 64 then kernel_word
                      else if (j =? 0) && (size p <=? PAGE) then ptd_word (l2_at T p 0) else 0;
  bo_l2 : forall p j, 0 <= p < nb -> 0 <= j < 64 ->
    m (l2_at T p j) = if (j =? 0) && (size p <=? PAGE) then pte_word (base p) else 0 }.

(** The same for the partitions below [n]; those above are as initialised. *)
Definition upto (n : Z) (f : Z -> Z) : Z -> Z := fun p => if p <? n then f p else PAGE + 1.
Lemma create_ok : forall T nb heap base size n m,
  placed T nb heap -> 0 <= n < nb -> 0 <= base n < 2 ^ 32 -> base n mod PAGE = 0 ->
  booted T nb base (upto n size) m ->
  booted T nb base (upto (n + 1) size) (fst (create_space T n (base n) (size n) m)).
Proof.
  intros T nb heap base size n m P Hn Hb Ha B. unfold create_space, PARTITION_MAX.
  assert (O : forall p, p <> n -> upto (n + 1) size p = upto n size p).
  { intros p Hp. unfold upto. destruct (Z.ltb_spec p (n + 1)), (Z.ltb_spec p n); auto; lia. }
  assert (U : upto (n + 1) size n = size n) by (unfold upto; destruct (Z.ltb_spec n (n + 1)); [reflexivity|lia]).
  assert (V : (upto n size n <=? PAGE) = false).
  { unfold upto. destruct (Z.ltb_spec n n); [lia|]. reflexivity. }
  destruct (Z.ltb_spec PAGE (size n)) as [L | L].
  - cbn [fst]. assert (X : forall p, (upto (n + 1) size p <=? PAGE) = (upto n size p <=? PAGE)).
    { intros p. destruct (Z.eq_dec p n) as [-> | N]; [|now rewrite O].
      rewrite V, U. apply Z.leb_gt. exact L. }
    destruct B as [B0 B1 B2]. constructor; [exact B0| |].
    + intros p j Hp Hj. rewrite X. now apply B1.
    + intros p j Hp Hj. rewrite X. now apply B2.
  - replace (Z.land (base n) (PAGE - 1) =? 0) with true.
    2:{ symmetry. change (PAGE - 1) with (2 ^ 18 - 1). rewrite land_mod by lia. apply Z.eqb_eq. exact Ha. }
    cbn [negb fst]. change (index1 BASE_VADDR) with 0. change (index2 BASE_VADDR) with 0.
    destruct (l2_range _ _ _ _ P Hn) as [R1 R2]. rewrite (ptd_ok _ R1 R2), (pte_ok _ Hb Ha).
    assert (X : (size n <=? PAGE) = true) by (apply Z.leb_le; exact L).
    destruct B as [B0 B1 B2]. constructor.
    + intros p Hp. rewrite !upd_other; [now apply B0| |];
        [apply (sep_ctx_l1 _ _ _ P)|apply (sep_ctx_l2 _ _ _ P)]; clear - Hp Hn; lia.
    + intros p j Hp Hj.
      rewrite upd_other by (apply (sep_l1_l2 _ _ _ P); clear - Hp Hn Hj; lia).
      destruct (Z.eq_dec p n) as [-> | N].
      * rewrite U, X, andb_true_r. destruct (Z.eq_dec j 0) as [-> | J].
        -- rewrite upd_same. reflexivity.
        -- rewrite upd_other by (apply sep_l1_l1; [exact Hj|lia|now right]).
           rewrite B1 by assumption. destruct (Z.eqb_spec j 0); [contradiction|]. reflexivity.
      * rewrite O by exact N. rewrite upd_other by (apply sep_l1_l1; [exact Hj|lia|now left]). now apply B1.
    + intros p j Hp Hj. destruct (Z.eq_dec p n) as [-> | N].
      * rewrite U, X, andb_true_r. destruct (Z.eq_dec j 0) as [-> | J].
        -- rewrite upd_same. reflexivity.
        -- rewrite upd_other by (apply sep_l2_l2; [exact Hj|lia|now right]).
           rewrite upd_other by (intros E; symmetry in E; revert E; apply (sep_l1_l2 _ _ _ P); clear - Hn Hj; lia).
           rewrite B2 by assumption. destruct (Z.eqb_spec j 0); [contradiction|]. reflexivity.
      * rewrite O by exact N. rewrite upd_other by (apply sep_l2_l2; [exact Hj|lia|now left]).
        rewrite upd_other by (intros E; symmetry in E; revert E; apply (sep_l1_l2 _ _ _ P); clear - Hn Hp Hj; lia).
        now apply B2.
Qed.

Lemma init_booted : forall T nb base size m, inited T nb m -> booted T nb base (upto 0 size) m.
Proof.
  intros T nb base size m [A B C].
  assert (X : forall p, 0 <= p -> (upto 0 size p <=? PAGE) = false).
  { intros p Hp. unfold upto. destruct (Z.ltb_spec p 0); [lia|reflexivity]. }
  constructor; [exact A| |].
  - intros p j Hp Hj. rewrite X by lia. rewrite andb_false_r. now apply B.
  - intros p j Hp Hj. rewrite X by lia. rewrite andb_false_r. now apply C.
Qed.

Lemma creates_ok : forall T nb heap base size parts n m,
  placed T nb heap -> 0 <= n -> n + Z.of_nat (length parts) = nb ->
  (forall i, 0 <= i < Z.of_nat (length parts) -> nth_error parts (Z.to_nat i) = Some (base (n + i), size (n + i))) ->
  (forall p, 0 <= p < nb -> 0 <= base p < 2 ^ 32 /\ base p mod PAGE = 0) ->
  booted T nb base (upto n size) m -> booted T nb base (upto nb size) (create_spaces T n parts m).
Proof.
  intros T nb heap base size parts. induction parts as [|[a sz] r IH]; intros n m P Hn L N Hb B; cbn [create_spaces].
  - cbn [length] in L. replace nb with n at 2 by (clear - L; lia). exact B.
  - cbn [length] in L, N. assert (Hn' : 0 <= n < nb) by (clear - L Hn; lia).
    pose proof (N 0 ltac:(clear; lia)) as N0. cbn [Z.to_nat nth_error] in N0. rewrite Z.add_0_r in N0.
    injection N0 as -> ->.
    apply IH; [exact P|clear - Hn; lia|clear - L; lia| |exact Hb|].
    + intros i Hi. specialize (N (i + 1) ltac:(clear - Hi; lia)).
      replace (Z.to_nat (i + 1)) with (S (Z.to_nat i)) in N by (clear - Hi; lia). cbn [nth_error] in N.
      rewrite N. f_equal. f_equal; f_equal; clear; lia.
    + destruct (Hb n Hn'). now apply create_ok with (heap := heap).
Qed.

(** ** The addresses given to the partitions *)
Lemma alloc_ok : forall heap sz, 0 <= heap -> 0 <= sz -> heap + sz + PAGE <= 2 ^ 32 - PAGE ->
  let '(a, h) := sparc_alloc heap sz in
  a mod PAGE = 0 /\ heap < a <= heap + PAGE /\ h = a + sz.
Proof.
  intros heap sz Hh Hs HR. unfold sparc_alloc. change PAGE with 262144 in *. change (2 ^ 32) with 4294967296 in *.
  assert (E1 : u32 (heap + 262144) = heap + 262144) by (unfold u32; apply Z.mod_small; lia). rewrite E1. clear E1.
  change (u32 (Z.lnot (262144 - 1))) with (Z.shiftl (Z.ones 14) 18).
  assert (E : Z.land (heap + 262144) (Z.shiftl (Z.ones 14) 18) = (heap + 262144) / 262144 * 262144).
  { set (x := heap + 262144). assert (Hx : 0 <= x < 2 ^ 32) by (subst x; change (2 ^ 32) with 4294967296; lia).
    clearbody x. clear - Hx. change 262144 with (2 ^ 18).
    apply Z.bits_inj'. intros n Hn. rewrite Z.land_spec.
    rewrite <- Z.shiftl_mul_pow2, <- Z.shiftr_div_pow2 by lia. rewrite !Z.shiftl_spec by lia.
    destruct (Z.ltb_spec n 18) as [L | L].
    - rewrite !Z.testbit_neg_r with (n := n - 18) by lia. apply andb_false_r.
    - rewrite Z.shiftr_spec by lia. replace (n - 18 + 18) with n by lia.
      destruct (Z.ltb_spec n 32) as [K | K].
      + rewrite Z.ones_spec_low by lia. apply andb_true_r.
      + rewrite Z.ones_spec_high by lia. rewrite andb_false_r. symmetry.
        destruct (Z.eq_dec x 0) as [-> | E]; [apply Z.bits_0|].
        apply Z.bits_above_log2; [lia|]. apply Z.log2_lt_pow2; [lia|].
        apply Z.lt_le_trans with (2 ^ 32); [lia|]. apply Z.pow_le_mono_r; lia. }
  rewrite E. set (q := (heap + 262144) / 262144).
  assert (Q : heap < q * 262144 <= heap + 262144) by (subst q; clear - Hh; lia).
  clearbody q. clear E. 
  assert (E2 : u32 (q * 262144 + sz) = q * 262144 + sz) by (unfold u32; apply Z.mod_small; lia). rewrite E2.
  split; [apply Z.mod_mul; lia|]. split; [exact Q|reflexivity].
Qed.

Lemma room_pos : forall sizes, Forall (fun z => 0 <= z) sizes -> 0 <= sparc_room sizes.
Proof.
  intros sizes H. induction H as [|z r Hz _ IH]; cbn [sparc_room]; [lia|]. change PAGE with 262144. lia.
Qed.

(** Aligned, above the heap, in ascending order and at least a page or the size apart. *)
Lemma bases_ok : forall sizes heap, 0 <= heap -> sparc_fits sizes heap ->
  length (sparc_bases sizes heap) = length sizes /\
  forall i, (i < length sizes)%nat ->
    let a := nth i (sparc_bases sizes heap) 0 in
    a mod PAGE = 0 /\ heap < a /\ a + nth i sizes 0 + PAGE <= 2 ^ 32 /\
    forall j, (i < j < length sizes)%nat ->
      a + PAGE <= nth j (sparc_bases sizes heap) 0 /\ a + nth i sizes 0 < nth j (sparc_bases sizes heap) 0.
Proof.
  intros sizes. induction sizes as [|sz r IH]; intros heap Hh [F R]; cbn [sparc_bases length sparc_room] in *.
  - split; [reflexivity|]. intros i Hi. lia.
  - inversion F as [|? ? Hsz Fr]; subst. pose proof (room_pos r Fr) as RP.
    pose proof (alloc_ok heap sz Hh Hsz ltac:(clear - R RP; change PAGE with 262144 in *; lia)) as A.
    destruct (sparc_alloc heap sz) as [a h]. destruct A as (A1 & A2 & ->).
    assert (H0 : 0 <= a + sz) by (clear - A2 Hh Hsz; lia).
    destruct (IH (a + sz) H0) as [L Q].
    { split; [exact Fr|]. clear - R A2. change PAGE with 262144 in *. lia. }
    cbn [length]. split; [now rewrite L|].
    intros [|i] Hi; cbn [nth].
    + split; [exact A1|]. split; [apply A2|]. split; [clear - R A2 RP; change PAGE with 262144 in *; lia|].
      intros [|j] Hj; [lia|]. cbn [nth]. destruct (Q j ltac:(clear - Hj; lia)) as (Q1 & Q2 & _).
      split; [|exact Q2]. set (b := nth j (sparc_bases r (a + sz)) 0) in *. clearbody b.
      clear - A1 Q1 Q2 Hsz. change PAGE with 262144 in *. lia.
    + destruct (Q i ltac:(clear - Hi; lia)) as (Q1 & Q2 & Q3 & Q4).
      split; [exact Q1|]. split; [clear - Q2 A2 Hsz; lia|]. split; [exact Q3|].
      intros [|j] Hj; [lia|]. cbn [nth]. apply Q4. clear - Hj. lia.
Qed.

Definition base_of (sizes : list Z) (heap p : Z) : Z := nth (Z.to_nat p) (sparc_bases sizes heap) 0.
Definition size_of (sizes : list Z) (p : Z) : Z := nth (Z.to_nat p) sizes 0.

Lemma boot_ok : forall T sizes heap m, placed T (Z.of_nat (length sizes)) heap -> sparc_fits sizes heap ->
  booted T (Z.of_nat (length sizes)) (base_of sizes heap) (size_of sizes) (sparc_boot T sizes heap m).
Proof.
  intros T sizes heap m P F. unfold sparc_boot. set (nb := Z.of_nat (length sizes)).
  assert (Hh : 0 <= heap) by (destruct P as (P1 & _ & _ & _ & P2 & P3 & P4 & _); clear - P1 P2 P3 P4; lia).
  destruct (bases_ok sizes heap Hh F) as [L Q].
  assert (B : booted T nb (base_of sizes heap) (upto nb (size_of sizes))
    (create_spaces T 0 (combine (sparc_bases sizes heap) sizes) (space_init T (length sizes) m))).
  { apply creates_ok with (heap := heap).
    - exact P.
    - lia.
    - rewrite combine_length, L. unfold nb. clear. lia.
    - rewrite combine_length, L, Nat.min_id. intros i Hi. rewrite Z.add_0_l.
      assert (Li : (Z.to_nat i < length (combine (sparc_bases sizes heap) sizes))%nat)
        by (rewrite combine_length, L; clear - Hi; lia).
      rewrite (nth_error_nth' _ (0, 0) Li). f_equal. rewrite combine_nth by exact L. reflexivity.
    - intros p Hp. destruct (Q (Z.to_nat p)) as (Q1 & Q2 & Q3 & _); [unfold nb in Hp; clear - Hp; lia|].
      split; [|exact Q1]. unfold base_of. change PAGE with 262144 in *.
      destruct F as [F _]. assert (S0 : 0 <= nth (Z.to_nat p) sizes 0).
      { apply (proj1 (Forall_forall _ _) F). apply nth_In. unfold nb in Hp. clear - Hp. lia. }
      set (a := nth (Z.to_nat p) (sparc_bases sizes heap) 0) in *. clearbody a. clear - Q2 Q3 Hh S0. lia.
    - apply init_booted. apply init_ok with (heap := heap). exact P. }
  assert (X : forall p, 0 <= p < nb -> upto nb (size_of sizes) p = size_of sizes p).
  { intros p Hp. unfold upto. destruct (Z.ltb_spec p nb); [reflexivity|lia]. }
  destruct B as [B0 B1 B2]. constructor; [exact B0| |].
  - intros p j Hp Hj. rewrite <- (X p Hp). now apply B1.
  - intros p j Hp Hj. rewrite <- (X p Hp). now apply B2.
Qed.

(** ** The walk *)
Lemma walk_ok : forall T nb heap base size m p va, placed T nb heap -> a_ctx T mod 64 = 0 ->
  booted T nb base size m -> (forall p, 0 <= p < nb -> 0 <= base p /\ base p mod PAGE = 0) ->
  0 <= p < nb -> 0 <= va < 2 ^ 32 ->
  walk m (ctpr T) p va =
    if va / 2 ^ 24 =? 64 then Some (kernel_word, 24)
    else if (va <? PAGE) && (size p <=? PAGE) then Some (pte_word (base p), 18) else None.
Proof.
  intros T nb heap base size m p va P A64 B Hb Hp Hva. unfold walk. cbv zeta.
  assert (C : table_of (ctpr T) = a_ctx T).
  { unfold table_of, ctpr. destruct P as (P1 & _ & _ & _ & P2 & P3 & P4 & P5).
    unfold u32. rewrite Z.mod_small by (clear - P1 P2 P3 P4 P5 Hp; lia).
    rewrite Z.shiftr_div_pow2 by lia. change (2 ^ 4) with 16. clear - A64 P1. lia. }
  rewrite C. change (a_ctx T + 4 * p) with (ctx_at T p). rewrite (bo_ctx _ _ _ _ _ B p Hp).
  destruct (l1_range _ _ _ _ P Hp) as [R1 R2].
  destruct (ptd_walk _ (proj1 R1) R2) as [W1 W2]. rewrite W1, W2. cbn [Z.eqb Pos.eqb negb].
  assert (J : 0 <= va / 2 ^ 24 < 256).
  { change (2 ^ 24) with 16777216. change (2 ^ 32) with 4294967296 in Hva. clear - Hva. lia. }
  replace (l1_at T p 0 + 4 * (va / 2 ^ 24)) with (l1_at T p (va / 2 ^ 24)) by (unfold l1_at; ring).
  rewrite (bo_l1 _ _ _ _ _ B p _ Hp J).
  destruct (Z.eqb_spec (va / 2 ^ 24) 64) as [E | E]; [reflexivity|].
  destruct (Z.eqb_spec (va / 2 ^ 24) 0) as [E0 | E0]; cbn [andb].
  - destruct (Z.leb_spec (size p) PAGE) as [S0 | S0].
    2:{ rewrite andb_false_r. reflexivity. }
    destruct (l2_range _ _ _ _ P Hp) as [R3 R4]. destruct (ptd_walk _ (proj1 R3) R4) as [W3 W4].
    rewrite W3, W4. cbn [Z.eqb Pos.eqb negb]. set (k := (va / 2 ^ 18) mod 64).
    assert (K : 0 <= k < 64) by (apply Z.mod_pos_bound; lia).
    replace (l2_at T p 0 + 4 * k) with (l2_at T p k) by (unfold l2_at; ring).
    rewrite (bo_l2 _ _ _ _ _ B p _ Hp K).
    replace (size p <=? PAGE) with true by (symmetry; apply Z.leb_le; exact S0). rewrite !andb_true_r.
    assert (KE : (k =? 0) = (va <? PAGE)).
    { subst k. change PAGE with 262144. change (2 ^ 18) with 262144. change (2 ^ 24) with 16777216 in E0.
      clear - E0 Hva. destruct (Z.ltb_spec va 262144); [apply Z.eqb_eq|apply Z.eqb_neq]; lia. }
    rewrite KE. destruct (va <? PAGE); [|reflexivity].
    destruct (pte_walk _ (proj1 (Hb p Hp)) (proj2 (Hb p Hp))) as (W5 & _). rewrite W5. reflexivity.
  - change (et 0 =? 2) with false. change (et 0 =? 1) with false. cbn [negb]. cbv iota.
    destruct (Z.ltb_spec va PAGE) as [V | V]; [|reflexivity].
    exfalso. apply E0. apply Z.div_small. change PAGE with 262144 in V. change (2 ^ 24) with 16777216. lia.
Qed.

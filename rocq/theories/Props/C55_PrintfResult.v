(** C55: printf returns the number of characters written.

    False: the function that prints a number other than zero returns the number of digits less one. *)
From Verif Require Import Model.Base Model.Libc Spec.LibcSpec Proof.Tac Proof.MemFnProof Proof.NumProof Proof.PrintProof.

Theorem C55_refuted : ~ (forall m fuel fmt args chunks n, vprintf fuel m fmt args = Some (chunks, n) -> n = Z.of_nat (length (concat chunks))).
Proof.
  intros H. specialize (H (fun _ => 0) O [37; 100] [12] [[49; 50]] 1 eq_refl). discriminate H.
Qed.
Print Assumptions C55_refuted.

(** The number of numbers other than zero among the arguments. *)
Definition nonzero_numbers (xs : list piece) : Z :=
  Z.of_nat (length (filter (fun x => match x with Number _ _ v => negb (v =? 0) | _ => false end) xs)).

(** What it returns: the number of characters less one for each number other than zero. *)
Theorem C55_partial : forall m fuel xs, Forall (piece_ok m) xs ->
  (forall p l, In (AString p l) xs -> (length l < fuel)%nat) ->
  exists chunks n,
    vprintf fuel m (concat (map piece_text xs)) (concat (map piece_args xs)) = Some (chunks, n) /\
    n = Z.of_nat (length (concat chunks)) - nonzero_numbers xs.
Proof.
  intros m fuel xs Hok Hs.
  assert (L : (length xs < S (length (concat (map piece_text xs))))%nat).
  { clear. induction xs as [|x xs IH]; [cbn; lia|]. cbn [map concat length]. rewrite app_length.
    assert (1 <= length (piece_text x))%nat by (destruct x as [| |sz k v| |]; cbn; rewrite ?app_length; cbn; lia). lia. }
  destruct (vprintf_loop_spec xs (S (length (concat (map piece_text xs)))) fuel m (mkFile (fun _ => 0) 0 []) 0 L) as (f & n & ls & E & H1 & H2 & H3 & H4);
    [unfold file_ok, BUF_SIZE; cbn; lia|assumption|assumption|].
  exists (f_out (my_fflush f)), n. unfold vprintf. rewrite E. split; [reflexivity|]. rewrite written_flush, H3.
  replace (written (mkFile (fun _ => 0) 0 []) ++ concat ls) with (concat ls) by reflexivity. rewrite H4.
  assert (N : nonzero_numbers xs = fold_right (fun x a => lost x + a) 0 xs).
  { clear. unfold nonzero_numbers. induction xs as [|x xs IH]; [reflexivity|]. cbn [filter fold_right].
    destruct x as [| |sz k v| |]; cbn [lost]; try lia. destruct (v =? 0); cbn [negb length]; lia. }
  rewrite N. lia.
Qed.
Print Assumptions C55_partial.

(** "a%ub" with 7: three characters, result 2. *)
Example C55_demo : vprintf 0 (fun _ => 0) [97; 37; 117; 98] [7] = Some ([[97; 55; 98]], 2) /\
  nonzero_numbers [Literal 97; Number Plain Unsigned 7; Literal 98] = 1.
Proof. vm_compute. split; reflexivity. Qed.

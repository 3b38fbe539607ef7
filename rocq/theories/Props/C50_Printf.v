(** C50: printf renders integers exactly. *)
From Verif Require Import Model.Base Model.Libc Spec.LibcSpec Proof.Tac Proof.MemFnProof Proof.NumProof Proof.PrintProof.

(** Any format made of literal characters, percent signs, numbers of all sizes in the three bases, characters and
    strings, with the corresponding arguments: the output is the concatenation of the expected texts, in particular
    the canonical numeral for each number; printf terminates, and never writes outside its buffer. *)
Theorem C50_printf : forall m fuel xs, Forall (piece_ok m) xs ->
  (forall p l, In (AString p l) xs -> (length l < fuel)%nat) ->
  exists chunks n texts,
    vprintf fuel m (concat (map piece_text xs)) (concat (map piece_args xs)) = Some (chunks, n) /\
    Forall2 shows xs texts /\ concat chunks = concat texts.
Proof.
  intros m fuel xs Hok Hs.
  assert (L : (length xs < S (length (concat (map piece_text xs))))%nat).
  { clear. induction xs as [|x xs IH]; [cbn; lia|]. cbn [map concat length]. rewrite app_length.
    assert (1 <= length (piece_text x))%nat by (destruct x as [| |sz k v| |]; cbn; rewrite ?app_length; cbn; lia). lia. }
  destruct (vprintf_loop_spec xs (S (length (concat (map piece_text xs)))) fuel m (mkFile (fun _ => 0) 0 []) 0 L) as (f & n & ls & E & H1 & H2 & H3 & H4);
    [unfold file_ok, BUF_SIZE; cbn; lia|assumption|assumption|].
  exists (f_out (my_fflush f)), n, ls. unfold vprintf. rewrite E. split; [reflexivity|]. split; [assumption|]. rewrite written_flush. exact H3.
Qed.
Print Assumptions C50_printf.

(** A single integer of 32 bits, signed or unsigned. *)
Theorem C50_integer : forall m v k, (if is_signed k then - 2 ^ 31 <= v < 2 ^ 31 else 0 <= v < 2 ^ 32) ->
  exists chunks n, vprintf 0 m [37; kind_char k] [v mod 2 ^ 32] = Some (chunks, n) /\ shows (Number Plain k v) (concat chunks).
Proof.
  intros m v k H. destruct (C50_printf m 0 [Number Plain k v]) as (chunks & n & texts & E & Sh & C).
  - repeat constructor. cbn [piece_ok int_bits]. change (32 - 1) with 31. destruct (is_signed k); lia.
  - intros p l [X|[]]. discriminate X.
  - exists chunks, n. split; [exact E|]. inversion Sh as [|? t ? ? Sh1 Sh2]; subst. inversion Sh2; subst.
    cbn [concat] in C. rewrite app_nil_r in C. now rewrite C.
Qed.
Print Assumptions C50_integer.

(** "%d: %x%%\n" with -42 and 48879. *)
Example C50_demo : vprintf 0 (fun _ => 0) [37; 100; 58; 32; 37; 120; 37; 37; 10] [(-42) mod 2 ^ 32; 48879] =
  Some ([[45; 52; 50; 58; 32; 98; 101; 101; 102; 37; 10]], 9).
Proof. vm_compute. reflexivity. Qed.

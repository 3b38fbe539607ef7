(** Small lemmas and tactics used everywhere. *)
From Verif Require Import Model.Base.
From Coq Require Export ZArith List Lia Bool ZifyBool ZifyNat ZifyN.
Ltac Zify.zify_post_hook ::= Z.div_mod_to_equations.

Lemma upd_same : forall A (f : Z -> A) i v, upd f i v i = v.
Proof. intros A f i v. unfold upd. now rewrite Z.eqb_refl. Qed.

Lemma upd_other : forall A (f : Z -> A) i v j, j <> i -> upd f i v j = f j.
Proof.
  intros A f i v j Hne. unfold upd.
  destruct (Z.eqb_spec j i) as [He|_]; [contradiction|reflexivity].
Qed.

Lemma mod_inj_range : forall n a b,
  0 < n -> 0 <= b - a < n -> a mod n = b mod n -> a = b.
Proof.
  intros n a b Hn Hab Heq.
  assert (Hd : (b - a) mod n = 0).
  { rewrite Zminus_mod, Heq, Z.sub_diag. now apply Z.mod_0_l; lia. }
  rewrite Z.mod_small in Hd by lia. lia.
Qed.

(** What the console shows. *)
From Verif Require Import Model.Base Model.Libc Model.Console Spec.Terminal.

Definition in_screen (r c : Z) : Prop := 0 <= r < 25 /\ 0 <= c < 80.
(** The state of the console stands for that of the terminal. *)
Record stands (g : console) (t : term) : Prop := {
  st_row : cn_row g = t_row t;
  st_col : cn_col g = t_col t;
  st_in : in_screen (t_row t) (t_col t);
  st_color : u8 (cn_attr g) = t_color t;
  st_cell : forall r c, in_screen r c ->
    cn_mem g (0xb8000 + 160 * r + 2 * c) = fst (t_cell t r c) /\ cn_mem g (0xb8000 + 160 * r + 2 * c + 1) = snd (t_cell t r c)
}.
(** Nothing but the screen is touched. *)
Definition outside (m m' : Z -> Z) : Prop := forall x, x < 0xb8000 \/ 0xb8000 + 4000 <= x -> m' x = m x.
(** The bytes from [i] on. *)
Definition text_at (s : Z -> Z) (i : Z) (l : list Z) : Prop := forall k, (k < length l)%nat -> s (i + Z.of_nat k) = nth k l 0.

(** What the C library functions are expected to do. *)
From Verif Require Import Model.Base.

(** [n] bytes starting at [a] do not run past the end of the address space. *)
Definition fits (a n : Z) : Prop := 0 <= a /\ 0 <= n /\ a + n <= 2 ^ 32.

(** No address belongs to both ranges. *)
Definition disjoint (a b n : Z) : Prop := forall x, a <= x < a + n -> b <= x < b + n -> False.

(** [m'] is [m] with the [n] bytes at [from] copied to [to]. *)
Definition copied (m m' : Z -> Z) (to from n : Z) : Prop :=
  (forall k, 0 <= k < n -> m' (to + k) = m (from + k)) /\
  (forall x, ~ (to <= x < to + n) -> m' x = m x).

(** [m'] is [m] with [n] bytes set to [v]. *)
Definition filled (m m' : Z -> Z) (to v n : Z) : Prop :=
  (forall k, 0 <= k < n -> m' (to + k) = v) /\ (forall x, ~ (to <= x < to + n) -> m' x = m x).

(** The bytes [l] are in memory at [p]. *)
Definition bytes_at (m : Z -> Z) (p : Z) (l : list Z) : Prop :=
  forall k, (k < length l)%nat -> m (p + Z.of_nat k) = nth k l 0.

Definition is_byte (x : Z) : Prop := 0 <= x < 256.

(** A NUL-terminated string with contents [l] at [p]. *)
Definition cstring (m : Z -> Z) (p : Z) (l : list Z) : Prop :=
  fits p (Z.of_nat (length l) + 1) /\ Forall is_byte l /\ ~ In 0 l /\ bytes_at m p (l ++ [0]).

(** [l1] comes before [l2]: after a common prefix comes a smaller element. *)
Definition before (lt : Z -> Z -> Prop) (l1 l2 : list Z) : Prop :=
  exists p a b t1 t2, l1 = p ++ a :: t1 /\ l2 = p ++ b :: t2 /\ lt a b.

(** Bytes read as signed characters. *)
Definition as_signed (x : Z) : Z := if x <? 128 then x else x - 256.
Definition signed_lt (a b : Z) : Prop := as_signed a < as_signed b.

(** * Numerals *)

(** The number that a sequence of digits denotes, most significant first. *)
Definition value (base : Z) (ds : list Z) : Z := fold_left (fun a d => base * a + d) ds 0.

(** Character [c] is the digit [d]. *)
Definition digit_is (c d : Z) : Prop := (0 <= d < 10 /\ c = 48 + d) \/ (10 <= d < 16 /\ c = 97 + (d - 10)).

(** [l] is the numeral of [n]: digits of the base, no leading zero. *)
Definition numeral (base n : Z) (l : list Z) : Prop := exists ds,
  Forall2 digit_is l ds /\ Forall (fun d => 0 <= d < base) ds /\ value base ds = n /\
  (ds = [0] \/ exists d t, ds = d :: t /\ d <> 0).

(** With a minus sign for negative numbers. *)
Definition signed_numeral (n : Z) (l : list Z) : Prop :=
  (0 <= n /\ numeral 10 n l) \/ (n < 0 /\ exists t, l = 45 :: t /\ numeral 10 (- n) t).

(** * Formats *)

(** The pieces of a format string with their arguments: a character that stands for itself, a percent sign, a
    number of a given size, a character, a string. *)
Inductive int_size := Plain | Long | LongLong | Short | Char.
Inductive int_kind := Decimal_d | Decimal_i | Unsigned | Octal | Hexadecimal.
Inductive piece :=
| Literal (c : Z)
| Percent
| Number (sz : int_size) (k : int_kind) (v : Z)
| Character (v : Z)
| AString (p : Z) (l : list Z).

Definition size_text (sz : int_size) : list Z :=
  match sz with Plain => [] | Long => [108] | LongLong => [108; 108] | Short => [104] | Char => [104; 104] end.
Definition kind_char (k : int_kind) : Z :=
  match k with Decimal_d => 100 | Decimal_i => 105 | Unsigned => 117 | Octal => 111 | Hexadecimal => 120 end.
Definition is_signed (k : int_kind) : bool :=
  match k with Decimal_d | Decimal_i => true | _ => false end.

(** The characters of the format. *)
Definition piece_text (x : piece) : list Z :=
  match x with
  | Literal c => [c]
  | Percent => [37; 37]
  | Number sz k _ => 37 :: size_text sz ++ [kind_char k]
  | Character _ => [37; 99]
  | AString _ _ => [37; 115]
  end.

(** The words that the caller puts on the stack, low word first. *)
Definition piece_args (x : piece) : list Z :=
  match x with
  | Literal _ | Percent => []
  | Number LongLong _ v => [v mod 2 ^ 32; (v / 2 ^ 32) mod 2 ^ 32]
  | Number _ _ v => [v mod 2 ^ 32]
  | Character v => [v]
  | AString p _ => [p]
  end.

Definition int_bits (sz : int_size) : Z :=
  match sz with Plain | Long => 32 | LongLong => 64 | Short => 16 | Char => 8 end.

(** The argument is a value of the type that the conversion announces; the most negative long long is left
    out, since its negation overflows. *)
Definition piece_ok (m : Z -> Z) (x : piece) : Prop :=
  match x with
  | Literal c => is_byte c /\ c <> 37 /\ c <> 0
  | Percent => True
  | Number sz k v =>
      if is_signed k then - 2 ^ (int_bits sz - 1) <= v < 2 ^ (int_bits sz - 1) /\ v <> - 2 ^ 63
      else 0 <= v < 2 ^ int_bits sz
  | Character v => is_byte v
  | AString p l => cstring m p l
  end.

(** What is to appear. *)
Definition shows (x : piece) (out : list Z) : Prop :=
  match x with
  | Literal c => out = [c]
  | Percent => out = [37]
  | Number _ k v =>
      match k with
      | Decimal_d | Decimal_i => signed_numeral v out
      | Unsigned => numeral 10 v out
      | Octal => numeral 8 v out
      | Hexadecimal => numeral 16 v out
      end
  | Character v => out = [v]
  | AString _ l => out = l
  end.

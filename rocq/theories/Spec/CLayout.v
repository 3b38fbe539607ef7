(** Where the fields of a C structure lie on the Intel 386 (System V ABI, Intel386 supplement, chapter
    3, "Data representation"), and what it means that a field holds a value. *)
From Coq Require Import ZArith List Bool String.
Import ListNotations.
Local Open Scope Z_scope.

(** A field: name, size and alignment in bytes. Enumerations, int and pointers take 4 bytes; an
    uint64_t takes 8 and is aligned to 4; an array has the alignment of its elements. *)
Definition field : Type := (string * (Z * Z))%type.
Definition f8 (n : string) : field := (n, (1, 1)).
Definition f16 (n : string) : field := (n, (2, 2)).
Definition f32 (n : string) : field := (n, (4, 4)).
Definition f64 (n : string) : field := (n, (8, 4)).
Definition fbytes (n : string) (k : Z) : field := (n, (k, 1)).
Definition fwords (n : string) (k : Z) : field := (n, (4 * k, 4)).

Definition align_up (o a : Z) : Z := (o + a - 1) / a * a.

(** Every field lies at the first fitting place behind the one before. *)
Fixpoint place (fs : list field) (o : Z) : list (string * (Z * Z)) :=
  match fs with
  | [] => []
  | (n, (w, al)) :: r => let p := align_up o al in (n, (p, w)) :: place r (p + w)
  end.

Fixpoint look (n : string) (l : list (string * (Z * Z))) : option (Z * Z) :=
  match l with
  | [] => None
  | (k, x) :: r => if String.eqb n k then Some x else look n r
  end.

(** Offset and size of a field. *)
Definition where_is (fs : list field) (n : string) : option (Z * Z) := look n (place fs 0).

Definition size_of (fs : list field) : Z :=
  align_up (fold_left (fun e x => Z.max e (fst (snd x) + snd (snd x))) (place fs 0) 0)
           (fold_left (fun e f => Z.max e (snd (snd f))) fs 1).

(** Byte [i] of a value, least significant first. *)
Definition byte (v i : Z) : Z := (v / 2 ^ (8 * i)) mod 256.

(** Memory [m] holds [v] in field [n] of a structure [fs] at [a]. *)
Definition holds (fs : list field) (m : Z -> Z) (a : Z) (n : string) (v : Z) : Prop :=
  exists o w, where_is fs n = Some (o, w) /\ 0 <= v < 2 ^ (8 * w) /\
    forall i, 0 <= i < w -> m (a + o + i) = byte v i.

(** A value fits into a field. *)
Definition fits (fs : list field) (n : string) (v : Z) : Prop :=
  match where_is fs n with Some (_, w) => 0 <= v < 2 ^ (8 * w) | None => False end.

(** The lock object a creation asks for. *)
Inductive kind := Mutex | Semaphore | Event.
Record wanted := { w_kind : kind; w_policy : Z; w_queue : Z; w_value : Z; w_max : option Z }.

(** The operation a call asks for: the object and, where the operation may wait, how long. *)
Inductive op := Lock (id timeout : Z) | Unlock (id : Z) | Wait (id timeout : Z) | Signal (id : Z) | Broadcast (id : Z).

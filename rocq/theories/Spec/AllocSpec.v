(** What an allocator is expected to do. *)
From Verif Require Import Model.Base Model.Alloc.

(** Blocks, latest first: address and size. *)
Definition blocks := list (Z * Z).

Definition inside (b : Z * Z) (x : Z) : Prop := fst b <= x < fst b + snd b.
Definition covered (l : blocks) (x : Z) : Prop := exists b, In b l /\ inside b x.

(** Blocks live after an operation with its result. *)
Definition live_step (o : alloc_op) (r : option Z) (l : blocks) : blocks :=
  match o, r with
  | OAlloc n, Some p => (p, n) :: l
  | OAlloc _, None => l
  | OFree p, _ => filter (fun b => negb (fst b =? p)) l
  end.

(** Histories; [rule o l] says when operation [o] is allowed while the blocks [l] are live. *)
Inductive alloc_history (c : acfg) (rule : alloc_op -> blocks -> Prop) : table -> blocks -> Prop :=
| ah_start : alloc_history c rule (table_start c) []
| ah_step : forall t l o t' r, alloc_history c rule t l -> rule o l -> alloc_step c o t = (t', r) ->
    alloc_history c rule t' (live_step o r l).

(** Any positive request and the free of any live block. *)
Definition any_use (o : alloc_op) (l : blocks) : Prop :=
  match o with
  | OAlloc n => 0 < n < 2 ^ 32
  | OFree p => exists n, In (p, n) l
  end.

(** Only blocks are freed that have no free memory beside them. *)
Definition isolated_use (c : acfg) (o : alloc_op) (l : blocks) : Prop :=
  match o with
  | OAlloc n => 0 < n < 2 ^ 32
  | OFree p => exists n, In (p, n) l /\ (p = 0 \/ covered l (p - 1)) /\ (p + n = a_mem c \/ covered l (p + n))
  end.

(** The block allocated last is freed first. *)
Definition stack_use (o : alloc_op) (l : blocks) : Prop :=
  match o with
  | OAlloc n => 0 < n < 2 ^ 32
  | OFree p => exists n rest, l = (p, n) :: rest
  end.

(** Live blocks lie in the heap and are disjoint. *)
Definition well_placed (c : acfg) (l : blocks) : Prop :=
  (forall b, In b l -> 0 <= fst b /\ 0 < snd b /\ fst b + snd b <= a_mem c) /\
  ForallOrdPairs (fun a b => forall x, inside a x -> inside b x -> False) l.

Definition good_acfg (c : acfg) : Prop := 2 <= a_nb c < 2 ^ 32 /\ 0 < a_mem c < 2 ^ 32.

(** What lies behind the table does not look like a neighbour of a space. *)
Definition harmless (c : acfg) (s : space) : Prop :=
  sp_start s <> a_mem c /\ ~ (0 < u32 (sp_start s + sp_size s) <= a_mem c).

(** Runs of a list of operations, for examples: [None] if one is not allowed. *)
Definition any_useb (o : alloc_op) (l : blocks) : bool :=
  match o with
  | OAlloc n => (0 <? n) && (n <? 2 ^ 32)
  | OFree p => existsb (fun b => fst b =? p) l
  end.
Definition coveredb (l : blocks) (x : Z) : bool := existsb (fun b => (fst b <=? x) && (x <? fst b + snd b)) l.
Definition isolated_useb (c : acfg) (o : alloc_op) (l : blocks) : bool :=
  match o with
  | OAlloc n => (0 <? n) && (n <? 2 ^ 32)
  | OFree p => existsb (fun b => (fst b =? p) && ((p =? 0) || coveredb l (p - 1)) && ((p + snd b =? a_mem c) || coveredb l (p + snd b))) l
  end.
Definition stack_useb (o : alloc_op) (l : blocks) : bool :=
  match o, l with
  | OAlloc n, _ => (0 <? n) && (n <? 2 ^ 32)
  | OFree p, b :: _ => fst b =? p
  | OFree _, [] => false
  end.
Fixpoint alloc_run (c : acfg) (check : alloc_op -> blocks -> bool) (ops : list alloc_op) (t : table) (l : blocks)
    : option (table * blocks * list (option Z)) :=
  match ops with
  | [] => Some (t, l, [])
  | o :: rest =>
      if check o l then
        let '(t', r) := alloc_step c o t in
        match alloc_run c check rest t' (live_step o r l) with
        | Some (t2, l2, rs) => Some (t2, l2, r :: rs)
        | None => None
        end
      else None
  end.
Definition run_blocks (c : acfg) (check : alloc_op -> blocks -> bool) (ops : list alloc_op) : option (blocks * list (option Z)) :=
  match alloc_run c check ops (table_start c) [] with Some (_, l, rs) => Some (l, rs) | None => None end.

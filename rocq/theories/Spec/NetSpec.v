(** What the readers of ports see of the network: messages arrive, wait on the card, are put into the mailbox of their port and are read from there as bytes. *)
From Verif Require Import Model.Base Spec.Ne2000.

(** [waiting]: port and bytes of the messages on the card; [box]: the bytes in the mailboxes. *)
Record net := mkNet { waiting : list (Z * list Z); box : Z -> list Z }.
(** A mailbox takes a message whole or not at all. *)
Definition arrive (B : Z) (b m : list Z) : list Z := if len b + len m <=? B then b ++ m else b.
Definition deliver (B : Z) (local : Z -> Z) (b : Z -> list Z) (m : Z * list Z) : Z -> list Z := upd b (local (fst m)) (arrive B (b (local (fst m))) (snd m)).
(** [Frame f port m]: the frame [f] arrives, with message [m] for [port]. *)
Inductive event := Frame (f : list Z) (port : Z) (m : list Z) | Poll | Read (p ln : Z) | Send (port : Z) (dests : list (option Z)) (m : list Z).
(** [late] messages stay on the card when it is polled: it should be 0. *)
Definition step (B : Z) (local : Z -> Z) (late : nat) (s : net) (e : event) : list Z * net :=
  match e with
  | Frame _ port m => ([], mkNet (waiting s ++ [(port, m)]) (box s))
  | Poll => let k := (length (waiting s) - late)%nat in ([], mkNet (skipn k (waiting s)) (fold_left (deliver B local) (firstn k (waiting s)) (box s)))
  | Read p ln => (firstn (Z.to_nat ln) (box s p), mkNet (waiting s) (upd (box s) p (skipn (Z.to_nat ln) (box s p))))
  | Send _ _ _ => ([], s)
  end.
(** The bytes that are read, in order. *)
Fixpoint history (B : Z) (local : Z -> Z) (late : nat) (s : net) (l : list event) : list (list Z) * net :=
  match l with
  | [] => ([], s)
  | e :: r => let (o, s1) := step B local late s e in let (os, s2) := history B local late s1 r in (o :: os, s2)
  end.
(** The number of frames that arrive. *)
Fixpoint arrivals (l : list event) : nat := match l with [] => O | Frame _ _ _ :: r => S (arrivals r) | _ :: r => arrivals r end.
(** After [n] frames, [k] of them on the card: never more than 55 frames wait, and when the card is polled the next frame would not go to the
    first page of the ring. *)
Fixpoint calm (n k : nat) (l : list event) : bool :=
  match l with
  | [] => true
  | Frame _ _ _ :: r => (k <=? 54)%nat && calm (S n) (S k) r
  | Poll :: r => negb ((S n mod 56 =? 0)%nat) && calm n (Nat.min k 1) r
  | _ :: r => calm n k r
  end.
(** What one destination gets. *)
Definition to_dest (src : list Z) (port : Z) (msg : list Z) (d : option Z) (fs : list (list Z)) : Prop :=
  match d with
  | None => fs = []
  | Some dest => exists cs, concat cs = msg /\ Forall (fun c => c <> []) cs /\ Forall2 (fun f c => is_frame f [255; 255; 255; 255; 255; 255] src port dest c) fs cs
  end.
(** A frame [f] that fits in one page and carries the message [snd w] for the port [fst w], which exists. *)
Definition fine (ports queues : Z) (local : Z -> Z) (f : list Z) (w : Z * list Z) : Prop :=
  (exists dst src sport, length dst = 6%nat /\ length src = 6%nat /\ is_frame f dst src sport (fst w) (snd w)) /\
  0 <= fst w < 65536 /\ fst w < ports /\ 0 <= local (fst w) < queues /\ len f + 4 <= 256 /\ octets f.

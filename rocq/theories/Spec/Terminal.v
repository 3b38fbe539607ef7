(** A terminal of 25 rows of 80 cells. *)
From Coq Require Import ZArith List Bool.
Import ListNotations.
Local Open Scope Z_scope.

(** The cursor, the colour of the next character, and the character and colour of each cell. *)
Record term := mkTerm { t_row : Z; t_col : Z; t_color : Z; t_cell : Z -> Z -> Z * Z }.

Definition move (r c : Z) (t : term) : term := mkTerm r c (t_color t) (t_cell t).
(** To the next line; at the bottom everything moves up by one line. *)
Definition newline (t : term) : term :=
  if t_row t =? 24
  then mkTerm 24 0 (t_color t) (fun r c => if r =? 24 then (0, t_color t) else t_cell t (r + 1) c)
  else move (t_row t + 1) 0 t.
Definition advance (c : Z) (t : term) : term := if c =? 80 then newline t else move (t_row t) c t.
Definition put (ch : Z) (t : term) : term :=
  advance (t_col t + 1) (mkTerm (t_row t) (t_col t) (t_color t)
    (fun r c => if (r =? t_row t) && (c =? t_col t) then (ch, t_color t) else t_cell t r c)).
(** Carriage return, line feed, tabulator and the other characters. *)
Definition show (ch : Z) (t : term) : term :=
  if ch =? 13 then move (t_row t) 0 t
  else if ch =? 10 then newline t
  else if ch =? 9 then advance (8 * (t_col t / 8 + 1)) t
  else put ch t.

Inductive command := Show (ch : Z) | Clear | Color (a : Z) | SetX (x : Z) | SetY (y : Z).
Definition obey (t : term) (c : command) : term :=
  match c with
  | Show ch => show ch t
  | Clear => mkTerm 0 0 (t_color t) (fun _ _ => (0, t_color t))
  | Color a => mkTerm (t_row t) (t_col t) a (t_cell t)
  | SetX x => move (t_row t) (x mod 80) t
  | SetY y => move (y mod 25) (t_col t) t
  end.
(** The commands in a text; [None] if the text ends inside an escape sequence. *)
Fixpoint commands (l : list Z) : option (list command) :=
  match l with
  | [] => Some []
  | c :: r =>
      if c =? 255 then
        match r with
        | [] => None
        | d :: r1 =>
            if d =? 1 then option_map (cons Clear) (commands r1)
            else if (2 <=? d) && (d <=? 4) then
              match r1 with
              | [] => None
              | x :: r2 => option_map (cons (if d =? 2 then Color x else if d =? 3 then SetX x else SetY x)) (commands r2)
              end
            else option_map (cons (Show d)) (commands r1)
        end
      else option_map (cons (Show c)) (commands r)
  end.
Fixpoint shown (l : list command) : list Z :=
  match l with [] => [] | Show c :: r => c :: shown r | _ :: r => shown r end.

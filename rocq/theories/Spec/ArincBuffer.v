(** The buffer services of ARINC 653 Part 1: messages of up to a maximum length, at most so many at a time, first in first out. *)
From Coq Require Import ZArith List Bool.
Import ListNotations. Open Scope Z_scope.

Inductive code := No_error | No_action | Not_available | Invalid_param | Invalid_config | Invalid_mode | Timed_out.
(** Their numbers in the C binding. *)
Definition number (c : code) : Z := match c with No_error => 0 | No_action => 1 | Not_available => 2 | Invalid_param => 3 | Invalid_config => 4 | Invalid_mode => 5 | Timed_out => 6 end.

Record queue := { longest : Z; most : Z; held : list (list Z) }.
(** A partition has the buffers of these names; those created so far, by identifier. *)
Definition made := Z -> option queue.
Inductive request := Create (name : list Z) (max nb : Z) | Send (id : Z) (m : list Z) (timeout : Z) | Receive (id timeout : Z).
(** What the caller gets: a code with an identifier or a message where there is one, or it waits. *)
Inductive reply := Code (c : code) | Id (n : Z) | Message (m : list Z) | Waits.

Fixpoint at_name (names : list (list Z)) (name : list Z) (n : Z) : option Z :=
  match names with [] => None | x :: t => if list_eq_dec Z.eq_dec name x then Some n else at_name t name (n + 1) end.
Definition put (s : made) (id : Z) (q : queue) : made := fun n => if n =? id then Some q else s n.
Definition service (names : list (list Z)) (r : request) (s : made) : made * reply :=
  match r with
  | Create name max nb =>
      match at_name names name 0 with
      | None => (s, Code Invalid_config)
      | Some n => match s n with
                  | Some _ => (s, Code No_action)
                  | None => if (max <=? 0) || (nb <=? 0) then (s, Code Invalid_param) else (put s n {| longest := max; most := nb; held := [] |}, Id n)
                  end
      end
  | Send id m timeout =>
      match s id with
      | None => (s, Code Invalid_param)
      | Some q => if (Z.of_nat (length m) =? 0) || (longest q <? Z.of_nat (length m)) then (s, Code Invalid_param)
                  else if Z.of_nat (length (held q)) <? most q then (put s id {| longest := longest q; most := most q; held := held q ++ [m] |}, Code No_error)
                  else (s, if timeout =? 0 then Code Not_available else Waits)
      end
  | Receive id timeout =>
      match s id with
      | None => (s, Code Invalid_param)
      | Some q => match held q with
                  | [] => (s, if timeout =? 0 then Code Not_available else Waits)
                  | m :: t => (put s id {| longest := longest q; most := most q; held := t |}, Message m)
                  end
      end
  end.
Fixpoint services (names : list (list Z)) (l : list request) (s : made) : made * list reply :=
  match l with [] => (s, []) | r :: t => let (s1, a) := service names r s in let (s2, b) := services names t s1 in (s2, a :: b) end.
Definition nothing : made := fun _ => None.

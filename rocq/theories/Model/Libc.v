(** The C library of the kernel and of the partitions: 64-bit division, memory and string functions,
    conversion of integers, printf.

    Memory is a function from 32-bit addresses to bytes (0..255); pointers are 32-bit numbers, and pointer
    arithmetic wraps. [char] is signed on the target (i386). Loops carry a bound on the number of iterations;
    [None] means that the bound was reached, so that a result [Some] is a proof of termination. *)
From Verif Require Import Model.Base.

Definition mem := Z -> Z.

(** * 64-bit division *)

Inductive div_result := Quotient (q : Z) | DivisionByZero | Endless.

(** kernel/libc/__udivdi3.c:27-30, libpok/libc/misc/__udivdi3.c:27-30: shift the denominator up. *)
Fixpoint div_up (fuel : nat) (den qbit : Z) : option (Z * Z) :=
  match fuel with
  | O => None
  | S f => if 0 <=? s64 den then div_up f (u64 (den * 2)) (u64 (qbit * 2)) else Some (den, qbit)
  end.

(** kernel/libc/__udivdi3.c:32-39: subtract and shift down. *)
Fixpoint div_down (fuel : nat) (num den quot qbit : Z) : option Z :=
  match fuel with
  | O => None
  | S f =>
      if qbit =? 0 then Some quot
      else
        let '(num', quot') := if den <=? num then (u64 (num - den), u64 (quot + qbit)) else (num, quot) in
        div_down f num' (den / 2) quot' (qbit / 2)
  end.

(** __udivdi3, kernel/libc/__udivdi3.c:17-42, and the same code in libpok/libc/misc/__udivdi3.c:22-43.
    pok_division_by_zero_error does not return (kernel/include/arch.h:105). 65 iterations suffice for each
    loop (proved). *)
Definition udivdi3 (num den : Z) : div_result :=
  if den =? 0 then DivisionByZero
  else match div_up 65 den 1 with
       | None => Endless
       | Some (den', qbit) =>
           match div_down 65 num den' 0 qbit with
           | None => Endless
           | Some q => Quotient q
           end
       end.

(** __umoddi3, kernel/libc/__umoddi3.c:19-22, libpok/libc/misc/__umoddi3.c:23-26. *)
Definition umoddi3 (num den : Z) : div_result :=
  match udivdi3 num den with
  | Quotient q => Quotient (u64 (num - u64 (q * den)))
  | r => r
  end.

(** * Memory functions *)

(** The loop of memcpy on processors other than i386, kernel/libc/memcpy.c:38-40, and
    libpok/libc/string/memcpy.c:28-30. *)
Fixpoint copy_bytes (n : nat) (m : mem) (to from : Z) : mem :=
  match n with
  | O => m
  | S k => copy_bytes k (upd m to (m from)) (u32 (to + 1)) (u32 (from + 1))
  end.

(** One movsl: four bytes are read, then written. *)
Definition copy_four (m : mem) (to from : Z) : mem :=
  upd (upd (upd (upd m to (m from)) (u32 (to + 1)) (m (u32 (from + 1))))
    (u32 (to + 2)) (m (u32 (from + 2)))) (u32 (to + 3)) (m (u32 (from + 3))).

(** rep movsl, kernel/libc/memcpy.c:23. *)
Fixpoint copy_longs (n : nat) (m : mem) (to from : Z) : mem :=
  match n with
  | O => m
  | S k => copy_longs k (copy_four m to from) (u32 (to + 4)) (u32 (from + 4))
  end.

(** movsw, kernel/libc/memcpy.c:26. *)
Definition copy_two (m : mem) (to from : Z) : mem :=
  upd (upd m to (m from)) (u32 (to + 1)) (m (u32 (from + 1))).

(** memcpy on i386, kernel/libc/memcpy.c:17-43 and libpok/libc/string/x86/memcpy.c:19-36: n/4 long words,
    then a word if bit 1 of n is set, then a byte if bit 0 is. The direction flag is clear. *)
Definition memcpy_i386 (m : mem) (to from n : Z) : mem :=
  let k := n / 4 in
  let m1 := copy_longs (Z.to_nat k) m to from in
  let to1 := u32 (to + 4 * k) in
  let from1 := u32 (from + 4 * k) in
  let '(m2, to2, from2) :=
    if Z.testbit n 1 then (copy_two m1 to1 from1, u32 (to1 + 2), u32 (from1 + 2)) else (m1, to1, from1) in
  if Z.testbit n 0 then upd m2 to2 (m2 from2) else m2.

(** memcpy elsewhere, kernel/libc/memcpy.c:34-41, libpok/libc/string/memcpy.c:24-33. *)
Definition memcpy_bytes (m : mem) (to from n : Z) : mem := copy_bytes (Z.to_nat n) m to from.

(** memset, kernel/libc/memset.c:17-26, libpok/libc/string/memset.c:20-28. *)
Fixpoint set_bytes (n : nat) (m : mem) (d val : Z) : mem :=
  match n with
  | O => m
  | S k => set_bytes k (upd m d val) (u32 (d + 1)) val
  end.
Definition memset (m : mem) (dest val n : Z) : mem := set_bytes (Z.to_nat n) m dest (u8 val).

(** A 32-bit load, little endian. *)
Definition load32 (m : mem) (a : Z) : Z :=
  m a + 256 * m (u32 (a + 1)) + 65536 * m (u32 (a + 2)) + 16777216 * m (u32 (a + 3)).

(** memcmp, libpok/libc/string/memcmp.c:20-36: the pointers are pointers to 32-bit words. *)
Fixpoint memcmp_loop (n : nat) (m : mem) (s1 s2 : Z) : Z :=
  match n with
  | O => 0
  | S k =>
      if negb (load32 m s1 =? load32 m s2) then (if load32 m s2 <? load32 m s1 then 1 else -1)
      else memcmp_loop k m (u32 (s1 + 4)) (u32 (s2 + 4))
  end.
Definition memcmp (m : mem) (v1 v2 n : Z) : Z := memcmp_loop (Z.to_nat n) m v1 v2.

(** * String functions *)

(** strlen, kernel/libc/strlen.c:17-28 (result of type int) and libpok/libc/string/strlen.c:20-26. *)
Fixpoint strlen_loop (fuel : nat) (m : mem) (s len : Z) : option Z :=
  match fuel with
  | O => None
  | S f => if m s =? 0 then Some len else strlen_loop f m (u32 (s + 1)) (u32 (len + 1))
  end.
Definition strlen (fuel : nat) (m : mem) (s : Z) : option Z := strlen_loop fuel m s 0.

(** repne scasb with al = 0: at most [ecx] bytes are looked at. *)
Fixpoint scasb (fuel : nat) (m : mem) (edi ecx : Z) : option Z :=
  match fuel with
  | O => None
  | S f => if ecx =? 0 then Some 0
           else if m edi =? 0 then Some (ecx - 1) else scasb f m (u32 (edi + 1)) (ecx - 1)
  end.

(** strlen of the partitions on i386, libpok/libc/string/x86/strlen.c:19-31: repne scasb, notl, decl. *)
Definition strlen_i386 (fuel : nat) (m : mem) (s : Z) : option Z :=
  match scasb fuel m s (2 ^ 32 - 1) with
  | None => None
  | Some ecx => Some (u32 (u32 (- ecx - 1) - 1))
  end.

(** strcmp, kernel/libc/strcmp.c:20-34, libpok/libc/string/strcmp.c:20-30: the index is a 32-bit number. *)
Fixpoint strcmp_loop (fuel : nat) (m : mem) (s1 s2 i : Z) : option Z :=
  match fuel with
  | O => None
  | S f =>
      let a := m (u32 (s1 + i)) in
      let b := m (u32 (s2 + i)) in
      if (a =? 0) && (b =? 0) then Some 0
      else if s8 a <? s8 b then Some (-1)
      else if s8 b <? s8 a then Some 1
      else strcmp_loop f m s1 s2 (u32 (i + 1))
  end.
Definition strcmp (fuel : nat) (m : mem) (s1 s2 : Z) : option Z := strcmp_loop fuel m s1 s2 0.

(** strncmp, kernel/libc/strcmp.c:36-51, libpok/libc/string/strcmp.c:36-47. [n] counts the iterations
    left. *)
Fixpoint strncmp_loop (n : nat) (m : mem) (s1 s2 i : Z) : Z :=
  match n with
  | O => 0
  | S k =>
      let a := m (u32 (s1 + i)) in
      let b := m (u32 (s2 + i)) in
      if (a =? 0) && (b =? 0) then 0
      else if s8 a <? s8 b then -1
      else if s8 b <? s8 a then 1
      else strncmp_loop k m s1 s2 (u32 (i + 1))
  end.
Definition strncmp (m : mem) (s1 s2 size : Z) : Z := strncmp_loop (Z.to_nat size) m s1 s2 0.

(** strcpy, libpok/libc/string/strcpy.c:20-26. *)
Fixpoint strcpy_loop (fuel : nat) (m : mem) (dest str i : Z) : option mem :=
  match fuel with
  | O => None
  | S f =>
      let c := m (u32 (str + i)) in
      if c =? 0 then Some (upd m (u32 (dest + i)) 0)
      else strcpy_loop f (upd m (u32 (dest + i)) c) dest str (u32 (i + 1))
  end.
Definition strcpy (fuel : nat) (m : mem) (dest str : Z) : option mem := strcpy_loop fuel m dest str 0.

(** strncpy, libpok/libc/string/strcpy.c:32-40. *)
Fixpoint strncpy_loop (n : nat) (m : mem) (dest str i : Z) : mem :=
  match n with
  | O => m
  | S k =>
      let c := m (u32 (str + i)) in
      let m' := upd m (u32 (dest + i)) c in
      if c =? 0 then m' else strncpy_loop k m' dest str (u32 (i + 1))
  end.
Definition strncpy (m : mem) (dest str size : Z) : mem := strncpy_loop (Z.to_nat size) m dest str 0.

(** streq, libpok/libc/string/streq.c:26-41: the smaller length is cut to 8 bits; the tests against NULL
    are on the moving pointers. *)
Fixpoint streq_loop (n : nat) (m : mem) (s1 s2 : Z) : Z :=
  match n with
  | O => 1
  | S k => if (s1 =? 0) || (s2 =? 0) then 1
           else if negb (m s1 =? m s2) then 0 else streq_loop k m (u32 (s1 + 1)) (u32 (s2 + 1))
  end.
Definition streq (fuel : nat) (m : mem) (s1 s2 : Z) : option Z :=
  match strlen fuel m s1, strlen fuel m s2 with
  | Some l1, Some l2 => Some (streq_loop (Z.to_nat (u8 (if l1 <? l2 then l1 else l2))) m s1 s2)
  | _, _ => None
  end.

(** * Conversion *)

(** The characters used. *)
Definition CH_ZERO := 48. (* '0' *)
Definition CH_A := 97. (* 'a' *)
Definition CH_MINUS := 45. (* '-' *)
Definition CH_PERCENT := 37. (* '%' *)

Inductive itoa_result :=
| Text (l : list Z)      (** the characters written to buff, without the final NUL *)
| Overflow               (** more than 16 digits: temp is written past its end *)
| Undefined.             (** division by zero, or the negation of the smallest int *)

(** itoa, libpok/libc/string/itoa.c:33-40: the digits, least significant first. [radix] is converted to
    unsigned for the division. *)
Fixpoint itoa_digits (fuel : nat) (radix uvalue : Z) : option (list Z) :=
  match fuel with
  | O => None
  | S f =>
      let digit := uvalue mod u32 radix in
      let uvalue' := u32 (uvalue - digit) / u32 radix in
      let c := s8 (if digit <? 10 then CH_ZERO + digit else CH_A + (digit - 10)) in
      if uvalue' =? 0 then Some [c]
      else match itoa_digits f radix uvalue' with None => None | Some l => Some (c :: l) end
  end.

(** itoa, libpok/libc/string/itoa.c:20-47. temp has room for 16 digits. *)
Definition itoa (value radix : Z) : itoa_result :=
  if radix =? 0 then Undefined
  else if (radix =? 10) && (value =? - 2 ^ 31) then Undefined
  else
    let '(sign, uvalue) := if (radix =? 10) && (value <? 0) then ([CH_MINUS], u32 (- value)) else ([], u32 value) in
    match itoa_digits 16 radix uvalue with
    | None => Overflow
    | Some l => Text (sign ++ rev l)
    end.

Inductive atoi_result := Int (v : Z) | IntOverflow.

(** atoi, libpok/libc/string/atoi.c:20-31, on the characters before the NUL. The text read as [list] is
    tied to memory in the specification. 10 * res + c - 48 is computed in int; leaving its range is
    undefined. *)
Fixpoint atoi_loop (l : list Z) (res : Z) : atoi_result :=
  match l with
  | [] => Int res
  | c :: t =>
      if (c <? 48) || (57 <? c) then Int 0
      else if (10 * res <=? 2 ^ 31 - 1) && (10 * res + c <=? 2 ^ 31 - 1) then atoi_loop t (10 * res + c - 48)
      else IntOverflow
  end.
Definition atoi (l : list Z) : atoi_result := atoi_loop l 0.

(** * printf *)

(** struct s_file, kernel/libc/printf.c:40-43 and libpok/libc/stdio/printf.c:36-39, with what was given to
    pok_cons_write so far, one element for each call. *)
Record file := mkFile { f_buff : Z -> Z; f_pos : Z; f_out : list (list Z) }.

(** MY_BUF_SIZE, kernel/libc/printf.c:34. *)
Definition BUF_SIZE := 128.

(** my_fflush, kernel/libc/printf.c:63-66. *)
Definition my_fflush (f : file) : file :=
  mkFile (f_buff f) 0 (f_out f ++ [map (fun k => f_buff f (Z.of_nat k)) (seq 0 (Z.to_nat (f_pos f)))]).

(** my_putc, kernel/libc/printf.c:68-74; [None] when the array is written past its end. *)
Definition my_putc (c : Z) (f : file) : option file :=
  if (0 <=? f_pos f) && (f_pos f <? BUF_SIZE) then
    let f' := mkFile (upd (f_buff f) (f_pos f) c) (f_pos f + 1) (f_out f) in
    Some (if f_pos f' =? BUF_SIZE then my_fflush f' else f')
  else None.

Fixpoint put_all (l : list Z) (f : file) : option file :=
  match l with
  | [] => Some f
  | c :: t => match my_putc c f with None => None | Some f' => put_all t f' end
  end.

(** conv, kernel/libc/printf.c:82-93: the digits, least significant first. The array has 96 elements. *)
Fixpoint conv (fuel : nat) (n base : Z) : option (list Z) :=
  match fuel with
  | O => if n =? 0 then Some [] else None
  | S f => if n =? 0 then Some []
           else match conv f (n / base) base with None => None | Some l => Some (n mod base :: l) end
  end.

(** digits, kernel/libc/printf.c:26: "0123456789abcdef". *)
Definition digit_char (d : Z) : Z := nth (Z.to_nat d) [48;49;50;51;52;53;54;55;56;57;97;98;99;100;101;102] 0.

(** my_printnbr_base, kernel/libc/printf.c:95-113: returns the number of digits less one, and 1 for zero. *)
Definition printnbr_base (n card : Z) (f : file) : option (file * Z) :=
  if n =? 0 then match my_putc CH_ZERO f with None => None | Some f' => Some (f', 1) end
  else match conv 96 n card with
       | None => None
       | Some ds => match put_all (map digit_char (rev ds)) f with
                    | None => None
                    | Some f' => Some (f', Z.of_nat (length ds) - 1)
                    end
       end.

(** print_int, kernel/libc/printf.c:115-136; [v] is the 64-bit pattern. The negation of the smallest
    long long is undefined. *)
Definition print_int (v : Z) (signed : bool) (f : file) : option (file * Z) :=
  if v =? 0 then match my_putc CH_ZERO f with None => None | Some f' => Some (f', 1) end
  else if signed && (s64 v <? 0) then
    if v =? 2 ^ 63 then None
    else match my_putc CH_MINUS f with
         | None => None
         | Some f' => match printnbr_base (u64 (- s64 v)) 10 f' with
                      | None => None
                      | Some (f'', c) => Some (f'', c + 1)
                      end
         end
  else printnbr_base v 10 f.

(** print_str, kernel/libc/printf.c:138-152. *)
Fixpoint print_str (fuel : nat) (m : mem) (s : Z) (f : file) (count : Z) : option (file * Z) :=
  match fuel with
  | O => None
  | S k => if m s =? 0 then Some (f, count)
           else match my_putc (m s) f with
                | None => None
                | Some f' => print_str k m (u32 (s + 1)) f' (count + 1)
                end
  end.

(** integer_size_t, kernel/libc/printf.c:202-208. *)
Inductive isize := SzInt | SzLong | SzLongLong | SzShort | SzChar.

(** check_size_modifier, kernel/libc/printf.c:210-229: the format after the modifier. *)
Definition size_modifier (fmt : list Z) : isize * list Z :=
  match fmt with
  | 104 :: 104 :: t => (SzChar, t)       (* "hh" *)
  | 104 :: t => (SzShort, t)             (* "h" *)
  | 108 :: 108 :: t => (SzLongLong, t)   (* "ll" *)
  | 108 :: t => (SzLong, t)              (* "l" *)
  | _ => (SzInt, fmt)
  end.

(** va_arg for the types of 32 and of 64 bits: arguments are 32-bit words on the stack, low word first. *)
Definition arg32 (args : list Z) : option (Z * list Z) :=
  match args with a :: t => Some (u32 a, t) | [] => None end.
Definition arg64 (args : list Z) : option (Z * list Z) :=
  match args with a :: b :: t => Some (u32 a + 2 ^ 32 * u32 b, t) | _ => None end.

(** kernel/libc/printf.c:244-264: the argument of %d and %i, as a 64-bit pattern. *)
Definition arg_signed (sz : isize) (args : list Z) : option (Z * list Z) :=
  match sz with
  | SzLongLong => arg64 args
  | SzLong | SzInt => match arg32 args with Some (a, t) => Some (u64 (s32 a), t) | None => None end
  | SzShort => match arg32 args with Some (a, t) => Some (u64 (sgn 16 a), t) | None => None end
  | SzChar => match arg32 args with Some (a, t) => Some (u64 (s8 a), t) | None => None end
  end.

(** kernel/libc/printf.c:265-285: the argument of %o, %u and %x. *)
Definition arg_unsigned (sz : isize) (args : list Z) : option (Z * list Z) :=
  match sz with
  | SzLongLong => arg64 args
  | SzLong | SzInt => arg32 args
  | SzShort => match arg32 args with Some (a, t) => Some (u16 a, t) | None => None end
  | SzChar => match arg32 args with Some (a, t) => Some (u8 a, t) | None => None end
  end.

(** One conversion: vprintf, kernel/libc/printf.c:242-303, with special_char :176-196. [None] also stands
    for a failed assertion (an unknown conversion, :295) and for a missing argument. *)
Definition directive (fuel : nat) (m : mem) (sz : isize) (c : Z) (args : list Z) (f : file)
  : option (list Z * file * Z) :=
  if (c =? 100) || (c =? 105) then (* d, i *)
    match arg_signed sz args with
    | None => None
    | Some (v, t) => match print_int v true f with None => None | Some (f', k) => Some (t, f', k) end
    end
  else if c =? 117 then (* u *)
    match arg_unsigned sz args with
    | None => None
    | Some (v, t) => match print_int v false f with None => None | Some (f', k) => Some (t, f', k) end
    end
  else if (c =? 111) || (c =? 120) then (* o, x *)
    match arg_unsigned sz args with
    | None => None
    | Some (v, t) => match printnbr_base v (if c =? 111 then 8 else 16) f with
                     | None => None
                     | Some (f', k) => Some (t, f', k)
                     end
    end
  else if c =? 99 then (* c *)
    match arg32 args with
    | None => None
    | Some (v, t) => match my_putc (u8 v) f with None => None | Some f' => Some (t, f', 1) end
    end
  else if c =? 115 then (* s *)
    match arg32 args with
    | None => None
    | Some (v, t) => match print_str fuel m v f 0 with None => None | Some (f', k) => Some (t, f', k) end
    end
  else None.

(** vprintf, kernel/libc/printf.c:236-312, on the characters of the format before the NUL. [gas] bounds the
    length of the format. *)
Fixpoint vprintf_loop (gas fuel : nat) (m : mem) (fmt args : list Z) (f : file) (count : Z) : option (file * Z) :=
  match gas with
  | O => None
  | S g =>
      match fmt with
      | [] => Some (f, count)
      | c :: t =>
          if c =? CH_PERCENT then
            match t with
            | [] => Some (f, count)                              (* :238-240 *)
            | d :: t' =>
                if d =? CH_PERCENT then
                  match my_putc d f with None => None | Some f' => vprintf_loop g fuel m t' args f' (count + 1) end
                else
                  let '(sz, r) := size_modifier t in
                  match r with
                  | [] => None
                  | conversion :: rest =>
                      match directive fuel m sz conversion args f with
                      | None => None
                      | Some (args', f', k) => vprintf_loop g fuel m rest args' f' (count + k)
                      end
                  end
            end
          else
            match my_putc c f with None => None | Some f' => vprintf_loop g fuel m t args f' (count + 1) end
      end
  end.

(** vprintf, kernel/libc/printf.c:231-316: what is given to pok_cons_write, and the result. *)
Definition vprintf (fuel : nat) (m : mem) (fmt args : list Z) : option (list (list Z) * Z) :=
  match vprintf_loop (S (length fmt)) fuel m fmt args (mkFile (fun _ => 0) 0 []) 0 with
  | None => None
  | Some (f, count) => Some (f_out (my_fflush f), count)
  end.

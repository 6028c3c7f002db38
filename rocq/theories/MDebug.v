(** * Model of firmware/debug_uart.c and of the receiver firmware/dumpcurves.py

    Text is a list of character codes.  Transmission itself (busy waiting on the data register,
    debug_uart.c:45-53) is not modelled: the bytes written to UDR0 are the output. *)
From Coq Require Import ZArith List Bool.
From Verif Require Import Base.
Import ListNotations.
Open Scope Z_scope.

(** The digit characters of utoa/ltoa (avr-libc): 0-9, a-z. *)
Definition digit_char (d : Z) : Z := if d <? 10 then 48 + d else 87 + d.
(** avr-libc's conversion loop: [do { c = val % radix; val /= radix; } while (val);], then the string is
    reversed.  [acc]: the digits found so far. *)
Fixpoint digits_loop (fuel : nat) (val radix : Z) (acc : list Z) : option (list Z) :=
  match fuel with
  | O => None
  | S f =>
    let acc := digit_char (val mod radix) :: acc in
    let val := val / radix in
    if val =? 0 then Some acc else digits_loop f val radix acc
  end.
(** Storing a string and its terminator into a buffer of [size] bytes. *)
Definition into_buf (size : Z) (s : list Z) : option (list Z) :=
  if Z.of_nat (length s) + 1 <=? size then Some s else None.
(** avr-libc utoa: [size] is the size of the buffer given to it *)
Definition utoa (val radix size : Z) : option (list Z) :=
  s <- digits_loop 16 val radix [] ;; into_buf size s.
(** avr-libc ltoa with radix 10: a minus sign and the magnitude *)
Definition ltoa10 (val size : Z) : option (list Z) :=
  s <- digits_loop 16 (u32 (Z.abs val)) 10 [] ;;
  into_buf size (if val <? 0 then 45 :: s else s).

(** debug_uart.c:68-72 *)
Definition EOL : list Z := [13; 10].
(** debug_uart.c:74-82; [now] is timer_now(), the buffer has 2 * 2 + 1 bytes *)
Definition timestamp (now : Z) : option (list Z) :=
  s <- utoa (u16 now) 16 5 ;; Some (s ++ [58; 32]).
(** debug_uart.c:84-109; a NULL pointer is [None] *)
Definition print_str3 (enabled : bool) (now : Z) (str0 str1 str2 : option (list Z)) : option (list Z) :=
  if negb enabled then Some []
  else
    t <- timestamp now ;;
    let s0 := match str0 with Some s => s | None => [] end in
    let s1 := match str1 with Some s => 32 :: s | None => [] end in
    let s2 := match str2 with Some s => 32 :: s | None => [] end in
    Some (t ++ s0 ++ s1 ++ s2 ++ EOL).
(** debug_uart.c:111-125, and 127-153: the narrower types are converted to int32_t first, which changes
    no value.  The buffer has 10 + 1 + 1 bytes. *)
Definition print_int (enabled : bool) (now : Z) (prefix0 prefix1 : option (list Z)) (value : Z) : option (list Z) :=
  buf <- ltoa10 value 12 ;;
  print_str3 enabled now prefix0 prefix1 (Some buf).
(** debug_uart.c:155-208: [debug_report_*]; returns the new [*old_value] and the bytes sent *)
Definition report (enabled : bool) (now : Z) (prefix0 prefix1 : option (list Z)) (old_value new_value : Z) : option (Z * list Z) :=
  if old_value =? new_value then Some (old_value, [])
  else
    out <- print_int enabled now prefix0 prefix1 new_value ;;
    Some (new_value, out).
(** debug_uart.c:225-230: the greeting "\r\nst\r\n" *)
Definition greeting : list Z := [13; 10; 115; 116; 13; 10].
Definition enable_out (enable : bool) : list Z := if enable then greeting else [].

(** ** dumpcurves.py *)

(** str.strip() and str.split() take these as blanks (ASCII part). *)
Definition blank (c : Z) : bool := ((9 <=? c) && (c <=? 13)) || ((28 <=? c) && (c <=? 32)).
(** [lstrip], [strip] *)
Fixpoint lstrip (s : list Z) : list Z :=
  match s with c :: t => if blank c then lstrip t else s | [] => [] end.
Definition strip (s : list Z) : list Z := rev (lstrip (rev (lstrip s))).
(** [str.split()]: [cur] is the word being collected, reversed *)
Fixpoint split_words (s cur : list Z) : list (list Z) :=
  match s with
  | [] => match cur with [] => [] | _ => [rev cur] end
  | c :: t =>
    if blank c then match cur with [] => split_words t [] | _ => rev cur :: split_words t [] end
    else split_words t (c :: cur)
  end.
(** dumpcurves.py:133-142: [line.find(':')] and the two slices *)
Fixpoint cut_colon (s : list Z) : option (list Z * list Z) :=
  match s with
  | [] => None
  | c :: t => if c =? 58 then Some ([], t)
              else match cut_colon t with Some (a, b) => Some (c :: a, b) | None => None end
  end.
(** The value of a digit character in Python's int(). *)
Definition digit_val (c : Z) : option Z :=
  if (48 <=? c) && (c <=? 57) then Some (c - 48)
  else if (97 <=? c) && (c <=? 122) then Some (c - 87)
  else if (65 <=? c) && (c <=? 90) then Some (c - 55)
  else None.
(** Digits, single underscores allowed between digits.  [first]: no digit was read since the start or the
    last underscore.  [None]: ValueError. *)
Fixpoint int_digits (s : list Z) (base acc : Z) (first : bool) : option Z :=
  match s with
  | [] => if first then None else Some acc
  | c :: t =>
    if c =? 95 then (if first then None else int_digits t base acc true)
    else match digit_val c with
         | Some d => if d <? base then int_digits t base (acc * base + d) false else None
         | None => None
         end
  end.
(** int(s, base) for base 10 or 16: blanks around, a sign, the prefix 0x for base 16 (which may be
    followed by an underscore).  Non-ASCII digits are not modelled. *)
Definition py_int (s : list Z) (base : Z) : option Z :=
  let s := strip s in
  let '(neg, s) := match s with
                   | c :: t => if c =? 45 then (true, t) else if c =? 43 then (false, t) else (false, s)
                   | [] => (false, s)
                   end in
  let s := match s with
           | c :: x :: t => if (base =? 16) && (c =? 48) && ((x =? 120) || (x =? 88))
                            then match t with u :: t' => if u =? 95 then t' else t | [] => t end
                            else s
           | _ => s
           end in
  v <- int_digits s base 0 true ;;
  Some (if neg then - v else v).

(** dumpcurves.py:108-114: an invalid number becomes 0 *)
Definition parse_int (s : list Z) : Z := match py_int s 10 with Some v => v | None => 0 end.

(** The known items (dumpcurves.py:148-169) *)
Inductive item : Set := Cr1 | Cr2 | Rs | Cy | Tr | Ty1 | Ty2 | Tb | Mc | Fc | Mt.
Definition all_items : list item := [Cr1; Cr2; Rs; Cy; Tr; Ty1; Ty2; Tb; Mc; Fc; Mt].
(** The names of the items in the firmware: controller_current.c:135 "rs", 137 "cr2",
    150 "cy", 163 "cr1", controller_temp.c:87 "tb", 145 "ty1", 164 "ty2", 175 "tr", measure_current.c:69 "fc", 106 "mc",
    measure_temp.c:86 "mt" *)
Definition fw_name (i : item) : list Z :=
  match i with
  | Cr1 => [99; 114; 49] | Cr2 => [99; 114; 50] | Rs => [114; 115] | Cy => [99; 121] | Tr => [116; 114]
  | Ty1 => [116; 121; 49] | Ty2 => [116; 121; 50] | Tb => [116; 98] | Mc => [109; 99] | Fc => [102; 99] | Mt => [109; 116]
  end.
(** Their names in dumpcurves.py:148-169: "cr1", "cr2", "rs", "cy", "tr", "ty1", "ty2", "tb", "mc", "fc", "mt" *)
Definition item_name (i : item) : list Z :=
  match i with
  | Cr1 => [99; 114; 49] | Cr2 => [99; 114; 50] | Rs => [114; 115] | Cy => [99; 121] | Tr => [116; 114]
  | Ty1 => [116; 121; 49] | Ty2 => [116; 121; 50] | Tb => [116; 98] | Mc => [109; 99] | Fc => [102; 99] | Mt => [109; 116]
  end.
(** What the integer on the line is divided by: 1 << 6 (line 118), and CURR_DIV (line 27); the rounding of
    the floating point divisions is not modelled. *)
Definition item_div (i : item) : Z :=
  match i with
  | Cr1 | Cr2 | Cy | Ty2 => 64 * 10
  | Tr | Ty1 => 64
  | Rs | Tb | Mc | Fc | Mt => 1
  end.
Definition str_eqb (a b : list Z) : bool := if list_eq_dec Z.eq_dec a b then true else false.
Fixpoint find_item (l : list item) (s : list Z) : option item :=
  match l with [] => None | i :: t => if str_eqb s (item_name i) then Some i else find_item t s end.
Definition item_eqb (a b : item) : bool := str_eqb (item_name a) (item_name b).

(** The receiver: the shown values as (integer, divisor), and the rows of the table (time stamp, values),
    newest first. *)
Record rx : Type := mkRx {
  r_val : item -> Z * Z;
  r_rows : list (Z * (item -> Z * Z))
}.
(** dumpcurves.py:59-88 *)
Definition rx_reset : rx := mkRx (fun i => (0, item_div i)) [].
Definition set_item (f : item -> Z * Z) (i : item) (v : Z * Z) : item -> Z * Z :=
  fun j => if item_eqb j i then v else f j.
(** dumpcurves.py:125-183: one line.  The decoding of non-ASCII bytes is simplified: they are dropped
    (errors="ignore"). *)
Definition rx_line (r : rx) (line : list Z) : rx :=
  let line := strip (filter (fun c => c <? 128) line) in
  match line with
  | [] => r
  | _ =>
    if str_eqb line [115; 116] then rx_reset
    else match cut_colon line with
         | None => r
         | Some (t, line) =>
           match py_int t 16 with
           | None => r
           | Some ts =>
             match split_words (strip line) [] with
             | [name; val] =>
               match find_item all_items name with
               | None => r
               | Some i =>
                 let vals := set_item (r_val r) i (parse_int val, item_div i) in
                 mkRx vals ((ts, vals) :: r_rows r)
               end
             | _ => r
             end
           end
         end
  end.
(** dumpcurves.py:123-124: [readline] waits for the line feed; [cur] is the incomplete line, reversed *)
Fixpoint rx_bytes (r : rx) (cur : list Z) (bytes : list Z) : rx * list Z :=
  match bytes with
  | [] => (r, cur)
  | c :: t => if c =? 10 then rx_bytes (rx_line r (rev (c :: cur))) [] t else rx_bytes r (c :: cur) t
  end.
(** dumpcurves.py:121 *)
Definition receive (bytes : list Z) : rx := fst (rx_bytes rx_reset [] bytes).

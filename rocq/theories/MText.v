(** * Model of the text formatting in firmware/menu.c *)
From Coq Require Import ZArith List Bool.
From Verif Require Import Base MUtil MFixpt MDisplay.
Import ListNotations.
Open Scope Z_scope.

(** One store into a char buffer; outside of the buffer is undefined. *)
Definition wr_char (b : text) (p c : Z) : option text := zupd b p (Some c).

(** menu.c:108-115.  The counter [i] is at most 4, so fuel 5 is never used up (the loop leaves on
    [i < 0]).  [off] is the offset of [buf] in the enclosing array. *)
Fixpoint ascii_loop (fuel : nat) (b : text) (off i val : Z) : option (text * Z) :=
  match fuel with
  | O => None
  | S f =>
    let d := s8 (Z.rem val 10) in
    let val := Z.quot val 10 in
    b <- wr_char b (off + i) (u8 (48 + d)) ;;
    let i := s8 (i - 1) in
    if i <? 0 then Some (b, i)
    else if val =? 0 then Some (b, i)
    else ascii_loop f b off i val
  end.
(** menu.c:120-121 *)
Fixpoint fill_loop (fuel : nat) (b : text) (off i fill : Z) : option text :=
  if i <? 0 then Some b
  else match fuel with
       | O => None
       | S f => b <- wr_char b (off + i) fill ;; fill_loop f b off (s8 (i - 1)) fill
       end.
(** menu.c:92-122.  [val], [min_val] and [max_val] are int16_t; [-val] is checked. *)
Definition int_to_ascii_align_right (b : text) (off align_to_digit val min_val max_val fill : Z)
  : option text :=
  let val := cclamp val min_val max_val in
  let neg := val <? 0 in
  val <- (if neg then chk16 (- val) else Some val) ;;
  let i := s8 align_to_digit in
  b <- wr_char b (off + i + 1) 0 ;;
  '(b, i) <- ascii_loop 5 b off i val ;;
  '(b, i) <- (if neg && (0 <=? i)
              then b <- wr_char b (off + i) 45 ;; Some (b, s8 (i - 1))
              else Some (b, i)) ;;
  fill_loop 5 b off i fill.

(** menu.c:124, strcpy: the characters and the terminating NUL *)
Fixpoint menu_putstr (b : text) (off : Z) (str : list Z) : option text :=
  match str with
  | [] => wr_char b off 0
  | c :: r => b <- wr_char b off c ;; menu_putstr b (off + 1) r
  end.

(** menu.c:126-138 *)
Definition menu_put_temp (b : text) (temp : Z) (symbol : list Z) : option text :=
  t <- fixpt_to_int temp ;;
  b <- int_to_ascii_align_right b 0 2 (s16 t) (-99) 999 32 ;;
  menu_putstr b 3 symbol.

(** menu.c:140-168 *)
Definition menu_put_fixpt (b : text) (val fract_digits : Z) : option text :=
  let '(ipart_max, ipart_align, fpart_max, fpart_align) :=
    if fract_digits =? 2 then (99, 1, 99, 1) else (9, 0, 999, 2) in
  let ipart_digits := 4 - fract_digits in
  ip <- fixpt_get_int_part val ;;
  let ipart := s16 (cclamp ip 0 ipart_max) in
  fp <- fixpt_get_dec_fract val fract_digits ;;
  let fpart := s16 fp in
  b <- int_to_ascii_align_right b 0 ipart_align ipart 0 ipart_max 32 ;;
  b <- wr_char b ipart_digits 46 ;;
  int_to_ascii_align_right b (ipart_digits + 1) fpart_align fpart 0 fpart_max 48.

(** * Model of the file written by firmware/dumpcurves.py

    The floating point numbers of Python are IEEE double precision; their division and the conversion of an
    integer are those of Coq's standard library (SpecFloat with 53 bits, exponents up to 1024).  Opening, writing and closing of
    the file always succeed. *)
From Coq Require Import ZArith List Bool String Ascii Floats.SpecFloat.
From Verif Require Import Base MDebug.
Import ListNotations.
Open Scope Z_scope.

(** The character codes of an ASCII literal *)
Definition codes (s : string) : list Z := map (fun a => Z.of_N (N_of_ascii a)) (list_ascii_of_string s).

(** Python's float(val) for an integer (dumpcurves.py:118); [None]: OverflowError, which nothing catches (the tool ends) *)
Definition py_float (v : Z) : option spec_float :=
  match binary_normalize 53 1024 v 0 false with
  | S754_infinity _ => None
  | x => Some x
  end.
(** x / y for floats; the divisors of dumpcurves.py are not zero *)
Definition py_div (x y : spec_float) : spec_float := SFdiv 53 1024 x y.
(** dumpcurves.py:118: the integer 1 << 6 is converted *)
Definition f64 : spec_float := binary_normalize 53 1024 64 0 false.
(** dumpcurves.py:27: CURR_DIV = 10.0 *)
Definition f10 : spec_float := binary_normalize 53 1024 10 0 false.
(** dumpcurves.py:116-119 (parseFixpt), and for a current line 149, 151, 155, 161: / CURR_DIV *)
Definition fixpt_float (v : Z) : option spec_float := x <- py_float v ;; Some (py_div x f64).
Definition current_float (v : Z) : option spec_float := x <- fixpt_float v ;; Some (py_div x f10).

(** The decimal digits of a number that is not negative *)
Definition dec (n : Z) : option (list Z) := digits_loop (S (Z.to_nat (Z.log2 n))) n 10 [].
(** Python's "%d" *)
Definition fmt_d (v : Z) : option (list Z) :=
  s <- dec (Z.abs v) ;; Some (if v <? 0 then 45 :: s else s).
(** The fraction num / den rounded to the nearest integer, ties to even *)
Definition round_even (num den : Z) : Z :=
  let q := num / den in
  let r := num mod den in
  if 2 * r <? den then q else if den <? 2 * r then q + 1 else if Z.even q then q else q + 1.
(** The six digits after the point *)
Definition six (n : Z) : list Z := map (fun k => digit_char ((n / 10 ^ k) mod 10)) [5; 4; 3; 2; 1; 0].
(** Python's "%f": the exact value of the double, correctly rounded to six decimals *)
Definition fmt_f (x : spec_float) : option (list Z) :=
  match x with
  | S754_nan => Some (codes "nan")
  | S754_infinity s => Some (if s then codes "-inf" else codes "inf")
  | S754_zero s => Some (if s then codes "-0.000000" else codes "0.000000")
  | S754_finite s m e =>
    let n := if 0 <=? e then Zpos m * 2 ^ e * 1000000 else round_even (Zpos m * 1000000) (2 ^ (- e)) in
    w <- dec (n / 1000000) ;;
    let t := w ++ 46 :: six n in
    Some (if s then 45 :: t else t)
  end.
(** One cell of a row.  [v]: the integer on the line (0 before the first, dumpcurves.py:77-88; 0.0 is float(0) / (1 << 6)) *)
Definition cell (i : item) (v : Z) : option (list Z) :=
  match i with
  | Cr1 | Cr2 | Cy | Ty2 => x <- current_float v ;; fmt_f x
  | Tr | Ty1 => x <- fixpt_float v ;; fmt_f x
  | Rs | Tb | Mc | Fc | Mt => fmt_d v
  end.
(** dumpcurves.py:91-105 (putLine): "%d;%f;%f;%d;%f;%f;%f;%f;%d;%d;%d;%d\r\n" *)
Definition csv_row (row : Z * (item -> Z * Z)) : option (list Z) :=
  let '(ts, vals) := row in
  let v i := fst (vals i) in
  c0 <- fmt_d ts ;; c1 <- cell Cr1 (v Cr1) ;; c2 <- cell Cr2 (v Cr2) ;; c3 <- cell Rs (v Rs) ;;
  c4 <- cell Cy (v Cy) ;; c5 <- cell Tr (v Tr) ;; c6 <- cell Ty1 (v Ty1) ;; c7 <- cell Ty2 (v Ty2) ;;
  c8 <- cell Mc (v Mc) ;; c9 <- cell Fc (v Fc) ;; c10 <- cell Mt (v Mt) ;; c11 <- cell Tb (v Tb) ;;
  Some (c0 ++ 59 :: c1 ++ 59 :: c2 ++ 59 :: c3 ++ 59 :: c4 ++ 59 :: c5 ++ 59 :: c6 ++ 59 :: c7 ++ 59 :: c8 ++ 59 :: c9 ++ 59 :: c10 ++ 59 :: c11 ++ [13; 10]).
(** dumpcurves.py:42-54 *)
Definition csv_header : list Z :=
  codes "time (ticks);" ++ codes "current controller real r (A);" ++ codes "current controller used r (A);" ++
  codes "current controller r state;" ++ codes "current controller y (A);" ++ codes "temp controller r (*C);" ++
  codes "temp controller y1 (*C);" ++ codes "temp controller y2 (A);" ++ codes "measured current (ADC);" ++
  codes "filtered current (ADC);" ++ codes "measured temp (ADC);" ++ codes "boost mode" ++ [13; 10].
(** "".join(lines): oldest first *)
Fixpoint csv_lines (rows : list (Z * (item -> Z * Z))) : option (list Z) :=
  match rows with [] => Some [] | r :: t => a <- csv_row r ;; b <- csv_lines t ;; Some (a ++ b) end.
(** dumpcurves.py:40-56 (writeOutFile): the whole file is written again for each row, and at each reset *)
Definition csv_file (r : rx) : option (list Z) :=
  b <- csv_lines (rev (r_rows r)) ;; Some (csv_header ++ b).

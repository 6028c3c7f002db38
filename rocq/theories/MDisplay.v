(** * Model of firmware/display.c *)
From Coq Require Import ZArith List Bool.
From Verif Require Import Base MRing MTimer MSseg.
Import ListNotations.
Open Scope Z_scope.

(** display.c:31 *)
Definition DISPLAY_MUX_PERIOD_MS : Z := 1.

(** display.c:34-48, masks A B C D E F G DP on port D *)
Definition big_digit : list Z := [128; 1; 4; 16; 32; 64; 2; 8].
(** display.c:50-64 *)
Definition small_digit : list Z := [4; 8; 1; 2; 64; 16; 128; 32].
(** display.c:66-92: PC3, PC4, PC5, PB7; segment polarity 0, mux polarity 1 *)
Definition digit_iomaps : list iomap :=
  [ mkIomap PD big_digit false PC 8 true;
    mkIomap PD big_digit false PC 16 true;
    mkIomap PD big_digit false PC 32 true;
    mkIomap PD small_digit false PB 128 true ].

(** display.c:94 *)
Definition DISPLAY_NR_DIGITS : Z := 4.

(** display.c:96-100 *)
Record digit : Type := mkDigit {
  g_sseg : ddata;
  g_dpforce : bool;
  g_dpon : bool
}.
Definition set_g_sseg (r : digit) (v : ddata) : digit := mkDigit v (g_dpforce r) (g_dpon r).
Definition set_g_dpforce (r : digit) (v : bool) : digit := mkDigit (g_sseg r) v (g_dpon r).
Definition set_g_dpon (r : digit) (v : bool) : digit := mkDigit (g_sseg r) (g_dpforce r) v.
(** display.c:102-109 *)
Record disp : Type := mkDisp {
  d_enabled : bool;
  d_digits : list digit;
  d_mux : Z;
  d_timer : Z
}.
Definition set_d_enabled (r : disp) (v : bool) : disp := mkDisp v (d_digits r) (d_mux r) (d_timer r).
Definition set_d_digits (r : disp) (v : list digit) : disp := mkDisp (d_enabled r) v (d_mux r) (d_timer r).
Definition set_d_mux (r : disp) (v : Z) : disp := mkDisp (d_enabled r) (d_digits r) v (d_timer r).
Definition set_d_timer (r : disp) (v : Z) : disp := mkDisp (d_enabled r) (d_digits r) (d_mux r) v.

(** display.c:111, the zero initialised static *)
Definition disp_zero : disp :=
  mkDisp false (repeat (mkDigit (mkDdata None 0 0) false false) 4) 0 0.

(** display.c:114-118 *)
Definition display_force_dp (d : disp) (dp : Z) (force_en dp_on : bool) : option disp :=
  g <- zget (d_digits d) dp ;;
  ds <- zupd (d_digits d) dp (set_g_dpon (set_g_dpforce g force_en) dp_on) ;;
  Some (set_d_digits d ds).

(** A [char] buffer on the stack: [None] is a character that was never written. *)
Definition text : Type := list (option Z).
(** Reading outside of the buffer or an unwritten character is undefined: [None]. *)
Definition rd_char (b : text) (p : Z) : option Z := c <- zget b p ;; c.

(** display.c:120-147.  [p] is the offset of the pointer [digits] into the buffer. *)
Fixpoint show_digits (ds : list digit) (b : text) (p : Z) : option (list digit) :=
  match ds with
  | [] => Some []
  | g :: r =>
    c <- rd_char b p ;;
    '(c, p) <-
      (if c =? 0 then Some (32, p)
       else
         n <- rd_char b (p + 1) ;;
         let '(c, p) := if n =? 46 then (Z.lor c 128, p + 1) else (c, p) in
         let c := if g_dpforce g
                  then if g_dpon g then Z.lor c 128 else Z.land c 127
                  else c in
         Some (c, p + 1)) ;;
    dd <- sseg_digit_set (g_sseg g) c ;;
    r <- show_digits r b p ;;
    Some (set_g_sseg g dd :: r)
  end.
Definition display_show (d : disp) (b : text) : option disp :=
  ds <- show_digits (d_digits d) b 0 ;; Some (set_d_digits d ds).

(** display.c:149-166: the port registers after each write, and the new state *)
Definition display_writes (now : Z) (h : hw) (d : disp) : option (list hw * disp) :=
  if negb (d_enabled d) then Some ([], d)
  else if negb (timer_expired now (d_timer d)) then Some ([], d)
  else
    t <- timer_add (d_timer d) DISPLAY_MUX_PERIOD_MS ;;
    let d := set_d_timer d t in
    let cur_mux := d_mux d in
    let next_mux := ring_next cur_mux (DISPLAY_NR_DIGITS - 1) in
    let d := set_d_mux d next_mux in
    from <- zget (d_digits d) cur_mux ;;
    to <- zget (d_digits d) next_mux ;;
    l <- sseg_multiplex h (g_sseg from) (g_sseg to) ;;
    Some (l, d).
Definition display_work (now : Z) (h : hw) (d : disp) : option (hw * disp) :=
  '(l, d') <- display_writes now h d ;; Some (last l h, d').

(** display.c:177-182, the loop that sets the io maps and initialises the digits *)
Fixpoint init_digits (h : hw) (ds : list digit) (ims : list iomap) : option (hw * list digit) :=
  match ds, ims with
  | g :: r, im :: ims =>
    '(h, dd) <- sseg_init h (set_dd_iomap (g_sseg g) (Some im)) ;;
    '(h, r) <- init_digits h r ims ;;
    Some (h, set_g_sseg g dd :: r)
  | _, _ => Some (h, ds)
  end.
(** display.c:185-190 *)
Fixpoint exit_digits (h : hw) (ds : list digit) : option hw :=
  match ds with
  | [] => Some h
  | g :: r => h <- sseg_exit h (g_sseg g) ;; exit_digits h r
  end.

(** display.c:168-192 *)
Definition display_enable (now : Z) (h : hw) (d : disp) (enable : bool) : option (hw * disp) :=
  if Bool.eqb enable (d_enabled d) then Some (h, d)
  else
    let d := set_d_enabled d enable in
    if enable then
      '(h, ds) <- init_digits h (d_digits d) digit_iomaps ;;
      Some (h, set_d_timer (set_d_digits d ds) (timer_set_now now))
    else
      h <- exit_digits h (d_digits d) ;;
      Some (h, d).

(** display.c:194-197 *)
Definition display_init (now : Z) (h : hw) (d : disp) : option (hw * disp) :=
  display_enable now h d true.

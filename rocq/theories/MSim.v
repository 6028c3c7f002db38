(** * Model of the simulator: firmware/simulator/simulator.cxx (serial port, converter input, PWM output),
    firmware/simulator/pyxytronic.cxx and firmware/simulator/xytronic_simulator.py

    The threads of the simulator are not modelled: every function below holds its mutex (or belongs to one
    thread) for its whole run. *)
From Coq Require Import ZArith List Bool.
From Verif Require Import Base MDebug MTele.
Import ListNotations.
Open Scope Z_scope.

(** ** The ring buffer of the serial port *)

(** simulator.cxx:69 [uart_tx_buf[4096]] *)
Definition UART_BUF : Z := 4096.
(** simulator.cxx:69-71; the contents of the buffer as a function of the index *)
Record fifo : Type := mkFifo { u_mem : Z -> Z; u_wr : Z; u_rd : Z }.
(** simulator.cxx:98-100 *)
Definition fifo_reset : fifo := mkFifo (fun _ => 0) 0 0.
(** An index into the buffer: outside of it the access is undefined behaviour. *)
Definition in_buf (i : Z) : bool := (0 <=? i) && (i <? UART_BUF).
(** simulator.cxx:264-265, 431-432: [++index >= ARRAY_SIZE] *)
Definition bump (i : Z) : Z := if UART_BUF <=? i + 1 then 0 else i + 1.
(** simulator.cxx:259-266 [UDR0_write_hook]: the firmware writes [b] to UDR0 *)
Definition uart_write (f : fifo) (b : Z) : option fifo :=
  if in_buf (u_wr f)
  then Some (mkFifo (fun i => if i =? u_wr f then b else u_mem f i) (bump (u_wr f)) (u_rd f))
  else None.
Fixpoint uart_writes (f : fifo) (l : list Z) : option fifo :=
  match l with [] => Some f | b :: l => f <- uart_write f b ;; uart_writes f l end.
(** simulator.cxx:423-438 [simulator_uart_get_tx] *)
Fixpoint uart_get_tx (f : fifo) (max_bytes : nat) : option (fifo * list Z) :=
  match max_bytes with
  | O => Some (f, [])
  | S n =>
    if u_rd f =? u_wr f then Some (f, [])
    else if in_buf (u_rd f) then
      '(f', l) <- uart_get_tx (mkFifo (u_mem f) (u_wr f) (bump (u_rd f))) n ;;
      Some (f', u_mem f (u_rd f) :: l)
    else None
  end.
(** pyxytronic.cxx:107-117: a buffer of 4096 bytes *)
Definition xy_uart_get_tx (f : fifo) : option (fifo * list Z) := uart_get_tx f (Z.to_nat 4096).

(** ** The decoder of the debug output, xytronic_simulator.py *)

(** The dbg_* variables (lines 167-188), one per debug cell, as (integer, divisor); the collected bytes; the
    number of error messages printed. *)
Record pysim : Type := mkPysim { q_buf : list Z; q_val : cell -> Z * Z; q_err : Z }.
(** lines 203, 30: the integer is divided by 1 << 6 for fixed point numbers, and by CURR_DIV for currents *)
Definition cell_div (c : cell) : Z := match c with CItem i => item_div i | CPid _ _ => 64 end.
(** lines 59-60, 167-188 *)
Definition sim_values : cell -> Z * Z := fun c => (0, cell_div c).
Definition sim_reset : pysim := mkPysim [] sim_values 0.
(** [bytearray.find(b'\r\n')] and the two slices *)
Fixpoint cut_crlf (s : list Z) : option (list Z * list Z) :=
  match s with
  | [] => None
  | c :: t =>
    if (c =? 13) && (match t with d :: _ => d =? 10 | [] => false end) then Some ([], tl t)
    else match cut_crlf t with Some (a, b) => Some (c :: a, b) | None => None end
  end.
(** lines 129-139 [__uart_tx_get_line]; [data] is what simulator_uart_get_tx returned.  At most one line is
    taken, and none when there is no new data.  The decoding of non-ASCII bytes is simplified: they are dropped. *)
Definition sim_get_line (buf data : list Z) : list Z * list Z :=
  match data with
  | [] => ([], buf)
  | _ =>
    let buf := buf ++ data in
    match cut_crlf buf with
    | Some (line, rest) =>
      match line with [] => ([], rest) | _ => (strip (filter (fun c => c <? 128) line), rest) end
    | None => ([], buf)
    end
  end.
(** lines 190-198 [__parseInt]: an invalid number prints an error and becomes 0 *)
Definition sim_parse (s : list Z) (err : Z) : Z * Z := match py_int s 10 with Some v => (v, err) | None => (0, err + 1) end.
Definition set_val (f : cell -> Z * Z) (c : cell) (v : Z * Z) : cell -> Z * Z := fun d => if cell_dec d c then v else f d.
(** lines 263-277, 279-293: the second name of a PID line *)
Definition find_term (s : list Z) : option term :=
  if str_eqb s [101] then Some TE else if str_eqb s [112] then Some TP else if str_eqb s [105] then Some TI
  else if str_eqb s [100] then Some TD else if str_eqb s [112; 101] then Some TPe else None.
(** lines 229-260: the names compared with, as in dumpcurves.py, but a list of its own *)
Definition sim_name (i : item) : list Z :=
  match i with
  | Cr1 => [99; 114; 49] | Cr2 => [99; 114; 50] | Rs => [114; 115] | Cy => [99; 121] | Tr => [116; 114]
  | Ty1 => [116; 121; 49] | Ty2 => [116; 121; 50] | Tb => [116; 98] | Mc => [109; 99] | Fc => [102; 99] | Mt => [109; 116]
  end.
Fixpoint sim_find (l : list item) (s : list Z) : option item :=
  match l with [] => None | i :: t => if str_eqb s (sim_name i) then Some i else sim_find t s end.
(** lines 263, 279: "pid-t" and "pid-c" *)
Definition sim_pid (temp : bool) : list Z := if temp then [112; 105; 100; 45; 116] else [112; 105; 100; 45; 99].
(** lines 229-294: the variable and the word with its value; [None]: "Unknown elem" *)
Definition sim_elem (elems : list (list Z)) : option (cell * list Z) :=
  match elems with
  | name :: w1 :: r =>
    match sim_find all_items name with
    | Some i => Some (CItem i, w1)
    | None =>
      match r with
      | [w2] =>
        if str_eqb name (sim_pid true) then match find_term w1 with Some t => Some (CPid true t, w2) | None => None end
        else if str_eqb name (sim_pid false) then match find_term w1 with Some t => Some (CPid false t, w2) | None => None end
        else None
      | _ => None
      end
    end
  | _ => None
  end.
(** lines 207-294 [__handle_debuginterface] after the line was taken *)
Definition sim_line (val : cell -> Z * Z) (err : Z) (line : list Z) : (cell -> Z * Z) * Z :=
  match line with
  | [] => (val, err)
  | _ =>
    if str_eqb line [115; 116] then (sim_values, err)
    else match cut_colon line with
         | None => (val, err + 1)
         | Some (t, line) =>
           match py_int t 16 with
           | None => (val, err + 1)
           | Some _ =>
             let elems := split_words (strip line) [] in
             if (Z.of_nat (length elems) <? 2) || (3 <? Z.of_nat (length elems)) then (val, err + 1)
             else match sim_elem elems with
                  | None => (val, err + 1)
                  | Some (c, w) => let '(v, err) := sim_parse w err in (set_val val c (v, cell_div c), err)
                  end
           end
         end
  end.
(** lines 205-208 *)
Definition sim_handle (q : pysim) (data : list Z) : pysim :=
  let '(line, buf) := sim_get_line (q_buf q) data in
  let '(val, err) := sim_line (q_val q) (q_err q) line in
  mkPysim buf val err.

(** ** Numbers.  Floating point numbers are exact fractions (numerator, positive denominator): the rounding of
    the double precision operations is not modelled. *)

(** Python's round(): to the nearest integer, to the even one in the middle *)
Definition py_round (n d : Z) : Z :=
  let q := n / d in
  let r := 2 * (n mod d) in
  if r <? d then q else if d <? r then q + 1 else if Z.even q then q else q + 1.
(** int() of a float: towards zero *)
Definition py_trunc (n d : Z) : Z := Z.quot n d.
(** lines 112-119 [__do_scale]: numerator and denominator of the result.  [None]: division by zero. *)
Definition do_scale (raw raw_lo raw_hi phys_lo phys_hi : Z) : option (Z * Z) :=
  if raw_hi - raw_lo =? 0 then None
  else Some ((phys_hi - phys_lo) * (raw - raw_lo) + phys_lo * (raw_hi - raw_lo), raw_hi - raw_lo).
(** A fraction with a positive denominator *)
Definition norm (p : Z * Z) : Z * Z := let '(n, d) := p in if d <? 0 then (- n, - d) else (n, d).
(** lines 121-123 [__scale] *)
Definition py_scale (raw raw_lo raw_hi phys_lo phys_hi : Z) : option (Z * Z) :=
  p <- do_scale raw raw_lo raw_hi phys_lo phys_hi ;; Some (norm p).
(** lines 125-127 [__unscale]; [phys], [phys_lo] and [phys_hi] are given over a common denominator, which cancels *)
Definition py_unscale (phys phys_lo phys_hi raw_lo raw_hi : Z) : option Z :=
  p <- do_scale phys phys_lo phys_hi raw_lo raw_hi ;; let '(n, d) := norm p in Some (py_round n d).
(** pyxytronic.cxx:69-86: the format "I" converts without overflow checking; then min with UINT16_MAX *)
Definition xy_adc_value (v : Z) : Z := Z.min (u32 v) 65535.
(** lines 96-102 [adc_temp_set]: what simulator.cxx:451-460 stores; the temperature is n / d degrees *)
Definition adc_temp_set (n d : Z) : option Z :=
  v <- py_unscale n (150 * d) (480 * d) 210 411 ;; Some (xy_adc_value v).
(** lines 104-110 [adc_current_set]: n / d amperes; 1.1 is 11 / 10 *)
Definition adc_current_set (n d : Z) : option Z :=
  v <- py_unscale (10 * n) 0 (11 * d) 0 65 ;; Some (xy_adc_value v).
(** lines 87-94 [pwm_current_get], simulator.cxx:440-449: OCR1A and ICR1 *)
Definition pwm_current_get (ocr icr : Z) : option (Z * Z) := py_scale ocr icr 0 0 5.
(** lines 141-146 [__floatToFixpt] of n / d *)
Definition float_to_fixpt (n d : Z) : Z :=
  if n <? 0 then py_trunc (2 * 64 * n - d) (2 * d) else py_trunc (2 * 64 * n + d) (2 * d).
(** lines 148-165 [__fixptToFloat]; the result is over 64 *)
Definition fixpt_to_float (fixpt : Z) : Z :=
  let mask := Z.shiftl 1 24 - 1 in
  let upperMask := Z.shiftl (Z.shiftr mask 6) 6 in
  let lowerMask := Z.lxor mask upperMask in
  let fixpt := if Z.land fixpt (Z.shiftl 1 23) =? 0 then fixpt else - (Z.land (Z.lnot fixpt + 1) mask) in
  let fact := if fixpt <? 0 then -1 else 1 in
  let fixpt := fixpt * fact in
  (64 * Z.shiftr (Z.land fixpt upperMask) 6 + Z.land fixpt lowerMask) * fact.

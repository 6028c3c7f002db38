(** * Model of the transmission of debug_uart.c, in CPU cycles, with the tick interrupt of timer.c

    The time is counted in cycles of the CPU clock.  Modelled are the transmitter of the USART (shift register
    and one byte of buffer), the compare match of timer 0 with its interrupt flag, and the global interrupt
    enable.  How long a piece of code takes is a number given with it.  Simplifications: the interrupt is
    entered at once and its own duration is part of the interrupted code; the synchronisation delays of the
    peripherals (a few cycles) are left out. *)
From Coq Require Import ZArith List Bool.
From Verif Require Import Base MDebug.
Import ListNotations.
Open Scope Z_scope.

(** ** Configuration *)

(** debug_uart.c:237-246 and 36: UBRR0, UCSR0A = 1 << TXC0, UCSR0B with TXEN0, UCSR0C = USBS0, UCSZ01, UCSZ00 *)
Definition UBRR0 : Z := 51.
Definition UCSR0A : Z := Z.shiftl 1 6.
Definition UCSR0B : Z := Z.shiftl 1 3.
Definition UCSR0C : Z := Z.lor (Z.shiftl 1 3) (Z.lor (Z.shiftl 1 2) (Z.shiftl 1 1)).
(** timer.c:96-100: OCR0A, TCCR0A = 1 << WGM01, TCCR0B = CS01, CS00 *)
Definition OCR0A : Z := 125.
Definition TCCR0A : Z := Z.shiftl 1 1.
Definition TCCR0B : Z := Z.lor (Z.shiftl 1 1) (Z.shiftl 1 0).

(** ATmega88 data sheet, USART: cycles of a bit (asynchronous modes; U2X0 is bit 1 of UCSR0A) *)
Definition bit_cycles (ubrr ucsra : Z) : Z := (if Z.testbit ucsra 1 then 8 else 16) * (ubrr + 1).
(** Bits of a frame: a start bit, 5 to 9 data bits (UCSZ02 is bit 2 of UCSR0B, UCSZ01:0 are bits 2:1 of
    UCSR0C), a parity bit (UPM01, bit 5), one or two stop bits (USBS0, bit 3).  The reserved sizes are taken as 9. *)
Definition frame_bits (ucsrb ucsrc : Z) : Z :=
  1 + (if Z.testbit ucsrb 2 then 9 else 5 + Z.land (Z.shiftr ucsrc 1) 3)
    + (if Z.testbit ucsrc 5 then 1 else 0) + (if Z.testbit ucsrc 3 then 2 else 1).
Definition frame_cycles : Z := frame_bits UCSR0B UCSR0C * bit_cycles UBRR0 UCSR0A.
(** ATmega88 data sheet, timer 0: prescaler; 0 and the external clocks are taken as 0 (stopped) *)
Definition prescaler (tccrb : Z) : Z :=
  match Z.land tccrb 7 with 1 => 1 | 2 => 8 | 3 => 64 | 4 => 256 | 5 => 1024 | _ => 0 end.
(** Cycles between two compare matches: in CTC mode (WGM02:0 = 2) the counter restarts after OCR0A, else
    (WGM01 clear) after 255. *)
Definition tick_cycles : Z := (if Z.testbit TCCR0A 1 then OCR0A + 1 else 256) * prescaler TCCR0B.

(** ** State *)

(** [w_now] the time; [w_shift] when the shift register is or becomes empty; [w_buf] the byte waiting in UDR0;
    [w_wire] the bytes whose transmission has begun; [w_match] the time of the next compare match, [w_flag]
    OCF0A, [w_irq] the I bit of SREG, [w_ticks] the number of executions of the tick interrupt
    (timer.c:28-32; [_timer_count_now] are its low 16 bits). *)
Record world : Type := mkWorld {
  w_now : Z; w_shift : Z; w_buf : option Z; w_wire : list Z;
  w_match : Z; w_flag : bool; w_irq : bool; w_ticks : Z
}.
(** main.c:135: the counter runs since timer_init (timer.c:97), taken as time 0; nothing was sent. *)
Definition world0 : world := mkWorld 0 0 None [] tick_cycles false true 0.

(** ** Hardware *)

(** The number of compare matches up to the time [t] *)
Definition matches (next t : Z) : Z := if t <? next then 0 else (t - next) / tick_cycles + 1.
(** Time goes on for [d] cycles: a waiting byte moves to the shift register when this becomes empty; compare
    matches are served at once or, with interrupts disabled, remembered in the flag. *)
Definition pass (d : Z) (w : world) : world :=
  let t := w_now w + d in
  let m := matches (w_match w) t in
  let '(shift, buf, wire) :=
    match w_buf w with
    | Some b => if w_shift w <=? t then (w_shift w + frame_cycles, None, w_wire w ++ [b]) else (w_shift w, Some b, w_wire w)
    | None => (w_shift w, None, w_wire w)
    end in
  mkWorld t shift buf wire (w_match w + m * tick_cycles)
    (if w_irq w then w_flag w else w_flag w || (0 <? m)) (w_irq w)
    (if w_irq w then w_ticks w + m else w_ticks w).
(** UDRE0 *)
Definition udre (w : world) : bool := match w_buf w with None => true | Some _ => false end.
(** Writing UDR0: to the shift register if this is empty, else to the buffer; ignored if the buffer is full. *)
Definition write_udr (b : Z) (w : world) : world :=
  match w_buf w with
  | Some _ => w
  | None =>
    if w_shift w <=? w_now w
    then mkWorld (w_now w) (w_now w + frame_cycles) None (w_wire w ++ [b]) (w_match w) (w_flag w) (w_irq w) (w_ticks w)
    else mkWorld (w_now w) (w_shift w) (Some b) (w_wire w) (w_match w) (w_flag w) (w_irq w) (w_ticks w)
  end.
(** Clearing and writing the I bit; a tick that waits is executed when it is set. *)
Definition cli (w : world) : world :=
  mkWorld (w_now w) (w_shift w) (w_buf w) (w_wire w) (w_match w) (w_flag w) false (w_ticks w).
Definition set_irq (i : bool) (w : world) : world :=
  if i && w_flag w
  then mkWorld (w_now w) (w_shift w) (w_buf w) (w_wire w) (w_match w) false i (w_ticks w + 1)
  else mkWorld (w_now w) (w_shift w) (w_buf w) (w_wire w) (w_match w) (w_flag w) i (w_ticks w).

(** ** Code *)

(** util.h:179-185, 191-195: irq_disable_save (state of the I bit and the new world), irq_restore *)
Definition irq_disable_save (w : world) : bool * world := (w_irq w, cli w).
Definition irq_restore (sreg : bool) (w : world) : world := set_irq sreg w.

(** debug_uart.c:47-49; one iteration takes [q] cycles.  [None]: still waiting after [n] iterations. *)
Fixpoint wait_udre (n : nat) (q : Z) (w : world) : option world :=
  if udre w then Some w
  else match n with O => None | S n => wait_udre n q (pass q w) end.
(** debug_uart.c:45-53, [c] cycles after the byte before (or the begin of the transmission) *)
Definition uart_tx (q c b : Z) (w : world) : option world :=
  w <- wait_udre (Z.to_nat frame_cycles) q (pass c w) ;;
  Some (write_udr b w).
(** debug_uart.c:55-66, 68-72, 74-82: bytes one after the other, each with the cycles spent before it (0 if
    there are not enough numbers) *)
Fixpoint uart_txs (q : Z) (cs : list Z) (bs : list Z) (w : world) : option world :=
  match bs with
  | [] => Some w
  | b :: bs => w <- uart_tx q (hd 0 cs) b w ;; uart_txs q (tl cs) bs w
  end.
(** debug_uart.c:84-109 with debug_enabled; the time stamp is the count when the transmission begins;
    [q], [cs]: cycles, [e]: cycles after the last byte *)
Definition uart_print (q : Z) (cs : list Z) (e : Z) (str0 str1 str2 : option (list Z)) (w : world) : option world :=
  let '(sreg, w) := irq_disable_save w in
  s <- print_str3 true (u16 (w_ticks w)) str0 str1 str2 ;;
  w <- uart_txs q cs s w ;;
  Some (irq_restore sreg (pass e w)).

(** What the firmware does, as far as time is concerned: other code; code with interrupts disabled (the
    critical sections of timer.c:35-46, measure.c:299-302, settings.c:187-208, and the other interrupt
    handlers); a line of the debug output; the greeting of debug_enable (debug_uart.c:227-228). *)
Inductive action : Type :=
| ACode (d : Z)
| ACrit (d : Z)
| ALine (q : Z) (cs : list Z) (e : Z) (str0 str1 str2 : option (list Z))
| AGreet (q : Z) (cs : list Z).
Definition act_step (a : action) (w : world) : option world :=
  match a with
  | ACode d => Some (pass d w)
  | ACrit d => let '(sreg, w) := irq_disable_save w in Some (irq_restore sreg (pass d w))
  | ALine q cs e str0 str1 str2 => uart_print q cs e str0 str1 str2 w
  | AGreet q cs => uart_txs q cs greeting w
  end.
Fixpoint act_steps (l : list action) (w : world) : option world :=
  match l with [] => Some w | a :: l => w <- act_step a w ;; act_steps l w end.

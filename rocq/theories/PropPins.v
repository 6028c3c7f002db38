(** * The pins between two writes to the port registers, and the last bytes (C102) *)
From Coq Require Import ZArith List Bool.
From Verif Require Import Base MConf MSettings SpecSettings MSseg MDisplay MState MMenu MMain SpecDisplay SpecSys SpecEye MPins MUart SpecUart SpecPins
  PPins.
Import ListNotations.
Open Scope Z_scope.

(** C102: from reset to the main loop, for every EEPROM contents with which the firmware starts: after each single
    write nothing is lit, the port does not turn the heater on, no input is driven and the transmitter and the
    port do not share their pin. *)
Theorem C102_boot : forall C ee pinb y, boot C ee pinb = Some y ->
  exists l, boot_writes C pinb = Some l /\ last l hw_reset = y_hw y /\ Forall calm_pins l.
Proof. exact pins_boot. Qed.
Print Assumptions C102_boot.
(** Switching the debug output off, and with it the display on, lights nothing.  Switching the display off never gives
    the pin PD1 to both, but is not clean: after the first write all segments of the digit that is being driven are lit (by [driven]); after each
    of the others none is. *)
Theorem C102_switch : forall C y en, build_conf C -> reach C y -> c_debug C = true -> en <> y_dbg y ->
  exists l d' y', debug_enable_writes C (y_now y) (y_hw y) (y_disp y) en = Some (l, d') /\ debug_enable C y en = Some y' /\
    y_disp y' = d' /\ last l (y_hw y) = y_hw y' /\
    if en then Forall unshared l /\ exists h1 r, l = h1 :: r /\ Forall lightless r /\ forall i sg, 0 <= i <= 3 -> glows h1 i sg = driven (y_hw y) i
    else Forall lightless l.
Proof. exact pins_switch. Qed.
Print Assumptions C102_switch.
(** So a segment that is not part of the picture is lit for a moment. *)
Theorem C102_flash_refuted : exists y l d' h, reach conf_m328p y /\
  debug_enable_writes conf_m328p (y_now y) (y_hw y) (y_disp y) true = Some (l, d') /\
  In h l /\ glows (y_hw y) 1 SA = false /\ glows h 1 SA = true.
Proof. exact case_flash. Qed.
Print Assumptions C102_flash_refuted.
Example C102_ex : exists y, reach conf_m328p y /\ y_dbg y = false /\ driven (y_hw y) 1 = true /\ glows (y_hw y) 1 SA = false.
Proof. exact case_lit. Qed.
(** If the transmitter is switched off it keeps the pin PD1, a segment of the display, until it has sent everything:
    at most two frames (2.3 ms). *)
Theorem C102_pending : forall w ls b, uart_run w ls b -> 0 <= pending w <= 18304.
Proof. exact uart_pending. Qed.
Print Assumptions C102_pending.
Theorem C102_silent : forall w ls b d, uart_run w ls b -> pending w <= d -> w_wire (pass d w) = b /\ w_shift (pass d w) <= w_now (pass d w).
Proof. exact uart_silent. Qed.
Print Assumptions C102_silent.
(** The firmware does not wait for that: after a line, in the same iteration of the main loop, it may be more than
    two ticks, in which display_work drives two digits. *)
Theorem C102_shared_refuted : exists w ls b, uart_run w ls b /\ len ls = 1 /\ 2 * 8064 < pending w.
Proof. exact case_pending. Qed.
Print Assumptions C102_shared_refuted.

(** * Specification vocabulary: the pins between two writes to the port registers, and after the last byte (C102) *)
From Coq Require Import ZArith List Bool.
From Verif Require Import Base MConf MSettings MSseg MDisplay MState MMain SpecDisplay SpecSys SpecEye MUart SpecUart.
Import ListNotations.
Open Scope Z_scope.

(** SPEC: transmitter and port do not both drive PD1 *)
Definition unshared (h : hw) : Prop := h_tx h = true -> high (h_ddrd h) 1 = false.
(** SPEC: nothing is lit, the port does not pull the heater pin PB1 low, and no pin to which the hardware outside
    gives a level (keys and iron PB0, PB2, PB3, PB4; sensors PC1, PC2) is an output; the transmitter is not on
    while the port drives its pin PD1. *)
Definition calm_pins (h : hw) : Prop :=
  dark h /\ (high (h_ddrb h) 1 = true -> high (h_portb h) 1 = true) /\
  (forall b, In b [0; 2; 3; 4] -> high (h_ddrb h) b = false) /\ (forall b, In b [1; 2] -> high (h_ddrc h) b = false) /\
  unshared h.

(** SPEC: no segment is lit *)
Definition lightless (h : hw) : Prop := forall i sg, 0 <= i <= 3 -> glows h i sg = false.

(** SPEC: the time for which the transmitter keeps its pin if it is switched off now: the rest of the frame that is
    being sent and the byte that waits (data sheet: disabling takes effect when pending transmissions are
    completed) *)
Definition pending (w : world) : Z :=
  Z.max 0 (w_shift w - w_now w) + match w_buf w with Some _ => 9152 | None => 0 end.

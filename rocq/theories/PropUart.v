(** * Time while the debug output is on (C100) *)
From Coq Require Import ZArith List Bool.
From Verif Require Import Base MDebug MUart SpecUart PUart.
Import ListNotations.
Open Scope Z_scope.

(** C100: the transmission goes on: no wait for the data register is endless. *)
Theorem C100_progress : forall w ls b a, uart_run w ls b -> timely a ->
  exists w' s, act_step a w = Some w' /\ act_text a w = Some s /\ uart_run w' (if is_line a then s :: ls else ls) (b ++ s).
Proof. exact uart_progress. Qed.
Print Assumptions C100_progress.
(** Every byte goes to the wire, in order; at most one waits for the shift register. *)
Theorem C100_wire : forall w ls b, uart_run w ls b ->
  exists rest, b = w_wire w ++ rest /\ len rest <= 1 /\ (w_shift w <= w_now w -> rest = []).
Proof. exact uart_wire. Qed.
Print Assumptions C100_wire.
(** As long as nothing is sent the count of ticks is exact. *)
Theorem C100_exact : forall w ls b, uart_run w ls b -> b = [] -> w_ticks w = w_now w / 8064.
Proof. exact uart_exact. Qed.
Print Assumptions C100_exact.
(** The clock never runs ahead, and the time lost is at most that of the transmission of the bytes, and one
    frame for each line. *)
Theorem C100_lost_most : forall w ls b, uart_run w ls b -> 0 <= lost_ticks w /\ 8064 * lost_ticks w <= 9152 * (len b + len ls).
Proof. exact uart_lost_most. Qed.
Print Assumptions C100_lost_most.
(** But it does lose: with interrupts disabled during a line of n bytes, which takes at least the time of n - 2
    frames, at most one tick is counted.  So each line costs n - 3 ticks or more. *)
Theorem C100_line : forall w ls b a w' s, uart_run w ls b -> timely a -> is_line a = true -> act_step a w = Some w' -> act_text a w = Some s ->
  9152 * (len s - 2) <= w_now w' - w_now w /\ w_ticks w' <= w_ticks w + 1.
Proof. exact uart_line. Qed.
Print Assumptions C100_line.
Theorem C100_lost_least : forall w ls b, uart_run w ls b -> at_least ls <= lost_ticks w.
Proof. exact uart_lost_least. Qed.
Print Assumptions C100_lost_least.
(** A case, which also shows that the time stamps are not the time: 13 ms after power-up a line is stamped "6". *)
Theorem C100_stamp_refuted : exists w ls b w' s, uart_run w ls b /\ len ls = 1 /\ w_ticks w = 6 /\ w_now w / 8064 = 13 /\
  timely tr_line /\ is_line tr_line = true /\ act_step tr_line w = Some w' /\ act_text tr_line w = Some s /\
  s = [54; 58; 32; 116; 114; 32; 53; 13; 10] /\ w_ticks w' = 7 /\ w_now w' / 8064 = 23.
Proof. exact case100. Qed.
Print Assumptions C100_stamp_refuted.

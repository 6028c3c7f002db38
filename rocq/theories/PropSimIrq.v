(** * C104: Critical sections in the simulator *)
From Coq Require Import List Bool.
From Verif Require Import MSimIrq SpecSimIrq PSimIrq.
Import ListNotations.

(** Any schedule of the two threads, any calls by the firmware, cut anywhere after the first return from one of the
    functions: from there on instructions of interrupt handlers are executed only while the interrupt flag of the
    device would be set (nested sections included). *)
Theorem C104_exclusion : forall ts es1 es2, snd (srun ts sirq_reset) = es1 ++ es2 -> In ERet es1 ->
  respects (hw_events es1 (mkHw false [] None)) es2.
Proof. exact sim_exclusion. Qed.
Print Assumptions C104_exclusion.

(** While the flag is clear no handler is unfinished. *)
Theorem C104_complete : forall ts, let '(s, es) := srun ts sirq_reset in
  In ERet es -> h_i (hw_events es (mkHw false [] None)) = false -> ~ in_handler s.
Proof. exact sim_complete. Qed.
Print Assumptions C104_complete.

(** Not so before the first of these calls: the flag of the device is clear after the reset, the simulator runs the
    handlers nevertheless. *)
Theorem C104_start_refuted : exists ts, ~ respects (mkHw false [] None) (snd (srun ts sirq_reset)).
Proof. exact sim_start. Qed.
Print Assumptions C104_start_refuted.

(** No deadlock: a waiting main thread goes on at its next turn after 2 n + 10 turns of the I/O thread at the latest, if
    no handler is longer than n instructions. *)
Theorem C104_progress : forall n ts1 ts2 o, short_handlers n ts1 -> short_handlers n ts2 ->
  waiting (fst (srun ts1 sirq_reset)) -> 2 * n + 10 <= io_turns ts2 ->
  exists a b, ts2 ++ [TMain o] = a ++ b /\ ~ waiting (fst (srun (ts1 ++ a) sirq_reset)).
Proof. exact sim_progress. Qed.
Print Assumptions C104_progress.

(** Pending interrupts are served within six turns of the I/O thread when the flag is set. *)
Theorem C104_served : forall ts1 ts2, s_m (fst (srun ts1 sirq_reset)) = MFree ->
  h_i (hw_events (snd (srun ts1 sirq_reset)) (mkHw false [] None)) = true ->
  served ts2 -> 6 <= io_turns ts2 -> In EIsr (snd (srun ts2 (fst (srun ts1 sirq_reset)))).
Proof. exact sim_serves. Qed.
Print Assumptions C104_served.

(** A schedule with a section that is nested in the reset state, irq_enable, and a handler that irq_disable waits for. *)
Example C104_ex : let '(s, es) := srun ex_ts sirq_reset in waiting s /\ in_handler s /\ In ERet es /\ In EIsr es /\
  short_handlers 1 ex_ts.
Proof. exact case104. Qed.

(** * C107: what has been set is stored in bounded time, with interrupts inside the work functions *)
From Coq Require Import ZArith List Bool.
From Verif Require Import Base MConf MTimer MSettings SpecSettings MState MMain SpecSys MFine SpecFine SpecStor SpecStorT Trace PStorTEx.
Import ListNotations.
Open Scope Z_scope.

(** If a byte, an interrupt and the way to the next settings_work take no longer than given times, no store
    begins while another is running: the assumption of C49 to C53 holds. *)
Theorem C107_assumption : forall D C w k, ring_conf C -> dead_ok D -> timed D C w k -> sreach C false w /\ op_basic C w SWork.
Proof. exact timed_assumption. Qed.
Print Assumptions C107_assumption.
(** The settings are in the EEPROM one second, one call of settings_work and 64 bytes after the last change:
    no power failure changes them any more. *)
Theorem C107_saved : forall D C w k, ring_conf C -> dead_ok D -> timed D C w k -> 1000 + d_work D + 64 * (d_prog D + d_irq D) <= k_change k ->
  quiet (w_x w) = true /\ x_request (w_x w) = false /\ forall v w', sstep C w (SPower v) = Some w' -> x_cache (w_x w') = x_cache (w_x w).
Proof. exact timed_saved. Qed.
Print Assumptions C107_saved.
(** Deadlines can be met: whatever is overdue, calls of settings_work and of the interrupt let time go on. *)
Theorem C107_progress : forall D C w k, ring_conf C -> dead_ok D -> timed D C w k -> 1 <= d_prog D -> 1 <= d_irq D -> 1 <= d_work D ->
  exists w' k', trun D C w k [SWork; SDone; SReady] w' k' /\ in_time D w' k' STick /\ k_change k' = k_change k.
Proof. exact (fun D C w k HC HD => timed_progress D C HC HD w k). Qed.
Print Assumptions C107_progress.

(** The firmware with interrupts anywhere inside its work functions: the executions in time are executions of
    C106, without the assumption about settings_work; *)
Theorem C107_firmware : forall D C y w k, ring_conf C -> dead_ok D -> ftimed D C y w k -> freach C y /\ stored_as w y /\ ev_ok C y ESettings.
Proof. exact ftimed_reach. Qed.
Print Assumptions C107_firmware.
(** whatever it does next is a sequence of operations of the storage; *)
Theorem C107_follow : forall D C y w k e o y', ring_conf C -> dead_ok D -> ftimed D C y w k -> (e <> ESettings -> ev_ok C y e) -> fstep C y e o = Some y' ->
  exists ops w', srun C w ops w' /\ ops_of e ops /\ stored_as w' y'.
Proof. exact ftimed_follow. Qed.
Print Assumptions C107_follow.
(** and its settings survive every power failure after the same time. *)
Theorem C107_firmware_saved : forall D C y w k v pinb y', ring_conf C -> dead_ok D -> ftimed D C y w k ->
  1000 + d_work D + 64 * (d_prog D + d_irq D) <= k_change k -> fnext C y (EPower v pinb) y' -> x_cache (y_set y') = x_cache (y_set y).
Proof. exact ftimed_saved. Qed.
Print Assumptions C107_firmware_saved.
Example C107_ex : dead_ok usual /\ exists y w k, ftimed usual conf_m88p y w k /\ 1000 + d_work usual + 64 * (d_prog usual + d_irq usual) <= k_change k /\
  s_idle (x_cache (y_set y)) = 151 * 64 /\ s_idle (default_settings conf_m88p) = 150 * 64.
Proof. exact (conj usual_ok case107). Qed.
(** Earlier they do not. *)
Theorem C107_early_refuted : exists y w k y', ftimed usual conf_m88p y w k /\ 950 <= k_change k /\ step conf_m88p y (EPower 255 NO_KEYS) = Some y' /\
  s_idle (x_cache (y_set y)) = 151 * 64 /\ s_idle (x_cache (y_set y')) = 150 * 64.
Proof. exact case107_early. Qed.
Print Assumptions C107_early_refuted.

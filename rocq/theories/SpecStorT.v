(** * Specification vocabulary: deadlines of the EEPROM and of settings_work (C107) *)
From Coq Require Import ZArith List Bool.
From Verif Require Import Base MConf MTimer MSettings SpecSettings MState MMain SpecSys MFine SpecFine SpecStor.
Import ListNotations.
Open Scope Z_scope.

(** A byte is being programmed; the EEPROM interrupt is waiting to be served. *)
Definition writing (w : world) : bool := match x_busy (w_x w) with Some _ => true | None => false end.
Definition asking (w : world) : bool := x_eerie (w_x w) && negb (writing w).
(** SPEC: the environment: programming a byte takes at most [d_prog] ms, the EEPROM interrupt is served within
    [d_irq] ms, settings_work is called at least every [d_work] ms. *)
Record deadlines : Type := mkDead { d_prog : Z; d_irq : Z; d_work : Z }.
(** SPEC: a store takes less than the second that settings_work waits after an order, and settings_work comes
    before the order looks new again. *)
Definition dead_ok (D : deadlines) : Prop :=
  0 <= d_prog D /\ 0 <= d_irq D /\ 64 * (d_prog D + d_irq D) < 1000 /\ 0 <= d_work D <= 32000.
(** SPEC: stopwatches: how long the byte has been programmed, how long the interrupt has been waiting, how long
    ago settings_work was called, how long ago the settings were changed (or the power switched on). *)
Record stopwatch : Type := mkStop { k_prog : Z; k_irq : Z; k_work : Z; k_change : Z }.
Definition stop_zero : stopwatch := mkStop 0 0 0 0.
Definition tick_of (op : sop) : Z := match op with STick => 1 | _ => 0 end.
Definition stop_after (w : world) (k : stopwatch) (op : sop) (w' : world) : stopwatch :=
  match op with
  | SPower _ => stop_zero
  | _ => mkStop (if writing w && writing w' then k_prog k + tick_of op else 0)
                (if asking w && asking w' && match op with SReady => false | _ => true end then k_irq k + tick_of op else 0)
                (match op with SWork => 0 | _ => k_work k + tick_of op end)
                (match op with SModify _ => 0 | _ => k_change k + tick_of op end)
  end.
(** SPEC: what may happen: a millisecond passes only if nothing is overdue; changes keep the settings
    well-formed.  That a store is not begun while another is running is not assumed. *)
Definition in_time (D : deadlines) (w : world) (k : stopwatch) (op : sop) : Prop :=
  match op with
  | STick => (writing w = true -> k_prog k < d_prog D) /\ (asking w = true -> k_irq k < d_irq D) /\ k_work k < d_work D
  | SModify f => forall s, settings_wf s -> settings_wf (f s) /\ s_serial (f s) = s_serial s
  | SPower v => is_u8 v
  | _ => True
  end.
Inductive trun (D : deadlines) (C : conf) : world -> stopwatch -> list sop -> world -> stopwatch -> Prop :=
  | trun_nil w k : trun D C w k [] w k
  | trun_cons w k op w1 ops w2 k2 : in_time D w k op -> sstep C w op = Some w1 ->
      trun D C w1 (stop_after w k op w1) ops w2 k2 -> trun D C w k (op :: ops) w2 k2.
(** SPEC: executions of the storage in time, from the factory state *)
Definition timed (D : deadlines) (C : conf) (w : world) (k : stopwatch) : Prop :=
  exists w0 ops, sboot C = Some w0 /\ trun D C w0 stop_zero ops w k.
(** SPEC: executions of the firmware, interrupts inside the work functions included, whose storage is in time;
    that settings_work finds no store running is not assumed. *)
Inductive ftimed (D : deadlines) (C : conf) : sys -> world -> stopwatch -> Prop :=
  | ftimed_boot pinb y w : is_u8 pinb -> boot C (factory_ee C) pinb = Some y -> sboot C = Some w -> ftimed D C y w stop_zero
  | ftimed_step y w k e o y' ops w' k' : ftimed D C y w k -> (e <> ESettings -> ev_ok C y e) -> fstep C y e o = Some y' ->
      trun D C w k ops w' k' -> ops_of e ops -> stored_as w' y' -> ftimed D C y' w' k'.

(** * Model of the interrupt hand-shake of the simulator (simulator.cxx)

    Two threads: the main thread runs the firmware, the I/O thread runs the simulated hardware and the interrupt
    handlers.  They share two flags.  A step is one access to a shared flag or one instruction of a handler or of the
    firmware; the accesses are sequentially consistent (the flags are volatile ints; that is stronger than C++ promises).
    [io_thread_stop] is 0: only simulator_exit sets it, from the main thread, and then waits for the I/O thread. *)
From Coq Require Import ZArith List Bool.
Import ListNotations.

(** The functions the firmware calls (util.h:160-200 in the simulator build): irq_disable, irq_enable,
    irq_disable_save, irq_restore *)
Inductive op : Type := ODisable | OEnable | OSave | ORestore.

(** Where the main thread is: in the firmware, or in a function of simulator.cxx.
    [MReq1] before line 158, [MWait1] in the loop 159-160, [MClear] before line 162 (sim_irq_disable);
    [MReq0] before line 175, [MWait0] in the loop 176-177, [MSet] before line 179 (sim_irq_enable) *)
Inductive mpc : Type := MFree | MReq1 | MWait1 | MClear | MReq0 | MWait0 | MSet.

(** Where the I/O thread is (simulator.cxx:402-419): [IoTop] before line 412, [IoSampled b] before line 413 with the
    local variable [suspended], [IoAdc] and [IoTim] before lines 415 and 416, [IoAdcIn n], [IoTimIn n] in the handler
    with [n] instructions left, [IoDelay] at line 419 and in the simulated hardware *)
Inductive iopc : Type := IoTop | IoSampled (b : bool) | IoAdc | IoAdcIn (n : nat) | IoTim | IoTimIn (n : nat) | IoDelay.

(** simulator.cxx:81-83 and the flag I of SREG; [s_saved]: the local variables [sreg] of the callers of
    irq_disable_save, innermost first *)
Record sirq : Type := mkS { s_req : bool; s_susp : bool; s_i : bool; s_saved : list bool; s_m : mpc; s_io : iopc }.
(** simulator.cxx:101-103 and fakeio_reset_all (573-580) *)
Definition sirq_reset : sirq := mkS false false false [] MFree IoDelay.

(** What can be observed: an instruction of the firmware, a call (of irq_restore: with the saved flag), a return, an
    instruction of an interrupt handler *)
Inductive event : Type := EWork | ECall (o : op) (saved : bool) | ERet | EIsr.

(** A step of the main thread.  [o]: what the firmware does next, [None] = anything else than calling one of the
    functions.  simulator.cxx:152-212 *)
Definition main_step (o : option op) (s : sirq) : sirq * list event :=
  match s_m s with
  | MFree =>
      match o with
      | None => (s, [EWork])
      | Some ODisable => (mkS (s_req s) (s_susp s) (s_i s) (s_saved s) MReq1 (s_io s), [ECall ODisable false])
      | Some OEnable => (mkS (s_req s) (s_susp s) (s_i s) (s_saved s) MReq0 (s_io s), [ECall OEnable false])
      | Some OSave => (mkS (s_req s) (s_susp s) (s_i s) (s_i s :: s_saved s) MReq1 (s_io s), [ECall OSave false])
      | Some ORestore =>
          match s_saved s with
          | [] => (s, [EWork])   (* no restore without a save *)
          | v :: r =>
              if v then (mkS (s_req s) (s_susp s) (s_i s) r MReq0 (s_io s), [ECall ORestore true])
              else (mkS (s_req s) (s_susp s) (s_i s) r MFree (s_io s), [ECall ORestore false; ERet])
          end
      end
  | MReq1 => (mkS true (s_susp s) (s_i s) (s_saved s) MWait1 (s_io s), [])
  | MWait1 => (if s_susp s then mkS (s_req s) (s_susp s) (s_i s) (s_saved s) MClear (s_io s) else s, [])
  | MClear => (mkS (s_req s) (s_susp s) false (s_saved s) MFree (s_io s), [ERet])
  | MReq0 => (mkS false (s_susp s) (s_i s) (s_saved s) MWait0 (s_io s), [])
  | MWait0 => (if s_susp s then s else mkS (s_req s) (s_susp s) (s_i s) (s_saved s) MSet (s_io s), [])
  | MSet => (mkS (s_req s) (s_susp s) true (s_saved s) MFree (s_io s), [ERet])
  end.

Definition io_at (s : sirq) (p : iopc) : sirq := mkS (s_req s) (s_susp s) (s_i s) (s_saved s) (s_m s) p.
(** A step of the I/O thread.  [pend]: whether the interrupt is pending and the length of its handler.  The handlers
    call irq_disable_save and irq_restore (timer_expired): without effect here because of this_is_io_thread
    (simulator.cxx:147-150, 157, 174).  simulator.cxx:394-421, 268-275 *)
Definition io_step (pend : option nat) (s : sirq) : sirq * list event :=
  match s_io s with
  | IoTop => (io_at s (IoSampled (s_req s)), [])
  | IoSampled b => (mkS (s_req s) b (s_i s) (s_saved s) (s_m s) (if b then IoDelay else IoAdc), [])
  | IoAdc => match pend with Some n => (io_at s (IoAdcIn n), [EIsr]) | None => (io_at s IoTim, []) end
  | IoAdcIn O => (io_at s IoTim, [])
  | IoAdcIn (S n) => (io_at s (IoAdcIn n), [EIsr])
  | IoTim => match pend with Some n => (io_at s (IoTimIn n), [EIsr]) | None => (io_at s IoDelay, []) end
  | IoTimIn O => (io_at s IoDelay, [])
  | IoTimIn (S n) => (io_at s (IoTimIn n), [EIsr])
  | IoDelay => (io_at s IoTop, [])
  end.

(** The scheduler: who runs next *)
Inductive turn : Type := TMain (o : option op) | TIo (pend : option nat).
Definition sstep (t : turn) (s : sirq) : sirq * list event :=
  match t with TMain o => main_step o s | TIo p => io_step p s end.
Fixpoint srun (ts : list turn) (s : sirq) : sirq * list event :=
  match ts with
  | [] => (s, [])
  | t :: ts => let '(s, e) := sstep t s in let '(s, es) := srun ts s in (s, e ++ es)
  end.

(** * Specification vocabulary: the interrupt hand-shake of the simulator (C104) *)
From Coq Require Import List Bool.
From Verif Require Import MSimIrq.
Import ListNotations.

(** What the events mean on the device: the interrupt flag of the processor and the flags saved by irq_disable_save.
    [h_in]: the call in progress. *)
Record hw : Type := mkHw { h_i : bool; h_saved : list bool; h_in : option op }.
Definition hw_event (e : event) (h : hw) : hw :=
  match e with
  | EWork | EIsr => h
  | ECall ODisable _ => mkHw (h_i h) (h_saved h) (Some ODisable)
  | ECall OEnable _ => mkHw true (h_saved h) (Some OEnable)
  | ECall OSave _ => mkHw (h_i h) (h_i h :: h_saved h) (Some OSave)
  | ECall ORestore _ =>
      match h_saved h with
      | [] => mkHw (h_i h) [] (Some ORestore)
      | v :: r => mkHw (if v then true else h_i h) r (Some ORestore)
      end
  | ERet =>
      match h_in h with
      | Some ODisable | Some OSave => mkHw false (h_saved h) None
      | _ => mkHw (h_i h) (h_saved h) None
      end
  end.
Fixpoint hw_events (es : list event) (h : hw) : hw := match es with [] => h | e :: es => hw_events es (hw_event e h) end.
(** SPEC: instructions of interrupt handlers only while the flag is set. *)
Fixpoint respects (h : hw) (es : list event) : Prop :=
  match es with
  | [] => True
  | e :: es => (e = EIsr -> h_i h = true) /\ respects (hw_event e h) es
  end.
(** The I/O thread is inside an interrupt handler. *)
Definition in_handler (s : sirq) : Prop := exists n, s_io s = IoAdcIn n \/ s_io s = IoTimIn n.
(** The number of turns of the I/O thread *)
Fixpoint io_turns (ts : list turn) : nat :=
  match ts with [] => 0 | TMain _ :: ts => io_turns ts | TIo _ :: ts => S (io_turns ts) end.
(** Handlers are not longer than [n] instructions. *)
Definition short_handlers (n : nat) (ts : list turn) : Prop := Forall (fun t => match t with TIo (Some k) => k <= n | _ => True end) ts.
(** The main thread waits for the I/O thread. *)
Definition waiting (s : sirq) : Prop := s_m s = MWait1 \/ s_m s = MWait0.
(** The firmware calls none of the functions and there is always an interrupt pending. *)
Definition served (ts : list turn) : Prop := Forall (fun t => match t with TMain o => o = None | TIo p => p <> None end) ts.

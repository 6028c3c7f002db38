(** * Specification vocabulary: the time of the firmware and the time of day while the debug output is on *)
From Coq Require Import ZArith List Bool.
From Verif Require Import Base MDebug MUart.
Import ListNotations.
Open Scope Z_scope.

(** The bytes an action sends: for a line those of MDebug with the time of its begin *)
Definition act_text (a : action) (w : world) : option (list Z) :=
  match a with
  | ALine _ _ _ str0 str1 str2 => print_str3 true (u16 (w_ticks w)) str0 str1 str2
  | AGreet _ _ => Some greeting
  | _ => Some []
  end.
Definition is_line (a : action) : bool := match a with ALine _ _ _ _ _ _ => true | _ => false end.

(** SPEC: what is assumed about the speed of the code: the other sections with interrupts disabled are shorter
    than 8064 cycles (1 ms); between two bytes of a line there are at most 9152 cycles of code. *)
Definition timely (a : action) : Prop :=
  match a with
  | ACode d => 0 <= d
  | ACrit d => 0 <= d < 8064
  | ALine q cs e _ _ _ => 1 <= q <= 9152 /\ Forall (fun c => 0 <= c <= 9152) cs /\ 0 <= e <= 9152
  | AGreet q cs => 1 <= q <= 9152 /\ Forall (fun c => 0 <= c <= 9152) cs
  end.

(** SPEC: executions since power-up: the state, the lines sent, all bytes sent *)
Inductive uart_run : world -> list (list Z) -> list Z -> Prop :=
  | ur_boot : uart_run world0 [] []
  | ur_step w ls b a w' s : uart_run w ls b -> timely a -> act_step a w = Some w' -> act_text a w = Some s ->
      uart_run w' (if is_line a then s :: ls else ls) (b ++ s).

(** SPEC: at 8 MHz / 64 / 126 the clock should have counted one tick every 8064 cycles *)
Definition lost_ticks (w : world) : Z := w_now w / 8064 - w_ticks w.
Definition len {A} (l : list A) : Z := Z.of_nat (length l).
(** Every line of n bytes: n - 3 *)
Fixpoint at_least (ls : list (list Z)) : Z := match ls with [] => 0 | s :: ls => len s - 3 + at_least ls end.

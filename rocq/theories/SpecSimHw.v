(** * Specification vocabulary: the simulated timer and converter (C105) *)
From Coq Require Import ZArith List Bool.
From Verif Require Import MSimHw.
Import ListNotations.
Open Scope Z_scope.

(** The system time of the last iteration; [t0] if there was none *)
Definition last_time (t0 : Z) (is : list (Z * bool)) : Z := last (map fst is) t0.
(** The system time does not run backwards and an iteration follows the previous one within [d] milliseconds. *)
Fixpoint steady (d t0 : Z) (is : list (Z * bool)) : Prop :=
  match is with [] => True | i :: is => t0 <= fst i <= t0 + d /\ steady d (fst i) is end.
(** The system time does not run backwards. *)
Fixpoint forward (t0 : Z) (is : list (Z * bool)) : Prop :=
  match is with [] => True | i :: is => t0 <= fst i < 2 ^ 64 /\ forward (fst i) is end.
(** Interrupts were not suspended. *)
Definition unsuspended (is : list (Z * bool)) : Prop := Forall (fun i => snd i = false) is.

(** The handler took the value for one of the input it is of. *)
Definition right (r : rd) : Prop := rd_data r = rd_chan r.
(** The main thread does nothing between the two halves of simulate_adc. *)
Fixpoint halves_together (ts : list xturn) (x : simadc) : Prop :=
  match ts with
  | [] => True
  | XMain n :: ts => (forall m, x_io x <> IValue m) /\ halves_together ts (xmain n x)
  | XIo sys susp l :: ts => halves_together ts (fst (xio sys susp l x))
  end.

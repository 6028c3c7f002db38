(** * Specification vocabulary: the firmware together with the heater pin (C84, C85) *)
From Coq Require Import ZArith List Bool.
From Verif Require Import Base MConf MTimer MPid MCurr MSettings SpecSettings MState MMeas MMenu MMain SpecSys SpecRun SpecUI SpecLive SpecLoop
  MFine SpecFine MHeat.
Import ListNotations.
Open Scope Z_scope.

(** SPEC: executions of a system ([ini]: after the first power-up, [nx]: events) together with timer 1.
    [wired x h u l]: the system is in state [x] and the timer in state [h], [u] units (8 us) after the last
    tick; [l] lists for each unit since the last power-up, latest first, the state of the system in that unit
    and the level of the pin at its end.  The events take place at any time, except the ticks, which come
    every 126 units. *)
Inductive wired {X : Type} (ini : X -> Prop) (nx : X -> event -> X -> Prop) (ocr : X -> Z)
  : X -> t1 -> Z -> list (X * bool) -> Prop :=
  | wi_boot x h u : ini x -> t1_started h -> 0 <= u < UNITS_PER_TICK -> wired ini nx ocr x h u []
  | wi_event x h u l e x' : wired ini nx ocr x h u l -> nx x e x' -> e <> ETick -> is_power e = false ->
      wired ini nx ocr x' h u l
  | wi_power x h u l e x' h' u' : wired ini nx ocr x h u l -> nx x e x' -> is_power e = true ->
      t1_started h' -> 0 <= u' < UNITS_PER_TICK -> wired ini nx ocr x' h' u' []
  | wi_unit x h u l : wired ini nx ocr x h u l -> u + 1 < UNITS_PER_TICK ->
      wired ini nx ocr x (t1_unit (ocr x) h) (u + 1) ((x, w_pin (t1_unit (ocr x) h)) :: l)
  | wi_tick x h u l x' : wired ini nx ocr x h u l -> u + 1 = UNITS_PER_TICK -> nx x ETick x' ->
      wired ini nx ocr x' (t1_unit (ocr x) h) 0 ((x, w_pin (t1_unit (ocr x) h)) :: l).

(** The first [n] elements *)
Fixpoint ztake {A : Type} (n : Z) (l : list A) : list A :=
  match l with
  | [] => []
  | a :: r => if n <=? 0 then [] else a :: ztake (n - 1) r
  end.
Definition zlen {A : Type} (l : list A) : Z := Z.of_nat (length l).
(** In the last [n] units (which exist) the states were such that ... *)
Definition lately {X : Type} (n : Z) (P : X -> Prop) (l : list (X * bool)) : Prop :=
  n <= zlen l /\ Forall (fun s => P (fst s)) (ztake n l).
(** Number of units of the last [n] in which the pin was low: the heater drew current. *)
Fixpoint low {X : Type} (l : list (X * bool)) : Z :=
  match l with
  | [] => 0
  | (_, p) :: r => (if p then 0 else 1) + low r
  end.
Definition on_units {X : Type} (n : Z) (l : list (X * bool)) : Z := low (ztake n l).
(** A period of the PWM: 8192 clocks of 4 units, 262 ms *)
Definition PERIOD : Z := 32768.

(** The firmware with interrupts inside the work functions *)
Definition ffirst (C : conf) (y : sys) : Prop := exists pinb, is_u8 pinb /\ boot C (factory_ee C) pinb = Some y.
Definition fwired (C : conf) : sys -> t1 -> Z -> list (sys * bool) -> Prop :=
  wired (ffirst C) (fnext C) (fun y => cc_ocr (y_cc y)).
(** The main loop on hardware of known speed *)
Definition lfirst (C : conf) (t : station) : Prop :=
  exists pinb y, is_u8 pinb /\ boot C (factory_ee C) pinb = Some y /\ t = start C y pinb.
Definition lnext (S : speed) (lo hi : Z) (C : conf) (ok : settings -> Prop) (t : station) (e : event) (t' : station) : Prop :=
  may S C t e /\ exists y', step C (st_y t) e = Some y' /\ (is_power e = true -> ok (x_cache (y_set y'))) /\ t' = advance lo hi C t e y'.
Definition lwired (S : speed) (lo hi : Z) (C : conf) (ok : settings -> Prop) : station -> t1 -> Z -> list (station * bool) -> Prop :=
  wired (lfirst C) (lnext S lo hi C ok) (fun t => cc_ocr (y_cc (st_y t))).

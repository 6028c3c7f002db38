(** * Specification vocabulary: the tip of the iron in the loop (C101) *)
From Coq Require Import ZArith List Bool.
From Verif Require Import Base MConf MTimer MPid MCurr MSettings SpecSettings MState MMeas MMenu MMain SpecSys SpecRun SpecUI SpecLive SpecLoop
  MFine SpecFine MHeat SpecHeat.
Import ListNotations.
Open Scope Z_scope.

(** Temperatures of the tip are in millionths of a degree; those of the firmware have 64 units per degree. *)
Definition MICRO : Z := 15625.
(** The converter codes that mean more than [v] (64 per degree) with the sensor adjustment [a] begin at ... *)
Definition first_code (C : conf) (a v : Z) : Z :=
  (if c_smd C then 210 else 209) - (201 - 402 * (v + 1 + (if c_adj C then a else 0) - 150 * 64)) / (2 * 330 * 64).
Definition hot_lo (C : conf) (a : Z) : Z := first_code C a (480 * 64).
Definition hot_hi (C : conf) (a : Z) : Z := first_code C a (500 * 64) - 1.

(** SPEC: what is assumed of the iron: its temperature rises by at most [i_rise] in a unit of 8 us; it does not
    rise once the heater has been off for [i_lag] units; sensor, amplifier and converter are wrong by at most
    [i_err]. *)
Record iron : Type := mkIron { i_rise : Z; i_lag : Z; i_err : Z }.
Definition iron_ok (I : iron) : Prop := 0 <= i_rise I /\ 0 <= i_lag I /\ 0 <= i_err I.
(** [l]: the levels of the heater pin at the ends of the units up to this one; high: off *)
Definition off_for {X : Type} (n : Z) (l : list (X * bool)) : Prop := n <= zlen l /\ Forall (fun s => snd s = true) (ztake n l).
Definition warms {X : Type} (I : iron) (l : list (X * bool)) (th th' : Z) : Prop :=
  th' <= th + i_rise I /\ (off_for (i_lag I) l -> th' <= th).
(** A conversion of the temperature input gives the temperature. *)
Definition sensed (I : iron) (C : conf) (a : Z) (t : station) (e : event) (th : Z) : Prop :=
  match e with
  | EAdc raw => m_adc (y_meas (st_y t)) = true -> m_chan (y_meas (st_y t)) = 1 ->
      forall v, temp_of_code C a raw v -> Z.abs (MICRO * v - th) <= i_err I
  | _ => True
  end.
(** Nobody turns the control off (to adjust something) or changes the sensor adjustment. *)
Definition undisturbed (a : Z) (t : station) : Prop := t_enabled (y_ct (st_y t)) = true /\ s_adj (x_cache (y_set (st_y t))) = a.

(** SPEC: executions since a power-up with a tip of at most 480 degrees: the main loop, timer 1, the heater
    pin and the temperature [th] of the tip *)
Definition hot_wired (S : speed) (C : conf) (a : Z) : station -> t1 -> Z -> list (station * bool) -> Prop :=
  lwired S (hot_lo C a) (hot_hi C a) C adj_99.
Definition hot_next (S : speed) (C : conf) (a : Z) : station -> event -> station -> Prop :=
  lnext S (hot_lo C a) (hot_hi C a) C adj_99.
Inductive tip (I : iron) (S : speed) (C : conf) (a : Z) : station -> t1 -> Z -> list (station * bool) -> Z -> Prop :=
  | tip_start t h u th : hot_wired S C a t h u [] -> undisturbed a t -> th <= 480 * 1000000 -> tip I S C a t h u [] th
  | tip_event t h u l th e t' : tip I S C a t h u l th -> hot_next S C a t e t' -> e <> ETick -> is_power e = false ->
      undisturbed a t' -> sensed I C a t e th -> tip I S C a t' h u l th
  | tip_unit t h u l th th' : tip I S C a t h u l th -> u + 1 < UNITS_PER_TICK ->
      warms I ((t, w_pin (t1_unit (cc_ocr (y_cc (st_y t))) h)) :: l) th th' ->
      tip I S C a t (t1_unit (cc_ocr (y_cc (st_y t))) h) (u + 1) ((t, w_pin (t1_unit (cc_ocr (y_cc (st_y t))) h)) :: l) th'
  | tip_tick t h u l th t' th' : tip I S C a t h u l th -> u + 1 = UNITS_PER_TICK -> hot_next S C a t ETick t' -> undisturbed a t' ->
      warms I ((t, w_pin (t1_unit (cc_ocr (y_cc (st_y t))) h)) :: l) th th' ->
      tip I S C a t' (t1_unit (cc_ocr (y_cc (st_y t))) h) 0 ((t, w_pin (t1_unit (cc_ocr (y_cc (st_y t))) h)) :: l) th'.

(** SPEC: the time (ms) from the sensor to the heater: a cycle and a window of the measurement, a PWM period *)
Definition reaction (S : speed) : Z := slow_cycle (limits_of S) + slow_window (limits_of S) + 261.
(** The highest temperature *)
Definition tip_max (I : iron) (S : speed) : Z :=
  480 * 1000000 + i_err I + i_rise I * (126 * (reaction S + 1) + i_lag I).

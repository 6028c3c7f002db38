(** * Specification vocabulary: how long the codes of the current sensor have been in a range (C95) *)
From Coq Require Import ZArith List Bool.
From Verif Require Import Base MConf MTimer MPid MCurr MSettings SpecSettings MState MMeas MMenu MMain SpecSys SpecRun SpecLive.
Import ListNotations.
Open Scope Z_scope.

(** SPEC: a further stopwatch beside those of SpecLive: ms since a conversion of the current channel gave
    a code outside of lo..hi (or since power-up). *)
Definition sense_step (lo hi : Z) (y : sys) (s : Z) (e : event) : Z :=
  match e with
  | ETick => s + 1
  | EAdc raw => if m_adc (y_meas y) && (m_chan (y_meas y) =? 0) && negb ((lo <=? raw) && (raw <=? hi)) then 0 else s
  | _ => s
  end.
(** SPEC: executions with bounded delays as in [served], with this stopwatch. *)
Inductive sensed (L : limits) (lo hi : Z) (C : conf) : sys -> watch -> Z -> Prop :=
  | sns_boot pinb y : is_u8 pinb -> boot C (factory_ee C) pinb = Some y -> sensed L lo hi C y watch_zero 0
  | sns_power y v pinb y' : reach C y -> ev_ok C y (EPower v pinb) -> step C y (EPower v pinb) = Some y' ->
      -99 * 64 <= s_adj (x_cache (y_set y')) <= 99 * 64 -> sensed L lo hi C y' watch_zero 0
  | sns_step y w s e y' : sensed L lo hi C y w s -> on_time L C y w e -> step C y e = Some y' ->
      sensed L lo hi C y' (watch_step 0 1023 y w e y') (sense_step lo hi y s e).

(** SPEC: the code that a low-pass filter of weight 1/16 shows at least (at most) after [n] means of at
    least (at most) [c], whatever it held before. *)
Fixpoint settled (c start : Z) (n : nat) : Z :=
  match n with O => start | S m => let b := settled c start m in b - b / 16 + c end.
Definition shown_min (lo : Z) (n : nat) : Z := settled lo 0 n / 16.
Definition shown_max (hi : Z) (n : nat) : Z := settled hi 16368 n / 16.
(** SPEC: the time after which [n] means are known to be of codes in the range. *)
Definition settle_ms (L : limits) (n : nat) : Z := slow_window L + Z.of_nat n * slow_cycle L.

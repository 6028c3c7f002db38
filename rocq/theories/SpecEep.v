(** * Specification vocabulary: the firmware together with the EEPROM registers (C94) *)
From Coq Require Import ZArith List Bool.
From Verif Require Import Base MConf MTimer MCurr MSettings SpecSettings MState MMeas MMenu MMain SpecSys MEep.
Import ListNotations.
Open Scope Z_scope.

(** SPEC: the program variables of [x] with the EEPROM [r] beside them *)
Definition with_hw (x : sst) (r : eep) : sst :=
  mkSst (x_timer x) (x_request x) (x_cache x) (x_index x) (x_offset x) (e_cells r) (e_rie r) (e_prog r).
(** SPEC: the events in which settings.c accesses the EEPROM *)
Definition ee_event (e : event) : bool :=
  match e with EReady | EDone | ESettings | EPower _ _ => true | _ => false end.
(** SPEC: the value left by an undisturbed end of the operation in progress *)
Definition programmed (r : eep) : Z := match e_prog r with Some (_, v) => v | None => 0 end.

(** SPEC: executions of the firmware with the EEPROM.  [eerun C k y r]: the program is in state [y] and the
    EEPROM in state [r]; a read-modify-write of EECR takes [k] cycles.  The interrupt is served when the hardware
    requests it.  At a power failure the byte being programmed is left with the value [v]; a reset by the
    watchdog lets the hardware finish it.  EEAR and EEDR have any value after a reset. *)
Inductive eerun (C : conf) (k : Z) : sys -> eep -> Prop :=
  | er_boot pinb y ar dr i l r : is_u8 pinb -> boot C (factory_ee C) pinb = Some y ->
      settings_init_r C k (mkEep ar dr false 0 None (factory_ee C)) = Some (i, l, r) -> eerun C k y r
  | er_irq y r x' r' : eerun C k y r -> ready_request r = true -> ee_ready_isr_r C k (y_set y) r = Some (x', r') ->
      eerun C k (set_y_set y (with_hw x' r')) r'
  | er_done y r : eerun C k y r -> eerun C k (set_y_set y (with_hw (y_set y) (eep_done r))) (eep_done r)
  | er_work y r x' r' : eerun C k y r -> ev_ok C y ESettings -> settings_work_r C k (y_now y) (y_set y) r = Some (x', r') ->
      eerun C k (set_y_set y (with_hw x' r')) r'
  | er_cycles y r n : eerun C k y r -> 0 <= n -> eerun C k y (eep_cycles n r)
  | er_other y r e y' : eerun C k y r -> ev_ok C y e -> step C y e = Some y' -> ee_event e = false -> eerun C k y' r
  | er_power y r v pinb y' ar dr i l r' : eerun C k y r -> ev_ok C y (EPower v pinb) -> step C y (EPower v pinb) = Some y' ->
      settings_init_r C k (mkEep ar dr false 0 None (match e_prog r with Some (a, _) => fupd (e_cells r) a v | None => e_cells r end)) = Some (i, l, r') ->
      eerun C k y' r'
  | er_reset y r pinb y' ar dr i l r' : eerun C k y r -> ev_ok C y (EPower (programmed r) pinb) ->
      step C y (EPower (programmed r) pinb) = Some y' -> settings_init_r C k (eep_reset ar dr r) = Some (i, l, r') ->
      eerun C k y' r'.

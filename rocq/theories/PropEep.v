(** * The EEPROM registers (C94)

    [eerun C k y r]: the firmware is in state [y] and the EEPROM in state [r] (registers, operation in progress,
    cells, see MEep); [k] is the number of cycles of an access to EECR: 2 for SBI and CBI, 3 for IN, ORI, OUT. *)
From Coq Require Import ZArith List Bool Lia.
From Verif Require Import Base MConf MTimer MCurr MSettings SpecSettings MState MMeas MMenu MMain SpecSys MEep SpecEep PEep PEepEx.
Import ListNotations.
Open Scope Z_scope.

(** The registers refine the storage of the model: same cells, same interrupt enable, same byte being
    programmed; so everything proved about the storage (C49-C54) holds of the EEPROM. *)
Theorem C94_refines : forall C k y r, build_conf C -> k <= 3 -> eerun C k y r ->
  reach C y /\ x_ee (y_set y) = e_cells r /\ x_eerie (y_set y) = e_rie r /\ x_busy (y_set y) = e_prog r.
Proof. exact ee_refines. Qed.
Print Assumptions C94_refines.
Example C94_ex : (exists y r, eerun conf_m88p 2 y r /\ ready_request r = true /\ x_offset (y_set y) = 0 /\ e_cells r 64 <> 96) /\
  exists y r, eerun conf_m88p 3 y r /\ e_prog r = Some (64, 96) /\ e_rie r = true.
Proof. exact case94. Qed.

(** No forbidden access: every function is defined in every state, also when it runs while a byte is being
    programmed, and acts as the event of [step]. *)
Theorem C94_allowed : forall C k y r, build_conf C -> k <= 3 -> eerun C k y r ->
  (ready_request r = true -> exists x' r', ee_ready_isr_r C k (y_set y) r = Some (x', r') /\ step C y EReady = Some (set_y_set y (with_hw x' r'))) /\
  (ready_request r = false -> step C y EReady = Some y) /\
  step C y EDone = Some (set_y_set y (with_hw (y_set y) (eep_done r))) /\
  (exists x' r', settings_work_r C k (y_now y) (y_set y) r = Some (x', r') /\ step C y ESettings = Some (set_y_set y (with_hw x' r'))) /\
  (forall ar dr, exists i l r', settings_init_r C k (eep_reset ar dr r) = Some (i, l, r')).
Proof. exact ee_progress. Qed.
Print Assumptions C94_allowed.

(** One interrupt: the byte of the cache at the write offset is compared with its cell in the slot being
    written; the cell is inside the EEPROM; if they differ the cell is being programmed afterwards, with that byte. *)
Theorem C94_byte : forall C k y r x' r', build_conf C -> k <= 3 -> eerun C k y r -> ready_request r = true -> ee_ready_isr_r C k (y_set y) r = Some (x', r') ->
  exists d, let a := 64 * (if c_eering C then x_index (y_set y) else 0) + x_offset (y_set y) in
    zget (settings_bytes (x_cache (y_set y))) (x_offset (y_set y)) = Some d /\ 0 <= a < 64 * c_slots C /\
    e_cells r' = e_cells r /\ e_prog r' = (if e_cells r a =? d then None else Some (a, d)).
Proof. exact ee_irq. Qed.
Print Assumptions C94_byte.
(** The limit on the time is sharp: with one more cycle between EEMPE and EEPE nothing is ever written. *)
Theorem C94_slow_refuted : forall C k k' y r, build_conf C -> k <= 3 -> eerun C k y r -> ready_request r = true -> 4 <= k' ->
  exists x' r', ee_ready_isr_r C k' (y_set y) r = Some (x', r') /\ e_prog r' = None /\ e_cells r' = e_cells r.
Proof. exact ee_late. Qed.
Print Assumptions C94_slow_refuted.

(** Boot, from any register contents: waits for the byte being programmed (after a reset by the watchdog) and reads
    the settings that MSettings finds in the cells. *)
Theorem C94_boot : forall C k r, build_conf C -> exists x l r', settings_init C (e_cells (eep_done r)) = Some x /\
  settings_init_r C k r = Some (x_index x, l, r') /\ settings_of (fun i => nth (Z.to_nat i) l 0) = x_cache x /\
  e_cells r' = e_cells (eep_done r) /\ e_prog r' = None.
Proof. exact ee_boot. Qed.
Print Assumptions C94_boot.

(** All executions occur. *)
Theorem C94_every : forall C k y, build_conf C -> k <= 3 -> reach C y -> exists r, eerun C k y r.
Proof. exact ee_every. Qed.
Print Assumptions C94_every.

(** * C106: the storage of the settings inside the whole firmware *)
From Coq Require Import ZArith List Bool.
From Verif Require Import Base MConf MTimer MSettings SpecSettings MState MMain SpecSys MFine SpecFine SpecStor Trace PSettings PSettingsEx PStor3 PStor4.
Import ListNotations.
Open Scope Z_scope.

(** Whatever the firmware does, with interrupts inside its work functions, its settings and its EEPROM are in
    a state that the storage of C49 to C53 reaches on its own: their theorems hold for the whole firmware. *)
Theorem C106_projects : forall C y, ring_conf C -> freach C y -> exists w, sreach C false w /\ stored_as w y.
Proof. exact (fun C y HC => reach_stored C HC y). Qed.
Print Assumptions C106_projects.
(** Every event of the main loop is a sequence of operations of the storage: one start of a store for
    settings_work, one power failure for a power failure, and otherwise changes, ticks and EEPROM
    interrupts only. *)
Theorem C106_event : forall C y e y' w, ring_conf C -> freach C y -> fnext C y e y' -> sreach C false w -> stored_as w y ->
  exists ops w', srun C w ops w' /\ ops_of e ops /\ stored_as w' y' /\ sreach C false w'.
Proof. exact (fun C y e y' w HC R N Rw H => reach_event C HC y e y' w R Rw H N). Qed.
Print Assumptions C106_event.
Example C106_event_ex : ring_conf conf_m88p /\ exists y y', freach conf_m88p y /\ fnext conf_m88p y EMenu y' /\
  x_eerie (y_set y) = true /\ x_offset (y_set y) = 0 /\ x_offset (y_set y') = 3 /\ x_request (y_set y) = false /\ x_request (y_set y') = true /\
  s_idle (x_cache (y_set y)) = 151 * 64 /\ s_idle (x_cache (y_set y')) = 152 * 64.
Proof. exact (conj ring_m88p stor_case1). Qed.

(** With no order pending and no store running, a power failure changes no setting. *)
Theorem C106_survive : forall C y v pinb y', ring_conf C -> freach C y -> quiet (y_set y) = true -> x_request (y_set y) = false ->
  fnext C y (EPower v pinb) y' -> x_cache (y_set y') = x_cache (y_set y) /\ x_index (y_set y') = x_index (y_set y).
Proof. exact (fun C y v pinb y' HC => stor_survive C HC y v pinb y'). Qed.
Print Assumptions C106_survive.
Example C106_survive_ex : exists y y', freach conf_m88p y /\ fnext conf_m88p y (EPower 0 NO_KEYS) y' /\ quiet (y_set y) = true /\ x_request (y_set y) = false /\
  s_idle (x_cache (y_set y')) = 151 * 64 /\ s_idle (default_settings conf_m88p) = 150 * 64.
Proof. exact stor_case2. Qed.

(** No change goes unordered: an event that changes the settings leaves an order to store them; the order
    and the position in the ring are changed by settings_work only. *)
Theorem C106_requested : forall C y e y', ring_conf C -> freach C y -> fnext C y e y' -> is_power e = false ->
  (x_request (y_set y') = true \/ same_content (x_cache (y_set y')) (x_cache (y_set y))) /\
  (e <> ESettings -> (x_request (y_set y) = true -> x_request (y_set y') = true) /\ x_index (y_set y') = x_index (y_set y)).
Proof. exact (fun C y e y' HC => stor_requested C HC y e y'). Qed.
Print Assumptions C106_requested.

(** A due store succeeds from every reachable state: once the store that may be running has been finished,
    settings_work and 64 interrupts put the settings where every later power-up finds them. *)
Theorem C106_saved : forall C y, ring_conf C -> freach C y ->
  (x_request (y_set y) = true -> timer_expired (y_now y) (x_timer (y_set y)) = true) ->
  exists z y1, run C y (rounds 64) = Some z /\ run C z (ESettings :: rounds 64) = Some y1 /\ freach C y1 /\
    forall v pinb y2, fnext C y1 (EPower v pinb) y2 -> same_content (x_cache (y_set y2)) (x_cache (y_set y)).
Proof. exact (fun C y HC => stor_saved C HC y). Qed.
Print Assumptions C106_saved.
Example C106_saved_ex : exists y, freach conf_m88p y /\ x_request (y_set y) = true /\ timer_expired (y_now y) (x_timer (y_set y)) = true.
Proof. exact stor_case3. Qed.

(** An EEPROM interrupt changes no cell itself; it starts the programming of at most one byte, of the
    settings in force, into the slot of the store, and only where the cell differs. *)
Theorem C106_ready : forall C y y', ring_conf C -> freach C y -> step C y EReady = Some y' ->
  x_ee (y_set y') = x_ee (y_set y) /\
  (y_set y' = y_set y \/ x_busy (y_set y') = None \/
   exists k, 0 <= k < 64 /\
     x_busy (y_set y') = Some (64 * x_index (y_set y) + k, nth (Z.to_nat k) (settings_bytes (x_cache (y_set y))) 0) /\
     nth (Z.to_nat k) (settings_bytes (x_cache (y_set y))) 0 <> x_ee (y_set y) (64 * x_index (y_set y) + k)).
Proof. exact (fun C y y' HC => stor_ready C HC y y'). Qed.
Print Assumptions C106_ready.
Example C106_ready_ex : exists y y', freach conf_m88p y /\ step conf_m88p y EReady = Some y' /\ x_eerie (y_set y) = true /\ x_busy (y_set y) = None /\ x_busy (y_set y') <> None.
Proof. exact stor_case4. Qed.
(** No event changes a cell outside the slot of the store, not even with interrupts inside it. *)
Theorem C106_cells : forall C y e y' a, ring_conf C -> freach C y -> fnext C y e y' -> is_power e = false -> x_ee (y_set y') a <> x_ee (y_set y) a ->
  e <> ESettings /\ 64 * x_index (y_set y) <= a < 64 * x_index (y_set y) + 64.
Proof. exact (fun C y e y' a HC => stor_cells C HC y e y' a). Qed.
Print Assumptions C106_cells.

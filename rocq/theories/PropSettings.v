(** * Properties C49-C54, C60: settings storage.
    This file contains only final statements, examples and [Print Assumptions]. *)
From Coq Require Import ZArith List Bool Lia.
From Verif Require Import Base MConf MTimer MPid MSettings SpecSettings PSettings PSettingsEx SpecMix PMix PMixEx.
Import ListNotations.
Open Scope Z_scope.

(** ** C49 *)
(** A power failure at any point of any history, leaving any value in the byte being
    programmed: the next boot loads the settings of the last completed store or those of
    the store in progress, complete. *)
Theorem C49_store_atomic : forall C w v, ring_conf C -> sreach C true w -> is_u8 v ->
  exists x', settings_init C (ee_after_crash (w_x w) v) = Some x' /\
    (same_content (x_cache x') (w_committed w) \/
     exists n, w_inflight w = Some n /\ same_content (x_cache x') n).
Proof. exact atomic. Qed.
Print Assumptions C49_store_atomic.
(** ... and the second case only arises while a store is being written. *)
Theorem C49_idle_is_old : forall C w, ring_conf C -> sreach C true w ->
  quiet (w_x w) = true -> w_inflight w = None.
Proof. exact quiet_no_inflight. Qed.
Print Assumptions C49_idle_is_old.
(** A reachable state in the middle of a store, with a byte being programmed and the old and
    new first preset different. *)
Example C49_ex : ring_conf conf_m88p /\ ring_conf conf_m328p /\
  exists w, sreach conf_m88p true w /\ mid_check (Some w) = true.
Proof. exact (conj ring_m88p (conj ring_m328p mid_store_reach)). Qed.

(** ** C50 *)
(** Any history, including changes during stores and power failures. *)
Theorem C50_stored_settings_survive : forall C, ring_conf C -> forall calm w, sreach C calm w ->
  quiet (w_x w) = true -> x_request (w_x w) = false ->
  exists x', settings_init C (x_ee (w_x w)) = Some x' /\ x_cache x' = x_cache (w_x w) /\
             x_index x' = x_index (w_x w).
Proof. exact durable. Qed.
Print Assumptions C50_stored_settings_survive.
(** A store that has been started completes after 64 interrupts. *)
Theorem C50_store_completes : forall C calm w, ring_conf C -> sreach C calm w ->
  exists w', sexec C w (drounds 64) = Some w' /\ quiet (w_x w') = true /\
    x_cache (w_x w') = x_cache (w_x w) /\ x_request (w_x w') = x_request (w_x w).
Proof. exact reach_completes. Qed.
Print Assumptions C50_store_completes.
(** No step of the storage is undefined. *)
Theorem C50_storage_defined : forall C calm w op, ring_conf C -> sreach C calm w -> op_basic C w op ->
  exists w', sstep C w op = Some w'.
Proof. exact reach_total. Qed.
Print Assumptions C50_storage_defined.
Example C50_ex : exists w, sreach conf_m88p true w /\ quiet (w_x w) = true /\ x_request (w_x w) = false /\
  hd 0 (s_preset (x_cache (w_x w))) = 20000 /\ x_index (w_x w) = 1.
Proof. exact stored_reach. Qed.

(** ** C51: false of the code *)
(** 479 C is being stored, the user steps to 480 C meanwhile, power fails after the store and
    before the next: 483 C is loaded, which was never set (and is above the allowed maximum). *)
Theorem C51_snapshot_refuted : exists w ops w', sboot conf_m88p = Some w /\
  srun conf_m88p w (ops ++ [SPower 0]) w' /\
  hd 0 (s_preset (x_cache (w_x w'))) = 483 * 64 /\
  (forall s, In s (caches conf_m88p w ops) -> ~ same_content (x_cache (w_x w')) s).
Proof. exact snapshot_refuted. Qed.
Print Assumptions C51_snapshot_refuted.
(** What holds instead, for any changes at any time: after a power failure every byte loaded is one of the
    settings in use during the last completed store, or every byte is one of those in use during the store in progress. *)
Theorem C51_mixture : forall C w h v, ring_conf C -> logged C w h -> is_u8 v ->
  exists x', settings_init C (ee_after_crash (w_x w) v) = Some x' /\ settings_wf (x_cache x') /\ ((Forall settings_wf (fst h) /\ mixture (fst h) (x_cache x')) \/
     exists L, snd h = Some L /\ Forall settings_wf L /\ mixture L (x_cache x')).
Proof. exact (fun C w h v H => ring_mixture C H w h v). Qed.
Print Assumptions C51_mixture.
(** Hence a value that was not changed during the store is loaded exactly. *)
Theorem C51_unchanged : forall L s, settings_wf s -> Forall settings_wf L -> mixture L s ->
  (forall v, (forall s0, In s0 L -> s_idle s0 = v) -> s_idle s = v) /\
  (forall v, (forall s0, In s0 L -> s_active s0 = v) -> s_active s = v) /\
  (forall v, (forall s0, In s0 L -> s_adj s0 = v) -> s_adj s = v) /\
  (forall i v, 0 <= i < 6 -> (forall s0, In s0 L -> nth (Z.to_nat i) (s_preset s0) 0 = v) -> nth (Z.to_nat i) (s_preset s) 0 = v) /\
  (forall i f v, 0 <= i < 3 -> In f [kp; ki; kd; d_decay_div] ->
     (forall s0, In s0 L -> f (nth (Z.to_nat i) (s_k s0) (mkK 0 0 0 0)) = v) -> f (nth (Z.to_nat i) (s_k s) (mkK 0 0 0 0)) = v).
Proof. exact mixture_fields. Qed.
Print Assumptions C51_unchanged.
Example C51_ex : exists w h x', logged conf_m88p w h /\ settings_init conf_m88p (ee_after_crash (w_x w) 0) = Some x' /\
  hd 0 (s_preset (x_cache x')) = 483 * 64 /\ snd h = None /\
  forallb (fun s => (p0 s =? 479 * 64) || (p0 s =? 480 * 64)) (fst h) = true.
Proof. exact mix_ex. Qed.

(** ** C52 *)
(** The interrupt changes no cell itself; if it starts programming, then one byte of the slot
    being stored, with the byte of the settings at that offset, and only if it differs. *)
Theorem C52_write_discipline : forall C, ring_conf C -> forall calm w w', sreach C calm w ->
  sstep C w SReady = Some w' ->
  x_ee (w_x w') = x_ee (w_x w) /\
  (w_x w' = w_x w \/ x_busy (w_x w') = None \/
   exists k, 0 <= k < 64 /\
     x_busy (w_x w') = Some (64 * x_index (w_x w) + k, nth (Z.to_nat k) (settings_bytes (x_cache (w_x w))) 0) /\
     nth (Z.to_nat k) (settings_bytes (x_cache (w_x w))) 0 <> x_ee (w_x w) (64 * x_index (w_x w) + k)).
Proof. exact isr_discipline. Qed.
Print Assumptions C52_write_discipline.
(** A cell changes only if it is the byte being programmed, in the slot being stored. *)
Theorem C52_other_slots_untouched : forall C, ring_conf C -> forall calm w op w' a, sreach C calm w ->
  op_basic C w op -> sstep C w op = Some w' -> x_ee (w_x w') a <> x_ee (w_x w) a ->
  64 * x_index (w_x w) <= a < 64 * x_index (w_x w) + 64 /\
  exists d, x_busy (w_x w) = Some (a, d) /\ (op = SDone \/ exists v, op = SPower v).
Proof. exact cells_discipline. Qed.
Print Assumptions C52_other_slots_untouched.
(** Slots are used in turn. *)
Theorem C52_round_robin : forall C, ring_conf C -> forall calm w ops w', sreach C calm w ->
  srun C w ops w' -> Forall no_power ops ->
  x_index (w_x w') = (x_index (w_x w) + nstores C w ops) mod c_slots C.
Proof. exact round_robin. Qed.
Print Assumptions C52_round_robin.
Example C52_ex : nstores conf_m88p (wboot conf_m88p) (many 9) = 9 /\
  match sexec conf_m88p (wboot conf_m88p) (many 9) with Some w => x_index (w_x w) | None => -1 end = 1.
Proof. split; vm_compute; reflexivity. Qed.

(** ** C53 *)
(** After a change: no store starts before 1000 ticks, at most one store starts, and the first
    settings_work polled 1000..33767 ticks after the change starts it. *)
Theorem C53_coalesced : forall C w f w1 ops w2, is_u16 (w_now w) ->
  sstep C w (SModify f) = Some w1 -> srun C w1 ops w2 -> Forall no_user ops ->
  (nticks ops < 1000 -> nstores C w1 ops = 0) /\
  (nstores C w1 ops <= 1) /\
  (nstores C w1 ops = 0 -> 1000 <= nticks ops <= 33767 ->
     op_basic C w2 SWork -> nstores C w1 (ops ++ [SWork]) = 1).
Proof. exact coalesce. Qed.
Print Assumptions C53_coalesced.
(** Two consecutive stores start at least 1000 ticks apart, which is what makes the timing
    assumption in [op_basic] true of the hardware (64 bytes take at most 218 ms). *)
Theorem C53_store_gap : forall C w w1 ops w2 w3, is_u16 (w_now w) ->
  sstep C w SWork = Some w1 -> starts (w_x w) (w_x w1) = true ->
  srun C w1 ops w2 -> Forall no_power ops -> nstores C w1 ops = 0 ->
  sstep C w2 SWork = Some w3 -> starts (w_x w2) (w_x w3) = true -> 1000 <= nticks ops.
Proof. exact store_gap. Qed.
Print Assumptions C53_store_gap.
Example C53_ex :
  let ops n := SModify (set_preset0 20000) :: repeat STick 500 ++ SModify (set_preset0 20064) :: repeat STick n ++ [SWork; SWork] in
  nstores conf_m88p (wboot conf_m88p) (ops 999%nat) = 0 /\ nstores conf_m88p (wboot conf_m88p) (ops 1000%nat) = 1.
Proof. split; vm_compute; reflexivity. Qed.

(** ** C54 *)
(** The search terminates for any contents and any answer of the hardware. *)
Theorem C54_scan_terminates : forall C ee, 2 <= c_slots C <= 254 -> exists x, settings_init C ee = Some x.
Proof. exact init_total. Qed.
Print Assumptions C54_scan_terminates.
(** It yields the end of the run of consecutive serials starting at slot 0, provided the read
    of slot N's serial answers like slot 0. *)
Theorem C54_scan_result : forall C ee, ring_conf C -> (forall a, is_u8 (ee a)) ->
  exists x i, settings_init C ee = Some x /\ x_index x = i /\ 0 <= i < c_slots C /\
    x_cache x = settings_of (fun k => ee (64 * i + k)) /\
    (forall m, 0 <= m < i -> ee (64 * (m + 1) + 63) = (ee (64 * m + 63) + 1) mod 256) /\
    (i + 1 < c_slots C -> ee (64 * (i + 1) + 63) <> (ee (64 * i + 63) + 1) mod 256).
Proof. exact scan_exact. Qed.
Print Assumptions C54_scan_result.
(** "Reads only existing slots" is false: with another answer for the cell behind the array
    the index found is outside of the array. *)
Theorem C54_in_bounds_refuted : exists C ee x, c_slots C = 8 /\ c_eering C = true /\
  settings_init C ee = Some x /\ c_slots C <= x_index x.
Proof. exact scan_oob_refuted. Qed.
Print Assumptions C54_in_bounds_refuted.
(** Such an image (the newest slot is the last) arises in normal use. *)
Example C54_ex : exists w, sreach conf_m88p true w /\ x_index (w_x w) = 7 /\ quiet (w_x w) = true.
Proof. exact seven_stores. Qed.

(** ** C60: false of the code *)
Theorem C60_noring_refuted : exists w ops w', sboot conf_noring = Some w /\
  srun conf_noring w (ops ++ [SPower 0]) w' /\
  (forall s, In s (caches conf_noring w ops) -> ~ same_content (x_cache (w_x w')) s).
Proof. exact noring_refuted. Qed.
Print Assumptions C60_noring_refuted.
(** What holds instead: after a power failure the record consists of a prefix from the store in progress and
    a rest from the last completed store, and at most one torn byte between them. *)
Theorem C60_mixture : forall C w h v, c_eering C = false -> 1 <= c_slots C -> logged C w h -> is_u8 v ->
  exists x' o, settings_init C (ee_after_crash (w_x w) v) = Some x' /\ settings_wf (x_cache x') /\ (snd h = None -> o = 0) /\
    forall k, 0 <= k < 64 ->
      (torn (w_x w) k /\ byte_of (x_cache x') k = v) \/
      (k < o /\ exists L, snd h = Some L /\ from L k (byte_of (x_cache x') k)) \/
      (o <= k /\ from (fst h) k (byte_of (x_cache x') k)).
Proof. exact (fun C w h v H S => plain_mixture C H S w h v). Qed.
Print Assumptions C60_mixture.
Example C60_ex : exists w h L x', logged conf_noring w h /\ settings_init conf_noring (ee_after_crash (w_x w) 0) = Some x' /\
  hd 0 (s_preset (x_cache x')) = 307 * 64 /\ map p0 (fst h) = [305 * 64] /\ snd h = Some L /\
  forallb (fun s => p0 s =? 479 * 64) L = true.
Proof. exact plain_ex. Qed.

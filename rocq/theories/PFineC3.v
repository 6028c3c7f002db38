(** * Interrupts inside the work functions: a cold iron is heated, statements and a concrete execution *)
From Coq Require Import ZArith List Bool Lia ZifyBool.
From Verif Require Import Base PBase MConf MTimer MPid MPwm MCurr SpecNum SpecCurr MSettings SpecSettings MSseg MDisplay MState MTemp
  MMeas MMenu MMain SpecDisplay SpecSys SpecRun SpecLive Trace TraceLive PSettingsEx SpecWarm
  MFine SpecFine SpecFineLive SpecFineWarm PFine8 PFineEx PFineT6 PFineW2 PFineW3 PFineC PFineC2.
Import ListNotations.
Open Scope Z_scope.

Lemma fcold_demand L lo hi chi C W vlo vhi y w n : build_conf C -> limits_ok L ->
  -20 * 64 <= vlo <= vhi -> vhi <= 500 * 64 -> 187 * 64 <= W - vhi -> W - vlo < 2 * (W - vhi) ->
  fwanting L lo hi chi C W y w n ->
  (forall c x, lo <= c <= hi -> temp_of_code C (s_adj (x_cache (y_set y))) c x -> vlo <= x <= vhi) ->
  2 * slow_cycle L < n -> 2 * slow_cycle L < v_calm w -> 2 * slow_cycle L + slow_window L < v_steady w ->
  p_setpoint (cc_pid (y_cc y)) = 5 * 640 /\ Z.testbit (cc_emerg (y_cc y)) 1 = false.
Proof. intros HC HL V1 V2 V3 V4 D Rg H1 H2 H3. exact (fcold L lo hi chi C W HC HL vlo vhi (conj V1 (conj V2 (conj V3 V4))) y w n D Rg H1 H2 H3). Qed.
Lemma fcold_heats L lo hi chi C W vlo vhi y w n : build_conf C -> limits_ok L ->
  -20 * 64 <= vlo <= vhi -> vhi <= 500 * 64 -> 187 * 64 <= W - vhi -> W - vlo < 2 * (W - vhi) -> 0 <= chi <= 203 ->
  fwanting L lo hi chi C W y w n ->
  (forall c x, lo <= c <= hi -> temp_of_code C (s_adj (x_cache (y_set y))) c x -> vlo <= x <= vhi) ->
  3 * slow_cycle L < n -> 3 * slow_cycle L < v_calm w -> 3 * slow_cycle L + slow_window L < v_steady w ->
  cc_emerg (y_cc y) = 0 /\ cc_ocr (y_cc y) <= 4915.
Proof. intros HC HL V1 V2 V3 V4 HX D Rg H1 H2 H3. exact (fheats L lo hi chi C W HC HL HX vlo vhi (conj V1 (conj V2 (conj V3 V4))) y w n D Rg H1 H2 H3). Qed.

(** The factory settings and a tip at room temperature; two timer interrupts inside the handling of every result. *)
Lemma case111 : exists y w n, fwanting brisk 130 140 203 conf_m88p (350 * 64) y w n /\
  3 * slow_cycle brisk < n /\ 3 * slow_cycle brisk < v_calm w /\ 3 * slow_cycle brisk + slow_window brisk < v_steady w /\
  (forall c x, 130 <= c <= 140 -> temp_of_code conf_m88p (s_adj (x_cache (y_set y))) c x -> 15 * 64 <= x <= 40 * 64).
Proof.
  destruct (fgcheck_wanting brisk 130 140 203 conf_m88p (350 * 64) (flive 6 134 140)
    (fun y w n => (237 <? n) && (237 <? v_calm w) && (299 <? v_steady w) && (s_adj (x_cache (y_set y)) =? 0))) as (y & w & n & D & H); [vm_compute; reflexivity|].
  exists y, w, n. split; [exact D|]. change (slow_cycle brisk) with 79. change (slow_window brisk) with 62. split; [lia|]. split; [lia|]. split; [lia|].
  intros c v Bc Tc. unfold temp_of_code in Tc. replace (s_adj (x_cache (y_set y))) with 0 in Tc by lia. change (c_adj conf_m88p) with true in Tc. change (c_smd conf_m88p) with true in Tc. cbv iota in Tc. clear - Bc Tc. lia.
Qed.

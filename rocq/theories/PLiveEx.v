(** * Concrete executions for the properties about reaction times *)
From Coq Require Import ZArith List Bool Lia ZifyBool.
From Verif Require Import Base PBase MConf MTimer MPid MCurr SpecCurr MSettings SpecSettings MSseg MDisplay MState MTemp
  MMeas MMenu MMain SpecDisplay SpecSys SpecRun SpecLive Trace TraceLive PSettingsEx.
Import ListNotations.
Open Scope Z_scope.

Lemma brisk_ok : limits_ok brisk. Proof. unfold limits_ok, brisk. cbn. lia. Qed.
(** A slow second temperature window: its result is still to come 59 ms after the first one. *)
Lemma case68 : exists y w, served brisk 0 1023 conf_m88p y w /\ m_avail (y_meas y) = true /\ v_age w = 54 /\ v_temp w = 59 /\ v_last w = Some 150.
Proof.
  destruct (wcheck_served brisk 0 1023 conf_m88p (live 1 150 0 ++ ms_of 150 49 ++ [ETick; EAdc 160; ETick; ETick; ETick; ETick])
    (fun y w => m_avail (y_meas y) && (v_age w =? 54) && (v_temp w =? 59) && match v_last w with Some c => c =? 150 | None => false end))
    as (y & w & D & H); [vm_compute; reflexivity|].
  exists y, w. split; [exact D|]. destruct (v_last w) as [c|]; [|rewrite andb_false_r in H; discriminate H].
  apply andb_true_iff in H; destruct H as (H & Hc). apply andb_true_iff in H; destruct H as (H & Ht). apply andb_true_iff in H; destruct H as (H & Ha). split; [exact H|]. split; [lia|]. split; [lia|]. f_equal. lia.
Qed.
(** The tip gets too hot after 165 ms of heating: code 415 for 170 ms. *)
Lemma case70 : (exists y w, served brisk 412 422 conf_m88p y w /\ v_steady w = 5 /\ cc_ocr (y_cc y) = 4915) /\
  exists y w, served brisk 412 422 conf_m88p y w /\ slow_cycle brisk + slow_window brisk < v_steady w /\ slow_cycle brisk < v_calm w /\
  forall c v, 412 <= c <= 422 -> temp_of_code conf_m88p (s_adj (x_cache (y_set y))) c v -> 480 * 64 < v <= 500 * 64.
Proof.
  split.
  - destruct (wcheck_served brisk 412 422 conf_m88p (live 3 60 0) (fun y w => (v_steady w =? 5) && (cc_ocr (y_cc y) =? 4915))) as (y & w & D & H); [vm_compute; reflexivity|].
    exists y, w. split; [exact D|]. lia.
  - destruct (wcheck_served brisk 412 422 conf_m88p (live 3 60 0 ++ live 3 415 0)
      (fun y w => (141 <? v_steady w) && (79 <? v_calm w) && (s_adj (x_cache (y_set y)) =? 0))) as (y & w & D & H); [vm_compute; reflexivity|].
    exists y, w. split; [exact D|]. change (slow_cycle brisk) with 79. change (slow_window brisk) with 62. split; [lia|]. split; [lia|].
    intros c v Bc Tc. unfold temp_of_code in Tc. replace (s_adj (x_cache (y_set y))) with 0 in Tc by lia. change (c_adj conf_m88p) with true in Tc. change (c_smd conf_m88p) with true in Tc. cbv iota in Tc. clear - Bc Tc. lia.
Qed.
(** Codes that no adjustment makes plausible. *)
Lemma lost_codes C adj c v : -99 * 64 <= adj <= 99 * 64 -> c <= 45 \/ 484 <= c -> temp_of_code C adj c v -> v < -20 * 64 \/ 500 * 64 < v.
Proof. unfold temp_of_code. destruct (c_adj C), (c_smd C); intros; lia. Qed.
Lemma fine_codes C adj c v : -99 * 64 <= adj <= 99 * 64 -> 167 <= c <= 361 -> temp_of_code C adj c v -> -20 * 64 <= v <= 500 * 64.
Proof. unfold temp_of_code. destruct (c_adj C), (c_smd C); intros; lia. Qed.
(** The sensor breaks: code 1023 for 3470 ms. *)
Lemma case71 : exists y w, served brisk 484 1023 conf_m88p y w /\ 3001 + slow_window brisk + 3 * slow_cycle brisk < v_steady w.
Proof.
  destruct (wcheck_served brisk 484 1023 conf_m88p (live 3 150 0 ++ live 63 1023 0) (fun y w => 3300 <? v_steady w)) as (y & w & D & H); [vm_compute; reflexivity|].
  exists y, w. split; [exact D|]. change (slow_cycle brisk) with 79. change (slow_window brisk) with 62. lia.
Qed.
(** And it is repaired again. *)
Lemma case71_fine : exists y w, served brisk 167 361 conf_m88p y w /\ slow_cycle brisk + slow_window brisk < v_steady w /\ 3000 < v_calm w.
Proof.
  destruct (wcheck_served brisk 167 361 conf_m88p (live 3 200 0 ++ live 63 1023 0 ++ live 3 200 0) (fun y w => (141 <? v_steady w) && (3000 <? v_calm w))) as (y & w & D & H); [vm_compute; reflexivity|].
  exists y, w. split; [exact D|]. change (slow_cycle brisk) with 79. change (slow_window brisk) with 62. lia.
Qed.
(** Codes 412 and up: hot, sometimes implausibly hot. *)
Lemma case70_any : exists y w, served brisk 412 1023 conf_m88p y w /\ 3001 + slow_window brisk + 3 * slow_cycle brisk < v_steady w /\
  3001 + slow_window brisk + 3 * slow_cycle brisk < v_calm w /\ t_emerg (y_ct y) = false /\
  forall c v, 412 <= c <= 1023 -> temp_of_code conf_m88p (s_adj (x_cache (y_set y))) c v -> 480 * 64 < v.
Proof.
  destruct (wcheck_served brisk 412 1023 conf_m88p (live 3 60 0 ++ live 40 700 0 ++ live 1 415 0 ++ live 25 900 0)
    (fun y w => (3300 <? v_steady w) && (3300 <? v_calm w) && negb (t_emerg (y_ct y)) && (s_adj (x_cache (y_set y)) =? 0))) as (y & w & D & H); [vm_compute; reflexivity|].
  exists y, w. split; [exact D|]. change (slow_cycle brisk) with 79. change (slow_window brisk) with 62. split; [lia|]. split; [lia|]. split; [destruct (t_emerg (y_ct y)); [lia|reflexivity]|].
  intros c v Bc Tc. unfold temp_of_code in Tc. replace (s_adj (x_cache (y_set y))) with 0 in Tc by lia. change (c_adj conf_m88p) with true in Tc. change (c_smd conf_m88p) with true in Tc. cbv iota in Tc. clear - Bc Tc. lia.
Qed.

(** * Properties C24-C27: the current controller.
    This file contains only final statements, examples and [Print Assumptions]. *)
From Coq Require Import ZArith List Bool Lia.
From Verif Require Import Base SpecNum SpecPid SpecSmall SpecCurr MUtil MFixpt MFilter MPid MPwm MCurr PCurr.
Import ListNotations.
Open Scope Z_scope.

(** ** C24 *)
Theorem C24_current_controller_safe : forall ops, Forall op_ok ops ->
  exists c0 n c, cc_boot = Some c0 /\ cc_exec 0 c0 ops = Some (n, c) /\
    0 <= cc_prev_y c <= 3200 /\ 0 <= cc_ocr c <= 8191.
Proof. exact curr_safe. Qed.
Print Assumptions C24_current_controller_safe.
Definition C24_ops : list cc_op :=
  [OSetpoint 3200; OTime 6; OFeedback 0; OTime 12; OFeedback 700; ORestricted false; OTime 40000; OFeedback 1200;
   OTime 40010; OFeedback 1200; OFeedback 1000; OEmerg 1; OFeedback 100; OEmerg 0; OFeedback 100;
   OEnabled false 30; OEnabled true 0; OFeedback 900].
Example C24_ex : Forall op_ok C24_ops /\
  (c0 <- cc_boot ;; '(n, c) <- cc_exec 0 c0 C24_ops ;; Some (cc_prev_y c, cc_ocr c)) = Some (3200, 0) /\
  (c0 <- cc_boot ;; '(n, c) <- cc_exec 0 c0 (firstn 3 C24_ops) ;; Some (cc_prev_y c, cc_ocr c)) = Some (1280, 4915).
Proof.
  split; [|split; vm_compute; reflexivity].
  repeat constructor; cbn; unfold is_u16, is_u8; lia.
Qed.

(** ** C25 (controller level; the system level theorem is in PropSys.v) *)
Theorem C25_emergency_off_api : forall ops c0 n c, Forall op_ok ops -> Forall no_fixed_current ops ->
  cc_boot = Some c0 -> cc_exec 0 c0 ops = Some (n, c) -> cc_emerg c <> 0 -> cc_ocr c = 8191.
Proof. exact curr_emerg_off. Qed.
Print Assumptions C25_emergency_off_api.
(** Without the restriction on [contrcurr_set_enabled(false, percent)] the claim fails; the
    firmware never makes such a call. *)
Theorem C25_fixed_current_refuted : exists ops c0 n c, Forall op_ok ops /\
  cc_boot = Some c0 /\ cc_exec 0 c0 ops = Some (n, c) /\ cc_emerg c <> 0 /\ cc_ocr c <> 8191.
Proof.
  exists [OEmerg 1; OEnabled false 30]. eexists; eexists; eexists.
  split; [repeat constructor; cbn; unfold is_u8; lia|].
  split; [vm_compute; reflexivity|]. split; [vm_compute; reflexivity|]. vm_compute. split; discriminate.
Qed.
Print Assumptions C25_fixed_current_refuted.
Example C25_ex : Forall no_fixed_current (firstn 13 C24_ops) /\
  (c0 <- cc_boot ;; '(n, c) <- cc_exec 0 c0 (firstn 11 C24_ops) ;; Some (cc_emerg c, cc_ocr c)) = Some (0, 0) /\
  (c0 <- cc_boot ;; '(n, c) <- cc_exec 0 c0 (firstn 13 C24_ops) ;; Some (cc_emerg c, cc_ocr c)) = Some (1, 8191).
Proof. split; [unfold C24_ops; cbn; repeat (apply Forall_cons; [exact I|]); apply Forall_nil|split; vm_compute; reflexivity]. Qed.

(** ** C26 *)
Theorem C26_restricted_run : forall n0 now c r c' v, cc_reachable n0 c -> 0 <= r <= 3200 -> cc_restricted c = true ->
  cc_enabled c = true -> cc_emerg c = 0 ->
  contrcurr_set_feedback now c r = Some c' -> pwmcurr_set 1280 = Some v ->
  0 <= cc_prev_y c' <= 1280 /\ pwmcurr_set (cc_prev_y c') = Some (cc_ocr c') /\ v <= cc_ocr c'.
Proof. intros n0 now c r c' v H. exact (restricted_run now c r c' v (reachable_inv n0 c H)). Qed.
Print Assumptions C26_restricted_run.
Theorem C26_cold_start : forall ops c0 n c v, Forall op_ok ops -> Forall no_fixed_current ops ->
  Forall stays_restricted ops -> pwmcurr_set 1280 = Some v ->
  cc_boot = Some c0 -> cc_exec 0 c0 ops = Some (n, c) -> v <= cc_ocr c.
Proof. exact curr_cold_start. Qed.
Print Assumptions C26_cold_start.
Example C26_ex : pwmcurr_set 1280 = Some 4915 /\ Forall stays_restricted (firstn 5 C24_ops) /\
  (c0 <- cc_boot ;; '(n, c) <- cc_exec 0 c0 (firstn 5 C24_ops) ;; Some (cc_restricted c, cc_ocr c)) = Some (true, 4915).
Proof. split; [vm_compute; reflexivity|split; [unfold C24_ops; cbn; repeat (apply Forall_cons; [exact I|]); apply Forall_nil|vm_compute; reflexivity]]. Qed.

(** ** C27 *)
Theorem C27_feedback_source : forall n0 now c r c', cc_reachable n0 c -> 0 <= r <= 3200 ->
  cc_enabled c = true -> cc_emerg c = 0 -> contrcurr_set_feedback now c r = Some c' ->
  exists used dt y0,
    (* the source automaton, driven by the real feedback and the value used *)
    src_of (cc_rstate c') = src_next (src_of (cc_rstate c)) r used /\ 0 <= used <= 3200 /\
    (src_of (cc_rstate c) = Real -> used = r) /\
    (src_of (cc_rstate c) = Model -> 1088 < r ->
       lp_filter_fixpt_run (cc_model c) (cc_prev_y c) (16 * 64) = Some (cc_model c', used)) /\
    (src_of (cc_rstate c) = Resync \/ src_of (cc_rstate c) = Model /\ r <= 1088 ->
       lp_filter_fixpt_run (cc_model c) r (24 * 64) = Some (cc_model c', used)) /\
    dt_seconds now (cc_timer c) = Some dt /\
    (* the PID is run exactly once, on the value used *)
    pid_run (cc_pid c) dt used = Some (cc_pid c', y0) /\ 0 <= y0 <= 3200 /\
    cc_prev_y c' = (if cc_restricted c then Z.min y0 1280 else y0) /\
    pwmcurr_set (cc_prev_y c') = Some (cc_ocr c') /\ cc_timer c' = now.
Proof. intros n0 now c r c' H. exact (curr_source now c r c' (reachable_inv n0 c H)). Qed.
Print Assumptions C27_feedback_source.
(** Resynchronisation terminates: with a steady feedback of at most 1.7 A the real feedback is
    in use after at most 1221 runs, whatever the state and the timing. *)
Theorem C27_resync_terminates : forall n0 r c l c', cc_reachable n0 c -> 0 <= r <= 1088 ->
  cc_enabled c = true -> cc_emerg c = 0 ->
  (forall t x, In (t, x) l -> x = r) -> 1221 <= Z.of_nat (length l) ->
  cc_feed c l = Some c' -> cc_rstate c' = REnabled.
Proof. intros n0 r c l c' H R. exact (resync_terminates r c l c' R (reachable_inv n0 c H)). Qed.
Print Assumptions C27_resync_terminates.
Example C27_ex :
  (c0 <- cc_boot ;;
   c1 <- cc_feed (contrcurr_set_setpoint c0 3000) [(10, 1100)] ;;
   c2 <- cc_feed c1 [(20, 1152)] ;;
   c3 <- cc_feed c2 [(30, 1089)] ;;
   c4 <- cc_feed c3 [(40, 1088)] ;;
   c5 <- cc_feed c4 (repeat (50, 1088) 2) ;;
   Some [cc_rstate c1; cc_rstate c2; cc_rstate c3; cc_rstate c4; cc_rstate c5]) =
  Some [REnabled; RDisabled; RDisabled; RSyncing; RSyncing].
Proof. vm_compute. reflexivity. Qed.

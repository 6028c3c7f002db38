(** * Properties of the simulator: serial port, decoder of the debug output, conversions *)
From Coq Require Import ZArith List Bool.
From Verif Require Import Base MConf MSettings MState MMain MDebug SpecSettings SpecSys SpecControl MTele MSim SpecSim PSim PSim2 PSim3 PSimEx.
Import ListNotations.
Open Scope Z_scope.

(** C89: the ring buffer of the serial port gives back what was written, in order, as long as not more than 4095
    bytes are unread, and is never accessed out of its bounds. *)
Theorem C89_fifo : forall f s g, piped f s g -> exists rest, s = g ++ rest /\ (length rest <= Z.to_nat 4095)%nat /\
  (forall n, exists f', uart_get_tx f n = Some (f', firstn n rest)) /\ (forall b, exists f', uart_write f b = Some f').
Proof. exact fifo_faithful. Qed.
Print Assumptions C89_fifo.
Example C89_fifo_ex : exists f, piped f [7; 8; 9] [7; 8] /\ exists f', uart_get_tx f 5 = Some (f', [9]).
Proof. exact case89. Qed.
(** One more, and everything is lost. *)
Theorem C89_overrun_refuted : forall f s l, piped f s s -> length l = Z.to_nat 4096 -> exists f', uart_writes f l = Some f' /\ forall n, uart_get_tx f' n = Some (f', []).
Proof. exact fifo_overrun. Qed.
Print Assumptions C89_overrun_refuted.
(** That does not happen to the firmware in the simulator: at most 657 bytes are unread, the next reading gets
    all of them, and everything was read exactly once and in order. *)
Theorem C89_lossless : forall C y f b u g q p, build_conf C -> simulated C y f b u g q p -> exists rest, b = concat g ++ rest /\ (length rest <= 657)%nat /\
  (forall n, exists u', uart_get_tx u n = Some (u', firstn n rest)) /\ exists u', xy_uart_get_tx u = Some (u', rest).
Proof. exact sim_lossless. Qed.
Print Assumptions C89_lossless.
(** The firmware runs in the simulator as it runs without. *)
Theorem C89_runs : forall C y f b u g q p e, build_conf C -> simulated C y f b u g q p -> ev_ok C y e -> is_power e = false -> match turn e with Some k => (p <= k)%nat | None => True end ->
  exists y' f' s u', tstep C y f e = Some (y', f', s) /\ step C y e = Some y' /\ uart_writes u (concat s) = Some u'.
Proof. exact sim_runs. Qed.
Print Assumptions C89_runs.

(** C90: however the output is cut into readings [ch], the decoder shows the values of the lines it has taken,
    all cells with their divisors and the lines with two names included, and prints no error. *)
Theorem C90_decodes : forall l b ch tl, sstream l b -> b = concat ch ++ tl ->
  let q := fold_left sim_handle ch sim_reset in
  (forall c, q_val q c = (shown (taken ch [] 0) l c 0, cell_unit c)) /\ q_err q = 0.
Proof. exact decoder_shows. Qed.
Print Assumptions C90_decodes.
(** The greeting, tr = 20107 and the integral of the current controller = -5, cut into four readings, the second
    of which ends within the end of a line *)
Example C90_ex : exists b ch, sstream [SHello; SVal 300 (CItem Tr) 20107; SVal 301 (CPid false TI) (-5)] b /\ b = concat ch ++ [] /\ length ch = 4%nat /\
  q_val (fold_left sim_handle ch sim_reset) (CPid false TI) = (-5, 64) /\ q_val (fold_left sim_handle ch sim_reset) (CItem Tr) = (20107, 64).
Proof. exact case90. Qed.
(** It takes one line per reading that is not empty: of two lines per reading it takes the first half only, and
    the rest waits until more output comes. *)
Theorem C90_lag_refuted : forall c now (v : nat -> Z) n, (forall i, is_s24 (v i)) -> exists ch,
  Forall2 (fun i d => exists a b, print_int true now (Some (prefix0 c)) (prefix1 c) (v (2 * i)%nat) = Some a /\
                                  print_int true now (Some (prefix0 c)) (prefix1 c) (v (2 * i + 1)%nat) = Some b /\ d = a ++ b) (seq 0 (S n)) ch /\
  forall m, fst (q_val (fold_left sim_handle (ch ++ repeat [] m) sim_reset) c) = v n.
Proof. exact decoder_lags. Qed.
Print Assumptions C90_lag_refuted.

(** C91: in the simulator the decoder shows exactly the messages [done] of all that were sent, at most one line per
    reading; what it shows of a cell that no later message is about is the value of the cell.  It is never up to
    date: once anything was sent, some message is pending, whatever the number of readings. *)
Theorem C91_shown : forall C y f b u g q p, build_conf C -> simulated C y f b u g q p -> exists done pend, sstream (done ++ pend) b /\ (b <> [] -> pend <> []) /\
  (list_sum (map smsg_lines done) <= length (filter (fun d => negb (str_eqb d [])) g))%nat /\ q_err q = 0 /\
  forall c, q_val q c = (match said done c None with Some v => v | None => 0 end, cell_unit c) /\
    (y_dbg y = true -> c <> CItem Tb -> Forall (fun m => ~ concerns c m) pend -> said done c None <> None -> q_val q c = (f c, cell_unit c)).
Proof. exact sim_shows. Qed.
Print Assumptions C91_shown.
Example C91_ex : exists y f b u g q p, simulated conf_m328p y f b u g q p /\ y_dbg y = true /\ f (CItem Mt) = 310 /\ q_val q (CItem Mt) = (310, 1) /\
  f (CItem Tr) = 20107 /\ q_val q (CItem Tr) = (0, 64) /\ lines_in b = 21%nat /\ taken g [] 0 = 3%nat.
Proof. exact case91. Qed.

(** C92: the conversions of the simulator.  Settings: reading is exact, writing rounds to the nearest value,
    halves away from zero, and writing back what was read changes nothing. *)
Theorem C92_settings : (forall x, is_s24 x -> fixpt_to_float x = x /\ float_to_fixpt (fixpt_to_float x) 64 = x) /\
  forall n d, 0 < d -> 2 * Z.abs (64 * n - d * float_to_fixpt n d) <= d /\ (2 * Z.abs (64 * n - d * float_to_fixpt n d) = d -> Z.abs (64 * n) < d * Z.abs (float_to_fixpt n d)).
Proof. split; [intros x R; split; [exact (to_float_id x R)|exact (round_trip x R)]|exact to_fixpt_near]. Qed.
Print Assumptions C92_settings.
(** 330.5 degrees *)
Example C92_settings_ex : float_to_fixpt 661 2 = 21152 /\ fixpt_to_float (-21152) = -21152 /\ float_to_fixpt (-1) 128 = -1.
Proof. repeat split; vm_compute; reflexivity. Qed.
(** Temperatures: from 150 to 1485 degrees [n / d] the firmware for the SMD board measures what was set, within
    0.829 degrees; currents to 17 A within 0.0093 A. *)
Theorem C92_temperature : forall C adj n d, c_smd C = true -> 0 < d -> 150 * d <= n <= 1485 * d -> exists code, adc_temp_set n d = Some code /\ 0 <= code <= 1023 /\
  forall v, temp_of_code C adj code v -> 402 * Z.abs (d * (v + (if c_adj C then adj else 0)) - 64 * n) <= 21321 * d.
Proof. exact temp_through. Qed.
Print Assumptions C92_temperature.
Theorem C92_current : forall n d, 0 < d -> 0 <= n <= 17 * d -> exists code, adc_current_set n d = Some code /\ 0 <= code <= 1023 /\
  forall v, curr_of_code code v -> 130 * Z.abs (d * v - 640 * n) <= 769 * d.
Proof. exact curr_through. Qed.
Print Assumptions C92_current.
Example C92_codes_ex : adc_temp_set 330 1 = Some 320 /\ temp_of_code conf_m328p 0 320 21158 /\ adc_current_set 3 2 = Some 89 /\ curr_of_code 89 964.
Proof. repeat split; vm_compute; congruence. Qed.
(** The heating current shown is the one commanded, within a step of the timer. *)
Theorem C92_pwm : forall amps ocr, pwm_of amps ocr -> exists n, pwm_current_get ocr 8191 = Some (n, 8191) /\ Z.abs (640 * n - 8191 * amps) < 3200.
Proof. exact pwm_through. Qed.
Print Assumptions C92_pwm.
Example C92_pwm_ex : pwm_of 1280 4915 /\ pwm_current_get 4915 8191 = Some (16380, 8191).
Proof. repeat split; vm_compute; congruence. Qed.
(** Below -196 degrees (which the temperature model of a cold iron never reaches) the code wraps to the top. *)
Theorem C92_negative_refuted : forall n d, 0 < d -> n < - 196 * d -> - 1000000 * d < n -> adc_temp_set n d = Some 65535.
Proof. exact neg_code. Qed.
Print Assumptions C92_negative_refuted.

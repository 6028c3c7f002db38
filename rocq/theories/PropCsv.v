(** * C108: the table written by dumpcurves.py *)
From Coq Require Import ZArith List Bool String.
From Verif Require Import Base MConf MTemp MState MDebug SpecHost SpecSettings SpecSys MTele SpecTele MCsv SpecCsv PCsv2 PCsv3 PCsvEx.
Import ListNotations.
Open Scope Z_scope.

(** Whatever the firmware says, the file can be read, and its rows are those of a faithful receiver: time stamps, states, converter codes and
    temperatures exactly, currents to the nearest millionth. *)
Theorem C108_stream : forall l b, Forall msg_ok l -> stream l = Some b ->
  exists rows text, table l rows /\ csv_file (receive b) = Some text /\ holds (rev rows) text.
Proof. exact csv_stream. Qed.
Print Assumptions C108_stream.
Example C108_stream_ex : Forall msg_ok msgs /\ exists b, stream msgs = Some b /\ csv_file (receive b) = Some ex_text /\
  exists nums, read_csv ex_text = Some (titles, nums) /\ nth 3 nums [] =
    [(173, 0); (0, 6); (0, 6); (0, 0); (-501563, 6); (314171875, 6); (0, 6); (2264063, 6); (0, 0); (5, 0); (0, 0); (0, 0)].
Proof. split; [exact msgs_ok|exact case_stream]. Qed.
(** Whatever was received before a greeting is not in the file. *)
Theorem C108_resync : forall g l b, Forall msg_ok l -> stream (Hello :: l) = Some b ->
  exists rows text, table l rows /\ csv_file (receive (g ++ b)) = Some text /\ holds (rev rows) text.
Proof. exact csv_resync. Qed.
Print Assumptions C108_resync.
(** Nothing is lost by the decimal notation: the integer of the firmware is the only one next to the number times its unit. *)
Theorem C108_recover : forall i v n, cell_shows i v n -> forall w, recovers (item_unit i) w n <-> w = v.
Proof. exact csv_recover. Qed.
Print Assumptions C108_recover.
(** -501563 millionths of an ampere are -321 / 640 A. *)
Example C108_recover_ex : cell_shows Cy (-321) (-501563, 6) /\ recovers 640 (-321) (-501563, 6) /\ ~ recovers 640 (-320) (-501563, 6).
Proof. exact case_recover. Qed.
(** Of the running firmware: the last row shows what the receiver shows (C79). *)
Theorem C108_firmware : forall C y f b g n, build_conf C -> tlog C y f b g -> y_dbg y = true ->
  exists text nums, csv_file (receive (n ++ b)) = Some text /\ read_csv text = Some (titles, nums) /\
    (nums = [] /\ (forall i, shows (n ++ b) i 0) \/
     exists old t ns, nums = old ++ [t :: ns] /\ Forall2 (fun i x => exists v, shows (n ++ b) i v /\ cell_shows i v x) columns ns).
Proof. exact csv_firmware. Qed.
Print Assumptions C108_firmware.
(** In particular the temperature of the controller, exactly. *)
Theorem C108_temperature : forall C y f b g n, build_conf C -> c_debug C = true -> tlog C y f b g -> y_dbg y = true ->
  t_feedback (y_ct y) <> 0 -> t_feedback (y_ct y) <> g Tr ->
  exists text old row x, csv_file (receive (n ++ b)) = Some text /\ read_csv text = Some (titles, old ++ [row]) /\
    nth_error row 5 = Some x /\ exactly 64 (t_feedback (y_ct y)) x.
Proof. exact csv_temperature. Qed.
Print Assumptions C108_temperature.
Example C108_temperature_ex : exists y f b g text nums, tlog conf_m328p y f b g /\ y_dbg y = true /\ t_feedback (y_ct y) = 20107 /\ g Tr <> 20107 /\
  csv_file (receive ([120; 58] ++ b)) = Some text /\ read_csv text = Some (titles, nums) /\ nth_error (last nums []) 5 = Some (314171875, 6).
Proof. exact case_temperature. Qed.
(** Noise can end the tool: a line with a number of 310 digits. *)
Theorem C108_noise_refuted : exists b, csv_file (receive b) = None.
Proof. exact noise_ends. Qed.
Print Assumptions C108_noise_refuted.

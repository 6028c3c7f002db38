(** * Model of firmware/settings.h, settings.c: settings cache, byte layout, EEPROM *)
From Coq Require Import ZArith List Bool.
From Verif Require Import Base MConf MUtil MFixpt MRing MTimer MPid MTempMap.
Import ListNotations.
Open Scope Z_scope.

(** settings.h:10-18 [struct settings].  Lists stand for the arrays temp_k[3],
    temp_setpoint[6] and reserved[2]. *)
Record settings : Type := mkSettings {
  s_k : list pid_k;
  s_idle : Z;
  s_preset : list Z;
  s_active : Z;
  s_adj : Z;
  s_reserved : list Z;
  s_serial : Z
}.
Definition set_s_k (r : settings) (v : list pid_k) : settings := mkSettings v (s_idle r) (s_preset r) (s_active r) (s_adj r) (s_reserved r) (s_serial r).
Definition set_s_idle (r : settings) (v : Z) : settings := mkSettings (s_k r) v (s_preset r) (s_active r) (s_adj r) (s_reserved r) (s_serial r).
Definition set_s_preset (r : settings) (v : list Z) : settings := mkSettings (s_k r) (s_idle r) v (s_active r) (s_adj r) (s_reserved r) (s_serial r).
Definition set_s_active (r : settings) (v : Z) : settings := mkSettings (s_k r) (s_idle r) (s_preset r) v (s_adj r) (s_reserved r) (s_serial r).
Definition set_s_adj (r : settings) (v : Z) : settings := mkSettings (s_k r) (s_idle r) (s_preset r) (s_active r) v (s_reserved r) (s_serial r).
Definition set_s_reserved (r : settings) (v : list Z) : settings := mkSettings (s_k r) (s_idle r) (s_preset r) (s_active r) (s_adj r) v (s_serial r).
Definition set_s_serial (r : settings) (v : Z) : settings := mkSettings (s_k r) (s_idle r) (s_preset r) (s_active r) (s_adj r) (s_reserved r) v.

(** Byte layout of the packed struct on AVR (little endian, no padding; the size of 64 bytes is
    asserted in settings.c:219): temp_k 0..35, temp_idle_setpoint 36..38, temp_setpoint
    39..56, temp_setpoint_active 57, temp_adj 58..60, reserved 61..62, serial 63. *)
Definition SIZEOF_SETTINGS : Z := 64.
Definition bytes24 (x : Z) : list Z := [u8 x; u8 (x / 256); u8 (x / 65536)].
Definition of_bytes24 (b0 b1 b2 : Z) : Z := s24 (b0 + 256 * b1 + 65536 * b2).
Definition k_bytes (k : pid_k) : list Z :=
  bytes24 (kp k) ++ bytes24 (ki k) ++ bytes24 (kd k) ++ bytes24 (d_decay_div k).
Definition settings_bytes (s : settings) : list Z :=
  flat_map k_bytes (s_k s) ++ bytes24 (s_idle s) ++ flat_map bytes24 (s_preset s) ++
  [s_active s] ++ bytes24 (s_adj s) ++ s_reserved s ++ [s_serial s].

(** The same layout read back: the struct whose byte at offset [i] is [b i]. *)
Definition rd24 (b : Z -> Z) (off : Z) : Z := of_bytes24 (b off) (b (off + 1)) (b (off + 2)).
Definition rd_k (b : Z -> Z) (off : Z) : pid_k :=
  mkK (rd24 b off) (rd24 b (off + 3)) (rd24 b (off + 6)) (rd24 b (off + 9)).
Definition settings_of (b : Z -> Z) : settings :=
  mkSettings [rd_k b 0; rd_k b 12; rd_k b 24] (rd24 b 36)
             [rd24 b 39; rd24 b 42; rd24 b 45; rd24 b 48; rd24 b 51; rd24 b 54]
             (b 57) (rd24 b 58) [b 61; b 62] (b 63).

(** settings.c:40-50 [struct settings_context] plus the EEPROM hardware: cell contents, the
    EERIE interrupt enable bit and the byte being programmed (EEPE set): (address, data). *)
Record sst : Type := mkSst {
  x_timer : Z;
  x_request : bool;
  x_cache : settings;
  x_index : Z;
  x_offset : Z;
  x_ee : Z -> Z;
  x_eerie : bool;
  x_busy : option (Z * Z)
}.
Definition set_x_timer (r : sst) (v : Z) : sst := mkSst v (x_request r) (x_cache r) (x_index r) (x_offset r) (x_ee r) (x_eerie r) (x_busy r).
Definition set_x_request (r : sst) (v : bool) : sst := mkSst (x_timer r) v (x_cache r) (x_index r) (x_offset r) (x_ee r) (x_eerie r) (x_busy r).
Definition set_x_cache (r : sst) (v : settings) : sst := mkSst (x_timer r) (x_request r) v (x_index r) (x_offset r) (x_ee r) (x_eerie r) (x_busy r).
Definition set_x_index (r : sst) (v : Z) : sst := mkSst (x_timer r) (x_request r) (x_cache r) v (x_offset r) (x_ee r) (x_eerie r) (x_busy r).
Definition set_x_offset (r : sst) (v : Z) : sst := mkSst (x_timer r) (x_request r) (x_cache r) (x_index r) v (x_ee r) (x_eerie r) (x_busy r).
Definition set_x_ee (r : sst) (v : Z -> Z) : sst := mkSst (x_timer r) (x_request r) (x_cache r) (x_index r) (x_offset r) v (x_eerie r) (x_busy r).
Definition set_x_eerie (r : sst) (v : bool) : sst := mkSst (x_timer r) (x_request r) (x_cache r) (x_index r) (x_offset r) (x_ee r) v (x_busy r).
Definition set_x_busy (r : sst) (v : option (Z * Z)) : sst := mkSst (x_timer r) (x_request r) (x_cache r) (x_index r) (x_offset r) (x_ee r) (x_eerie r) v.

(** settings.c:55-59 *)
Definition NR_EE_SETTINGS (C : conf) : Z := if c_eering C then c_slots C else 1.

(** settings.c:62-107 with the constants of controller_temp.h:11-30,46, presets.h:15-21:
    the first element of the initialiser of ee_settings.  Array elements and members
    without initialiser are zero. *)
Definition default_settings (C : conf) : settings :=
  mkSettings
    (mkK (fxc 3 2) (fxc 3 10) (fxc 2 10) (fxc 2 1) ::
     (if c_boost C then [mkK (fxc 3 2) (fxc 4 10) (fxc 5 10) (fxc 2 1);
                         mkK (fxc 3 2) (fxc 5 10) (fxc 1 1) (fxc 2 1)]
      else [mkK 0 0 0 0; mkK 0 0 0 0]))
    (if c_idle C then CONTRTEMP_DEF_IDLE_SETPOINT else 0)
    [celsius 305; celsius 320; celsius 335; celsius 350; celsius 365; celsius 380]
    3 0 [0; 0] 0.

(** settings.c:62-107: the programmed EEPROM image; all slots but the first are zero. *)
Definition factory_ee (C : conf) : Z -> Z :=
  fun a => if (0 <=? a) && (a <? 64) then nth (Z.to_nat a) (settings_bytes (default_settings C)) 0 else 0.

(** settings.c:110-120 [ee_read_byte]: the busy wait finishes a pending programming
    operation; in the model it is only used at boot, when none is pending. *)
Definition ee_read_byte (C : conf) (ee : Z -> Z) (addr : Z) : Z :=
  if (0 <=? addr) && (addr <? 64 * c_slots C) then ee addr else c_oob C ee addr.

(** settings.c:130-167 [ISR(EE_READY_vect)].  [None]: pointer arithmetic outside of the
    arrays ee_settings or settings.cache. The simplification: ee_settings is placed at
    EEPROM address 0 (it is the only EEMEM object). *)
Definition ee_ready_isr (C : conf) (x : sst) : option sst :=
  let index := if c_eering C then x_index x else 0 in
  let offset := x_offset x in
  if (0 <=? index) && (index <? NR_EE_SETTINGS C) then
    data <- zget (settings_bytes (x_cache x)) offset ;;
    let address := 64 * index + offset in
    let x := if ee_read_byte C (x_ee x) address =? data then x else set_x_busy x (Some (address, data)) in
    let offset := u8 (offset + 1) in
    let x := set_x_offset x offset in
    Some (if SIZEOF_SETTINGS <=? offset then set_x_eerie x false else x)
  else None.

(** Hardware: programming of a byte finishes (ATmega88 data sheet, EEPE). *)
Definition ee_prog_done (x : sst) : sst :=
  match x_busy x with
  | Some (a, v) => set_x_busy (set_x_ee x (fupd (x_ee x) a v)) None
  | None => x
  end.

(** settings.c:174-178 *)
Definition store_settings (now : Z) (x : sst) : option sst :=
  t <- timer_arm now 1000 ;; Some (set_x_timer (set_x_request x true) t).

(** settings.c:180-209 *)
Definition settings_work (C : conf) (now : Z) (x : sst) : sst :=
  if negb (x_request x) then x
  else if negb (timer_expired now (x_timer x)) then x
  else
    let x := set_x_request x false in
    let x := if c_eering C then
               let x := set_x_cache x (set_s_serial (x_cache x) (u8 (s_serial (x_cache x) + 1))) in
               set_x_index x (ring_next (x_index x) (NR_EE_SETTINGS C - 1))
             else x in
    let x := set_x_offset x 0 in
    set_x_eerie x true.

(** settings.c:229-242: the search loop. [None]: out of fuel (excluded by a theorem). *)
Fixpoint ee_scan (C : conf) (ee : Z -> Z) (fuel : nat) (next_index serial : Z) : option Z :=
  match fuel with
  | O => None
  | S f =>
    let found_index := next_index in
    let next_index := ring_next next_index (u8 (NR_EE_SETTINGS C + 1)) in
    let next_serial := ee_read_byte C ee (64 * next_index + 63) in
    if negb (next_serial =? Z.land (serial + 1) 255) then Some found_index
    else if negb (next_index =? 0) then ee_scan C ee f next_index next_serial
    else Some found_index
  end.

(** settings.c:211-249; the context is zeroed static storage, the EEPROM is idle *)
Definition settings_init (C : conf) (ee : Z -> Z) : option sst :=
  found <- (if c_eering C then ee_scan C ee 300 0 (ee_read_byte C ee 63) else Some 0) ;;
  let cache := settings_of (fun i => ee_read_byte C ee (64 * found + i)) in
  Some (mkSst 0 false cache (if c_eering C then found else 0) 0 ee false None).

(** * Build configuration (firmware/Makefile:1-32) *)
From Coq Require Import ZArith Bool.
Open Scope Z_scope.

(** The CONF_* switches of the Makefile, the board variant (HW=smd or legacy) and the
    number of 64-byte settings slots the EEPROM holds ((E2END + 1) / 64: 8 on the m88,
    16 on the m328p).  [c_oob] is what the hardware answers to an EEPROM read outside of
    the EEPROM (the C standard and the data sheet do not say; see DESIGN.md).
    CONF_PRESETS is always 1 (with 0 the firmware does not compile). *)
Record conf : Type := mkConf {
  c_debug : bool;
  c_boost : bool;
  c_idle : bool;
  c_idletoggle : bool;
  c_eering : bool;
  c_adj : bool;
  c_kconf : bool;
  c_smd : bool;
  c_slots : Z;
  c_oob : (Z -> Z) -> Z -> Z
}.

(** The address lines above the EEPROM size are not connected: addresses wrap. *)
Definition oob_alias (slots : Z) (m : Z -> Z) (a : Z) : Z := m (a mod (64 * slots)).

(** The two default builds (Makefile:3,23-32): DEV=m88p and DEV=m328p. *)
Definition conf_m88p : conf := mkConf false true true true true true false true 8 (oob_alias 8).
Definition conf_m328p : conf := mkConf true true true true true true true true 16 (oob_alias 16).

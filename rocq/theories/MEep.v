(** * Model of the EEPROM at the level of its registers (settings.c, data sheet of the ATmega88)

    The EEPROM as hardware and the functions of settings.c that access it.  MSettings has the cells, the bit
    EERIE and the byte being programmed as fields of [sst]; the functions here use only the program variables
    of [sst] (cache, index, offset, request, timer) and do all accesses through the registers. *)
From Coq Require Import ZArith List Bool.
From Verif Require Import Base MConf MRing MTimer MPid MSettings.
Import ListNotations.
Open Scope Z_scope.

(** Data sheet ATmega88, section "EEPROM Data Memory": bits of EECR.  The bits EEPM1, EEPM0 (programming mode) are
    zero after reset (erase and write in one operation), are never set by the program and are omitted. *)
Definition EERIE : Z := 8.
Definition EEMPE : Z := 4.
Definition EEPE : Z := 2.
Definition EERE : Z := 1.

(** EEAR, EEDR, EERIE; the number of CPU cycles for which EEMPE still reads one; the operation in progress (EEPE):
    cell and value; the cells. *)
Record eep : Type := mkEep { e_ar : Z; e_dr : Z; e_rie : bool; e_mpe : Z; e_prog : option (Z * Z); e_cells : Z -> Z }.
(** [n] CPU cycles pass: the hardware clears EEMPE four cycles after it was set. *)
Definition eep_cycles (n : Z) (r : eep) : eep :=
  mkEep (e_ar r) (e_dr r) (e_rie r) (Z.max 0 (e_mpe r - n)) (e_prog r) (e_cells r).
(** Reading EECR; EERE reads zero. *)
Definition eecr (r : eep) : Z :=
  (if e_rie r then EERIE else 0) + (if 0 <? e_mpe r then EEMPE else 0) + (match e_prog r with Some _ => EEPE | None => 0 end).
(** Writing EECR.  EEMPE is set by a one.  A one in EEPE starts the programming of the cell EEAR with EEDR if
    EEMPE was one and no programming is in progress, and has no effect otherwise; a zero has no effect.  A one
    in EERE reads the cell EEAR into EEDR.  [None]: a read while a byte is being programmed, which the data
    sheet forbids.  An address outside of the array reads as in MSettings.ee_read_byte. *)
Definition write_eecr (C : conf) (r : eep) (v : Z) : option eep :=
  let rie := negb (Z.land v EERIE =? 0) in
  let mpe := if Z.land v EEMPE =? 0 then e_mpe r else 4 in
  let start := negb (Z.land v EEPE =? 0) && (0 <? e_mpe r) in
  let prog := match e_prog r with Some p => Some p | None => if start then Some (e_ar r, e_dr r) else None end in
  if Z.land v EERE =? 0 then Some (mkEep (e_ar r) (e_dr r) rie mpe prog (e_cells r))
  else match e_prog r with
       | Some _ => None
       | None => Some (mkEep (e_ar r) (ee_read_byte C (e_cells r) (e_ar r)) rie mpe prog (e_cells r))
       end.
(** Writing EEAR; [None]: while a byte is being programmed, forbidden by the data sheet. *)
Definition write_eear (r : eep) (a : Z) : option eep :=
  match e_prog r with Some _ => None | None => Some (mkEep a (e_dr r) (e_rie r) (e_mpe r) (e_prog r) (e_cells r)) end.
(** Writing EEDR, forbidden likewise *)
Definition write_eedr (r : eep) (v : Z) : option eep :=
  match e_prog r with Some _ => None | None => Some (mkEep (e_ar r) v (e_rie r) (e_mpe r) (e_prog r) (e_cells r)) end.
(** The hardware finishes the byte being programmed. *)
Definition eep_done (r : eep) : eep :=
  match e_prog r with
  | Some (a, v) => mkEep (e_ar r) (e_dr r) (e_rie r) (e_mpe r) None (fupd (e_cells r) a v)
  | None => r
  end.
(** The interrupt EE_READY is requested as long as EERIE is set and EEPE is clear. *)
Definition ready_request (r : eep) : bool := e_rie r && match e_prog r with None => true | Some _ => false end.

(** [EECR |= b] and [EECR &= ~b]: [k] is the number of cycles the access takes (SBI: 2; IN, ORI, OUT: 3) *)
Definition eecr_or (C : conf) (k b : Z) (r : eep) : option eep :=
  let r := eep_cycles k r in write_eecr C r (Z.lor (eecr r) b).
Definition eecr_clear (C : conf) (k b : Z) (r : eep) : option eep :=
  let r := eep_cycles k r in write_eecr C r (Z.land (eecr r) (255 - b)).

(** settings.c:130-167 [ISR(EE_READY_vect)].  Interrupts are disabled in it, so that nothing comes between its
    accesses.  [None]: pointer arithmetic outside of ee_settings or settings.cache, or a forbidden access. *)
Definition ee_ready_isr_r (C : conf) (k : Z) (x : sst) (r : eep) : option (sst * eep) :=
  let index := if c_eering C then x_index x else 0 in
  let offset := x_offset x in
  if (0 <=? index) && (index <? NR_EE_SETTINGS C) then
    data <- zget (settings_bytes (x_cache x)) offset ;;
    let address := 64 * index + offset in
    r <- write_eear r address ;;
    r <- eecr_or C k EERE r ;;
    r <- (if e_dr r =? data then Some r
          else
            r <- write_eedr r data ;;
            r <- eecr_or C k EEMPE r ;;
            eecr_or C k EEPE r) ;;
    let offset := u8 (offset + 1) in
    let x := set_x_offset x offset in
    r <- (if SIZEOF_SETTINGS <=? offset then eecr_clear C k EERIE r else Some r) ;;
    Some (x, r)
  else None.
(** settings.c:180-209 *)
Definition settings_work_r (C : conf) (k : Z) (now : Z) (x : sst) (r : eep) : option (sst * eep) :=
  if negb (x_request x) then Some (x, r)
  else if negb (timer_expired now (x_timer x)) then Some (x, r)
  else
    let x := set_x_request x false in
    let x := if c_eering C then
               let x := set_x_cache x (set_s_serial (x_cache x) (u8 (s_serial (x_cache x) + 1))) in
               set_x_index x (ring_next (x_index x) (NR_EE_SETTINGS C - 1))
             else x in
    let x := set_x_offset x 0 in
    r <- eecr_or C k EERIE r ;;
    Some (x, r).
(** settings.c:110-120 [ee_read_byte]; the busy wait (eeprom_busy_wait of avr-libc reads EEPE) lasts until the
    hardware has finished *)
Definition ee_read_byte_r (C : conf) (k : Z) (addr : Z) (r : eep) : option (Z * eep) :=
  let r := eep_done r in
  r <- write_eear r addr ;;
  r <- eecr_or C k EERE r ;;
  Some (e_dr r, r).
(** settings.c:122-128 [ee_read_block]: the bytes read *)
Fixpoint ee_read_block_r (C : conf) (k : Z) (addr : Z) (count : nat) (r : eep) : option (list Z * eep) :=
  match count with
  | O => Some ([], r)
  | S n =>
    '(d, r) <- ee_read_byte_r C k addr r ;;
    '(l, r) <- ee_read_block_r C k (addr + 1) n r ;;
    Some (d :: l, r)
  end.
(** settings.c:229-242: the search loop. [None]: out of fuel. *)
Fixpoint ee_scan_r (C : conf) (k : Z) (fuel : nat) (next_index serial : Z) (r : eep) : option (Z * eep) :=
  match fuel with
  | O => None
  | S f =>
    let found_index := next_index in
    let next_index := ring_next next_index (u8 (NR_EE_SETTINGS C + 1)) in
    '(next_serial, r) <- ee_read_byte_r C k (64 * next_index + 63) r ;;
    if negb (next_serial =? Z.land (serial + 1) 255) then Some (found_index, r)
    else if negb (next_index =? 0) then ee_scan_r C k f next_index next_serial r
    else Some (found_index, r)
  end.
(** settings.c:211-249: the index and the bytes of the cache *)
Definition settings_init_r (C : conf) (k : Z) (r : eep) : option (Z * list Z * eep) :=
  '(found, r) <- (if c_eering C then
                    '(serial, r) <- ee_read_byte_r C k 63 r ;; ee_scan_r C k 300 0 serial r
                  else Some (0, r)) ;;
  '(l, r) <- ee_read_block_r C k (64 * found) 64 r ;;
  Some (found, l, r).
(** Reset: EECR is cleared, but for EEPE: a reset does not stop the programming of a byte. *)
Definition eep_reset (ar dr : Z) (r : eep) : eep := mkEep ar dr false 0 (e_prog r) (e_cells r).

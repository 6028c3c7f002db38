(** * Model of firmware/sseg.c, sseg.h: seven segment driver, and of the three I/O ports it drives *)
From Coq Require Import ZArith List Bool.
From Verif Require Import Base MBitmap.
Import ListNotations.
Open Scope Z_scope.

(** The I/O registers the firmware writes: PORTx and DDRx of ports B, C and D.
    Reset value of every register is 0 (ATmega data sheet).  [h_tx] stands for the transmitter enable
    bit of UCSR0B, which debug_uart.c:222, 228 sets and clears: while it is set the UART drives PD1.
    Simplified: no other peripheral register is modelled here. *)
Record hw : Type := mkHw {
  h_portb : Z;
  h_ddrb : Z;
  h_portc : Z;
  h_ddrc : Z;
  h_portd : Z;
  h_ddrd : Z;
  h_tx : bool
}.
Definition set_h_portb (r : hw) (v : Z) : hw := mkHw v (h_ddrb r) (h_portc r) (h_ddrc r) (h_portd r) (h_ddrd r) (h_tx r).
Definition set_h_ddrb (r : hw) (v : Z) : hw := mkHw (h_portb r) v (h_portc r) (h_ddrc r) (h_portd r) (h_ddrd r) (h_tx r).
Definition set_h_portc (r : hw) (v : Z) : hw := mkHw (h_portb r) (h_ddrb r) v (h_ddrc r) (h_portd r) (h_ddrd r) (h_tx r).
Definition set_h_ddrc (r : hw) (v : Z) : hw := mkHw (h_portb r) (h_ddrb r) (h_portc r) v (h_portd r) (h_ddrd r) (h_tx r).
Definition set_h_portd (r : hw) (v : Z) : hw := mkHw (h_portb r) (h_ddrb r) (h_portc r) (h_ddrc r) v (h_ddrd r) (h_tx r).
Definition set_h_ddrd (r : hw) (v : Z) : hw := mkHw (h_portb r) (h_ddrb r) (h_portc r) (h_ddrc r) (h_portd r) v (h_tx r).
Definition set_h_tx (r : hw) (v : bool) : hw := mkHw (h_portb r) (h_ddrb r) (h_portc r) (h_ddrc r) (h_portd r) (h_ddrd r) v.
Definition hw_reset : hw := mkHw 0 0 0 0 0 0 false.

(** sseg.h:20-34 and util.h [SFR_ADDR]/[SFR_BYTE]: the model replaces the addresses of the port
    registers by the name of the port. *)
Inductive port : Type := PB | PC | PD.
Definition get_port (h : hw) (p : port) : Z :=
  match p with PB => h_portb h | PC => h_portc h | PD => h_portd h end.
Definition set_port (h : hw) (p : port) (v : Z) : hw :=
  match p with PB => set_h_portb h v | PC => set_h_portc h v | PD => set_h_portd h v end.
Definition get_ddr (h : hw) (p : port) : Z :=
  match p with PB => h_ddrb h | PC => h_ddrc h | PD => h_ddrd h end.
Definition set_ddr (h : hw) (p : port) (v : Z) : hw :=
  match p with PB => set_h_ddrb h v | PC => set_h_ddrc h v | PD => set_h_ddrd h v end.

(** [r |= m] and [r &= (uint8_t)~m] on 8 bit registers *)
Definition or8 (r m : Z) : Z := u8 (Z.lor r m).
Definition clr8 (r m : Z) : Z := u8 (Z.land r (u8 (Z.lnot m))).

(** sseg.h:7-18: SSEG_A = 0 ... SSEG_G = 6, SSEG_DP = 7, SSEG_NR_SEGMENTS = 8 *)
Definition segs (a b c d e f g : Z) : Z :=
  a + 2 * b + 4 * c + 8 * d + 16 * e + 32 * f + 64 * g.
Definition SSEG_IDS : list Z := [0; 1; 2; 3; 4; 5; 6; 7].

(** sseg.h:20-34, the two flash structs joined: segment port, masks, polarity, mux port, mask, polarity *)
Record iomap : Type := mkIomap {
  im_segport : port;
  im_masks : list Z;
  im_segpol : bool;
  im_muxport : port;
  im_muxmask : Z;
  im_muxpol : bool
}.

(** sseg.h:36-40.  [dd_iomap = None] is the NULL pointer of the zero initialised struct. *)
Record ddata : Type := mkDdata {
  dd_iomap : option iomap;
  dd_set : Z;
  dd_mask : Z
}.
Definition set_dd_iomap (r : ddata) (v : option iomap) : ddata := mkDdata v (dd_set r) (dd_mask r).
Definition set_dd_set (r : ddata) (v : Z) : ddata := mkDdata (dd_iomap r) v (dd_mask r).
Definition set_dd_mask (r : ddata) (v : Z) : ddata := mkDdata (dd_iomap r) (dd_set r) v.

(** sseg.c:26-57 *)
Definition digit_to_segment_map : list Z :=
  [ segs 1 1 1 1 1 1 0; segs 0 1 1 0 0 0 0; segs 1 1 0 1 1 0 1; segs 1 1 1 1 0 0 1;
    segs 0 1 1 0 0 1 1; segs 1 0 1 1 0 1 1; segs 1 0 1 1 1 1 1; segs 1 1 1 0 0 0 0;
    segs 1 1 1 1 1 1 1; segs 1 1 1 1 0 1 1 ].

(** sseg.c:59-110, letters A to R *)
Definition char_to_segment_map : list Z :=
  [ segs 1 1 1 0 1 1 1; segs 0 0 1 1 1 1 1; segs 1 0 0 1 1 1 0; segs 0 1 1 1 1 0 1;
    segs 1 0 0 1 1 1 1; segs 1 0 0 0 1 1 1; segs 1 0 1 1 1 1 1; segs 0 1 1 0 1 1 1;
    segs 0 0 0 0 1 1 0; segs 0 1 1 1 0 0 0; 0; segs 0 0 0 1 1 1 0;
    0; segs 0 0 1 0 1 0 1; segs 1 1 1 1 1 1 0; segs 1 1 0 0 1 1 1;
    0; segs 0 0 0 0 1 0 1 ].

(** sseg.c:112-115 *)
Definition segment_mask_minus : Z := segs 0 0 0 0 0 0 1.

(** sseg.c:117-129 *)
Definition mux_write (h : hw) (dd : ddata) (enable : bool) : option hw :=
  m <- dd_iomap dd ;;
  let enable := if im_muxpol m then enable else negb enable in
  let p := im_muxport m in
  Some (set_port h p (if enable then or8 (get_port h p) (im_muxmask m)
                      else clr8 (get_port h p) (im_muxmask m))).

(** sseg.c:131-148 *)
Definition segment_write (h : hw) (dd : ddata) : option hw :=
  m <- dd_iomap dd ;;
  let enable_set := dd_set dd in
  let enable_mask := dd_mask dd in
  let enable_set := if im_segpol m then enable_set else u8 (Z.lnot enable_set) in
  let enable_set := u8 (Z.land enable_set enable_mask) in
  let value := get_port h (im_segport m) in
  let value := clr8 value enable_mask in
  let value := or8 value enable_set in
  Some (set_port h (im_segport m) value).

(** sseg.c:163-176: the character (DP bit removed) to the generic segment mask.  [char] is modelled
    as an unsigned byte; every comparison is on values below 128, so signedness does not matter. *)
Definition char_mask (digit : Z) : option Z :=
  let digit := if (97 <=? digit) && (digit <=? 122) then digit - 32 else digit in
  if (48 <=? digit) && (digit <=? 57) then zget digit_to_segment_map (digit - 48)
  else if (65 <=? digit) && (digit <=? 82) then zget char_to_segment_map (digit - 65)
  else if digit =? 45 then Some segment_mask_minus
  else Some 0.

(** sseg.c:178-183, the loop over the segments *)
Fixpoint map_segments (masks : list Z) (segment_mask : Z) (ids : list Z) (acc : Z) : option Z :=
  match ids with
  | [] => Some acc
  | i :: r =>
    b <- BITMASK8 i ;;
    m <- (if Z.land segment_mask b =? 0 then Some 0 else zget masks i) ;;
    map_segments masks segment_mask r (or8 acc m)
  end.

(** sseg.c:150-186 *)
Definition sseg_digit_set (dd : ddata) (digit : Z) : option ddata :=
  im <- dd_iomap dd ;;
  let dp := Z.land digit 128 in
  let digit := Z.land digit 127 in
  segment_mask <- char_mask digit ;;
  let segment_mask := if dp =? 0 then segment_mask else or8 segment_mask 128 in
  s <- map_segments (im_masks im) segment_mask SSEG_IDS 0 ;;
  Some (set_dd_set dd s).

(** sseg.c:188-199: the port registers after each of the three writes, in order (what the pins show in
    between) *)
Definition sseg_multiplex (h : hw) (from to : ddata) : option (list hw) :=
  h1 <- mux_write h from false ;;
  h2 <- segment_write h1 to ;;
  h3 <- mux_write h2 to true ;;
  Some [h1; h2; h3].

(** sseg.c:208-211, the loop that joins the segment masks *)
Fixpoint join_masks (masks : list Z) (ids : list Z) (acc : Z) : option Z :=
  match ids with
  | [] => Some acc
  | i :: r => m <- zget masks i ;; join_masks masks r (or8 acc m)
  end.

(** sseg.c:201-223 *)
Definition sseg_init (h : hw) (dd : ddata) : option (hw * ddata) :=
  im <- dd_iomap dd ;;
  segment_mask <- join_masks (im_masks im) SSEG_IDS 0 ;;
  let dd := set_dd_set (set_dd_mask dd segment_mask) 0 in
  h <- segment_write h dd ;;
  let h := set_ddr h (im_segport im) (or8 (get_ddr h (im_segport im)) segment_mask) in
  h <- mux_write h dd false ;;
  let h := set_ddr h (im_muxport im) (or8 (get_ddr h (im_muxport im)) (im_muxmask im)) in
  Some (h, dd).

(** sseg.c:225-238 *)
Definition sseg_exit (h : hw) (dd : ddata) : option hw :=
  im <- dd_iomap dd ;;
  let h := set_port h (im_segport im) (clr8 (get_port h (im_segport im)) (dd_mask dd)) in
  let h := set_ddr h (im_segport im) (clr8 (get_ddr h (im_segport im)) (dd_mask dd)) in
  let h := set_port h (im_muxport im) (clr8 (get_port h (im_muxport im)) (im_muxmask im)) in
  Some (set_ddr h (im_muxport im) (clr8 (get_ddr h (im_muxport im)) (im_muxmask im))).

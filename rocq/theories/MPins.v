(** * The writes to the port registers one by one

    MMenu, MDisplay and MMain compute the port registers after a function; here is every state in between. *)
From Coq Require Import ZArith List Bool.
From Verif Require Import Base MConf MTimer MSettings MSseg MDisplay MState MMenu MMain.
Import ListNotations.
Open Scope Z_scope.

(** sseg.c:201-223 [sseg_init]: the port registers after each of the four writes *)
Definition sseg_init_writes (h : hw) (dd : ddata) : option (list hw * ddata) :=
  im <- dd_iomap dd ;;
  segment_mask <- join_masks (im_masks im) SSEG_IDS 0 ;;
  let dd := set_dd_set (set_dd_mask dd segment_mask) 0 in
  h1 <- segment_write h dd ;;
  let h2 := set_ddr h1 (im_segport im) (or8 (get_ddr h1 (im_segport im)) segment_mask) in
  h3 <- mux_write h2 dd false ;;
  let h4 := set_ddr h3 (im_muxport im) (or8 (get_ddr h3 (im_muxport im)) (im_muxmask im)) in
  Some ([h1; h2; h3; h4], dd).
(** sseg.c:225-238 [sseg_exit] *)
Definition sseg_exit_writes (h : hw) (dd : ddata) : option (list hw) :=
  im <- dd_iomap dd ;;
  let h1 := set_port h (im_segport im) (clr8 (get_port h (im_segport im)) (dd_mask dd)) in
  let h2 := set_ddr h1 (im_segport im) (clr8 (get_ddr h1 (im_segport im)) (dd_mask dd)) in
  let h3 := set_port h2 (im_muxport im) (clr8 (get_port h2 (im_muxport im)) (im_muxmask im)) in
  let h4 := set_ddr h3 (im_muxport im) (clr8 (get_ddr h3 (im_muxport im)) (im_muxmask im)) in
  Some [h1; h2; h3; h4].
(** display.c:177-182, 185-190 *)
Fixpoint init_digits_writes (h : hw) (ds : list digit) (ims : list iomap) : option (list hw * list digit) :=
  match ds, ims with
  | g :: r, im :: ims =>
    '(l, dd) <- sseg_init_writes h (set_dd_iomap (g_sseg g) (Some im)) ;;
    '(l', r) <- init_digits_writes (last l h) r ims ;;
    Some (l ++ l', set_g_sseg g dd :: r)
  | _, _ => Some ([], ds)
  end.
Fixpoint exit_digits_writes (h : hw) (ds : list digit) : option (list hw) :=
  match ds with
  | [] => Some []
  | g :: r => l <- sseg_exit_writes h (g_sseg g) ;; l' <- exit_digits_writes (last l h) r ;; Some (l ++ l')
  end.
(** display.c:168-192 [display_enable] *)
Definition display_enable_writes (now : Z) (h : hw) (d : disp) (enable : bool) : option (list hw * disp) :=
  if Bool.eqb enable (d_enabled d) then Some ([], d)
  else
    let d := set_d_enabled d enable in
    if enable then
      '(l, ds) <- init_digits_writes h (d_digits d) digit_iomaps ;;
      Some (l, set_d_timer (set_d_digits d ds) (timer_set_now now))
    else
      l <- exit_digits_writes h (d_digits d) ;;
      Some (l, d).
(** debug_uart.c:210-231 [debug_enable] and 218-231 [debug_uart_enable], [debug_uart_disable]: the transmitter is
    switched after the display.  The greeting is sent afterwards and writes no port register. *)
Definition debug_enable_writes (C : conf) (now : Z) (h : hw) (d : disp) (enable : bool) : option (list hw * disp) :=
  if c_debug C then
    '(l, d) <- display_enable_writes now h d (negb enable) ;;
    Some (l ++ [set_h_tx (last l h) enable], d)
  else Some ([], d).

(** main.c:99-135: all writes from reset to the main loop: buttons.c:126-127, debug_uart.c:238-253, display.c:194-197,
    pwm_current.c:58-60, menu.c:720-723, main.c:49-59.  Timer 1 takes over PB1 after the writes of
    pwm_current.c (MHeat). *)
Definition buttons_init_writes (h : hw) : list hw :=
  let h1 := set_h_ddrb h (clr8 (h_ddrb h) BUTTONS_MASK) in
  let h2 := set_h_portb h1 (or8 (h_portb h1) BUTTONS_MASK) in
  [h1; h2].
Definition pwmcurr_init_writes (h : hw) : list hw :=
  let h1 := set_h_portb h (or8 (h_portb h) 2) in
  let h2 := set_h_ddrb h1 (or8 (h_ddrb h1) 2) in
  [h1; h2].
Definition unused_pins_init_writes (h : hw) : list hw :=
  let h1 := set_h_ddrb h (clr8 (h_ddrb h) 32) in
  let h2 := set_h_portb h1 (or8 (h_portb h1) 32) in
  let h3 := set_h_ddrb h2 (clr8 (h_ddrb h2) 64) in
  let h4 := set_h_portb h3 (or8 (h_portb h3) 64) in
  let h5 := set_h_ddrc h4 (clr8 (h_ddrc h4) 1) in
  let h6 := set_h_portc h5 (or8 (h_portc h5) 1) in
  [h1; h2; h3; h4; h5; h6].
(** Result: the writes of the power-up; [pinb]: PINB as read by menu_init *)
Definition boot_writes (C : conf) (pinb : Z) : option (list hw) :=
  let l0 := buttons_init_writes hw_reset in
  let h0 := last l0 hw_reset in
  '(l1, d) <- (if c_debug C then
                 '(l, d) <- debug_enable_writes C 0 (set_h_tx h0 false) disp_zero false ;;
                 Some (set_h_tx h0 false :: l, d)
               else Some ([], disp_zero)) ;;
  let h1 := last l1 h0 in
  '(l2, d) <- display_enable_writes 0 h1 d true ;;
  let h2 := last l2 h1 in
  let l3 := pwmcurr_init_writes h2 in
  let h3 := last l3 h2 in
  '(l4, d) <- (if c_debug C && button_is_pressed pinb BUTTON_SET then debug_enable_writes C 0 h3 d true else Some ([], d)) ;;
  let h4 := last l4 h3 in
  Some (l0 ++ l1 ++ l2 ++ l3 ++ l4 ++ unused_pins_init_writes h4).

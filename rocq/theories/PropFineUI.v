(** * The user interface with interrupts inside the work functions (C99)

    [fprompt C h m b]: the history [h] since power-up is one of the firmware C in which timer, converter and EEPROM
    interrupts happen anywhere, also inside measure_work, menu_work and buttons_work at every point where these
    read the clock; menu_work began [m] <= 25 ms ago and buttons_work [b] <= 10 ms ago.
    [explained C h u]: the automaton of SpecFineUI ends in [u] and agreed with the firmware after every event of [h];
    during an event exactly as much time passed in the automaton as in the firmware. *)
From Coq Require Import ZArith List Bool Lia.
From Verif Require Import Base MConf MTimer MPid MCurr SpecNum SpecCurr MSettings SpecSettings MSseg MDisplay MState MTemp MMeas
  MMenu MMain SpecDisplay SpecSys SpecRun SpecUI Trace MFine SpecFine SpecFineLive SpecFineUI PFineEx PFineU9.
Import ListNotations.
Open Scope Z_scope.

(** Whatever interrupts happen inside, the firmware does what the automaton does. *)
Theorem C99_follows : forall C h m b, build_conf C -> fprompt C h m b -> exists u, explained C h u.
Proof. exact (fun C h m b HC => fine_ui_explained C HC h m b). Qed.
Print Assumptions C99_follows.

(** Time limits, ramps, key samples and the iron key are never late by more than the time since the last poll. *)
Theorem C99_punctual : forall C h m b, build_conf C -> fprompt C h m b -> exists u, explained C h u /\ punctual m b u /\ 0 <= m <= 25 /\ 0 <= b <= 10.
Proof. exact (fun C h m b HC => fine_ui_punctual C HC h m b). Qed.
Print Assumptions C99_punctual.

(** The automaton adds nothing but delays to that of C33-C42: without time inside the event it is that one. *)
Theorem C99_atomic : forall C u err e u', fui_next C u err e u' -> u_time u' = u_time u + ticks_of e -> u' = ui_next C u err e.
Proof. exact fine_ui_atomic. Qed.
Print Assumptions C99_atomic.
Theorem C99_includes : forall C u err e, fui_next C u err e (ui_next C u err e).
Proof. exact fine_ui_includes. Qed.
Print Assumptions C99_includes.
(** PLUS is pressed and released with timer interrupts inside the samples and the polls: the preset menu. *)
Example C99_ex : exists h m b, fprompt conf_m88p h m b /\ n_state (y_menu (last_state h)) = MENU_SELPRESET /\ y_now (last_state h) = 14.
Proof. exact fine_ui_tap. Qed.

(** * Specification vocabulary for what the eye sees on the display (C77) *)
From Coq Require Import ZArith List Bool.
From Verif Require Import Base MConf MSettings MSseg MDisplay MState MMain SpecDisplay SpecSys.
Import ListNotations.
Open Scope Z_scope.

(** SPEC: digit [i] (0 to 3 from the left) is driven: its multiplexer pin PC3, PC4, PC5 or PB7 is an output
    and high. *)
Definition driven (h : hw) (i : Z) : bool :=
  if i <? 3 then high (h_portc h) (3 + i) && high (h_ddrc h) (3 + i) else high (h_portb h) 7 && high (h_ddrb h) 7.
Definition dark (h : hw) : Prop := forall i, 0 <= i <= 3 -> driven h i = false.
(** Segment [s] of digit [i] glows: the digit is driven and the pin of the segment is an output and low. *)
Definition glows (h : hw) (i : Z) (s : seg) : bool :=
  driven h i && high (h_ddrd h) (seg_pin i s) && negb (high (h_portd h) (seg_pin i s)).
(** Exactly the picture of digit [i] of the text [s] with the lamp (the point of the third digit) glows. *)
Definition glowing (h : hw) (i : Z) (s : list Z) (lamp : bool) : Prop :=
  forall j sg, 0 <= j <= 3 ->
    glows h j sg = (j =? i) && (let '(c, dot) := glyph_at s (Z.to_nat j) (j =? 2) lamp in lit c dot sg).

(** SPEC: executions in which display_work is called at least once in every millisecond.  [b]: it has been
    called since the last tick; [w i]: ms since digit [i] was last driven or the display was off. *)
Definition is_display (e : event) : bool := match e with EDisplay => true | _ => false end.
Definition watch (y : sys) (w : Z -> Z) (i : Z) : Z := if driven (y_hw y) i || y_dbg y then 0 else w i.
Inductive eyes (C : conf) : sys -> bool -> (Z -> Z) -> Prop :=
  | eye_boot pinb y : is_u8 pinb -> boot C (factory_ee C) pinb = Some y -> eyes C y false (fun _ => 0)
  | eye_power y v pinb y' : reach C y -> ev_ok C y (EPower v pinb) -> step C y (EPower v pinb) = Some y' -> eyes C y' false (fun _ => 0)
  | eye_tick y w y' : eyes C y true w -> step C y ETick = Some y' -> eyes C y' false (watch y' (fun i => w i + 1))
  | eye_other y b w e y' : eyes C y b w -> ev_ok C y e -> step C y e = Some y' -> is_power e = false -> e <> ETick ->
      eyes C y' (b || is_display e) (watch y' w).

Definition hw_dec (a b : hw) : {a = b} + {a <> b}.
Proof. decide equality; try apply Z.eq_dec; apply bool_dec. Defined.
(** Executions in which display_work is called every 2 ms, as in a main loop that needs 2 ms for an iteration.
    [k]: calls since power-up, [r]: ms since the last one, [u]: ms for which the pins of the display have not
    changed. *)
Inductive slow (C : conf) : sys -> Z -> Z -> Z -> Prop :=
  | slow_boot pinb y : is_u8 pinb -> boot C (factory_ee C) pinb = Some y -> slow C y 0 0 0
  | slow_tick y k r u y' : slow C y k r u -> r < 2 -> step C y ETick = Some y' -> slow C y' k (r + 1) (u + 1)
  | slow_show y k u y' : slow C y k 2 u -> step C y EDisplay = Some y' -> slow C y' (k + 1) 0 (if hw_dec (y_hw y') (y_hw y) then u else 0)
  | slow_other y k r u e y' : slow C y k r u -> ev_ok C y e -> is_power e = false -> e <> ETick -> e <> EDisplay -> step C y e = Some y' ->
      slow C y' k r (if hw_dec (y_hw y') (y_hw y) then u else 0).

(** * Specification vocabulary: the storage of the settings inside the whole firmware (C106) *)
From Coq Require Import ZArith List Bool.
From Verif Require Import Base MConf MTimer MSettings SpecSettings MState MMain SpecSys.
Import ListNotations.
Open Scope Z_scope.

(** SPEC: the storage of C49-C53 in state [w] and the firmware in state [y] agree. *)
Definition stored_as (w : world) (y : sys) : Prop := w_x w = y_set y /\ w_now w = y_now y.
(** SPEC: operations of the storage other than the start of a store and a power failure *)
Definition inner (op : sop) : Prop := match op with SWork | SPower _ => False | _ => True end.
(** SPEC: what the event [e] of the main loop does to the storage: settings_work and a power failure are one
    operation of that kind; everything else is a sequence of changes, ticks and EEPROM interrupts. *)
Definition ops_of (e : event) (ops : list sop) : Prop :=
  match e with
  | ESettings => ops = [SWork]
  | EPower v _ => ops = [SPower v]
  | _ => Forall inner ops
  end.

(** SPEC: [n] times the EEPROM finishes a byte and raises its interrupt, and the last byte is finished. *)
Definition rounds (n : nat) : list event := concat (repeat [EDone; EReady] n) ++ [EDone].

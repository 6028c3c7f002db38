(** * Specification vocabulary for the settings storage *)
From Coq Require Import ZArith List Bool.
From Verif Require Import Base MConf MPid MTimer MSettings.
Import ListNotations.
Open Scope Z_scope.

(** A settings struct as the firmware can hold it: three gain sets, six presets, two reserved
    bytes, every member inside its C type. *)
Definition k24 (k : pid_k) : Prop :=
  is_s24 (kp k) /\ is_s24 (ki k) /\ is_s24 (kd k) /\ is_s24 (d_decay_div k).
Definition settings_wf (s : settings) : Prop :=
  (exists k1 k2 k3, s_k s = [k1; k2; k3] /\ k24 k1 /\ k24 k2 /\ k24 k3) /\
  is_s24 (s_idle s) /\
  (exists a b c d e f, s_preset s = [a; b; c; d; e; f] /\
     is_s24 a /\ is_s24 b /\ is_s24 c /\ is_s24 d /\ is_s24 e /\ is_s24 f) /\
  is_u8 (s_active s) /\ is_s24 (s_adj s) /\
  (exists a b, s_reserved s = [a; b] /\ is_u8 a /\ is_u8 b) /\ is_u8 (s_serial s).

(** The user-visible part: everything but the serial number. *)
Definition same_content (a b : settings) : Prop :=
  s_k a = s_k b /\ s_idle a = s_idle b /\ s_preset a = s_preset b /\
  s_active a = s_active b /\ s_adj a = s_adj b /\ s_reserved a = s_reserved b.

(** The EEPROM ring as the properties assume it: CONF_EERING=1, 2..254 slots, and the read of
    the first serial number behind the array (see C54) answers like the first slot. *)
Definition ring_conf (C : conf) : Prop :=
  c_eering C = true /\ 2 <= c_slots C <= 254 /\
  (forall m, c_oob C m (64 * c_slots C + 63) = m 63).

(** Any build of the firmware: with the ring, or with CONF_EERING=0 and a single record. *)
Definition build_conf (C : conf) : Prop :=
  ring_conf C \/ (c_eering C = false /\ 1 <= c_slots C).

(** What can happen to the storage: the 1 ms tick, the user changing settings (any change of
    the struct but for the serial, followed by store_settings), the main loop calling
    settings_work, the EEPROM-ready interrupt, the hardware finishing a byte, and a power
    failure that leaves a byte being programmed with an arbitrary value [v]. *)
Inductive sop : Type :=
  | STick
  | SModify (f : settings -> settings)
  | SWork
  | SReady
  | SDone
  | SPower (v : Z).

(** The storage, the tick counter, and two observer variables used by the properties only:
    [w_committed], the settings of the last store that ran to completion (or those loaded at
    boot) and [w_inflight], the settings of the store in progress. *)
Record world : Type := mkW {
  w_now : Z;
  w_x : sst;
  w_committed : settings;
  w_inflight : option settings
}.

(** A store has begun / no store is in progress, seen from outside: the EEPROM-ready
    interrupt is enabled or a byte is being programmed. *)
Definition quiet (x : sst) : bool :=
  negb (x_eerie x) && match x_busy x with None => true | Some _ => false end.
Definition starts (x x' : sst) : bool := quiet x && x_eerie x'.

(** EEPROM contents after a power failure. *)
Definition ee_after_crash (x : sst) (v : Z) : Z -> Z :=
  match x_busy x with Some (a, _) => fupd (x_ee x) a v | None => x_ee x end.

Definition observe (w : world) (x : sst) : world :=
  match w_inflight w with
  | Some s => if quiet x then mkW (w_now w) x s None
              else mkW (w_now w) x (w_committed w) (Some s)
  | None => if x_eerie x then mkW (w_now w) x (w_committed w) (Some (x_cache x))
            else mkW (w_now w) x (w_committed w) None
  end.

Definition sstep (C : conf) (w : world) (op : sop) : option world :=
  let x := w_x w in
  match op with
  | STick => Some (mkW (timer_isr (w_now w)) x (w_committed w) (w_inflight w))
  | SModify f => x' <- store_settings (w_now w) (set_x_cache x (f (x_cache x))) ;;
                 Some (observe w x')
  | SWork => Some (observe w (settings_work C (w_now w) x))
  | SReady => if x_eerie x then
                match x_busy x with
                | None => x' <- ee_ready_isr C x ;; Some (observe w x')
                | Some _ => Some w
                end
              else Some w
  | SDone => Some (observe w (ee_prog_done x))
  | SPower v => x' <- settings_init C (ee_after_crash x v) ;;
                Some (mkW 0 x' (x_cache x') None)
  end.

Fixpoint sexec (C : conf) (w : world) (ops : list sop) : option world :=
  match ops with
  | [] => Some w
  | o :: r => w' <- sstep C w o ;; sexec C w' r
  end.

(** First power-up with the factory EEPROM image. *)
Definition sboot (C : conf) : option world :=
  x <- settings_init C (factory_ee C) ;; Some (mkW 0 x (x_cache x) None).

(** Assumptions about the environment, one op at a time.
    [op_basic]: user changes keep the struct well-formed and the serial alone; a torn byte is
    a byte; a store is not started while the previous one is still being written (the store
    takes at most 64 * 3.4 ms, stores start at least 1000 ms apart: C53).
    [op_calm]: additionally the user changes nothing while a store is in progress (without
    this see C51). *)
Definition op_basic (C : conf) (w : world) (op : sop) : Prop :=
  match op with
  | SModify f => forall s, settings_wf s -> settings_wf (f s) /\ s_serial (f s) = s_serial s
  | SPower v => is_u8 v
  | SWork => x_request (w_x w) = true -> timer_expired (w_now w) (x_timer (w_x w)) = true ->
             quiet (w_x w) = true
  | _ => True
  end.
Definition op_calm (w : world) (op : sop) : Prop :=
  match op with SModify _ => quiet (w_x w) = true | _ => True end.

(** Reachable from factory state; with [calm = true] user changes respect [op_calm]. *)
Inductive sreach (C : conf) (calm : bool) : world -> Prop :=
  | sreach_boot w : sboot C = Some w -> sreach C calm w
  | sreach_step w op w' : sreach C calm w -> op_basic C w op ->
      (calm = true -> op_calm w op) -> sstep C w op = Some w' -> sreach C calm w'.

(** Number of stores started by a sequence of operations. *)
Fixpoint nstores (C : conf) (w : world) (ops : list sop) : Z :=
  match ops with
  | [] => 0
  | o :: r =>
    match sstep C w o with
    | Some w' => (match o with SWork => if starts (w_x w) (w_x w') then 1 else 0 | _ => 0 end)
                 + nstores C w' r
    | None => 0
    end
  end.

(** Ticks in a sequence of operations. *)
Fixpoint nticks (ops : list sop) : Z :=
  match ops with [] => 0 | STick :: r => 1 + nticks r | _ :: r => nticks r end.
Definition no_user (op : sop) : Prop := match op with SModify _ | SPower _ => False | _ => True end.

(** Executions in which every operation meets [op_basic]. *)
Inductive srun (C : conf) : world -> list sop -> world -> Prop :=
  | srun_nil w : srun C w [] w
  | srun_cons w op w1 ops w2 : op_basic C w op -> sstep C w op = Some w1 ->
      srun C w1 ops w2 -> srun C w (op :: ops) w2.
Definition no_power (op : sop) : Prop := match op with SPower _ => False | _ => True end.

(** All settings in use during an execution, for C51. *)
Fixpoint caches (C : conf) (w : world) (ops : list sop) : list settings :=
  x_cache (w_x w) ::
  match ops with
  | [] => []
  | o :: r => match sstep C w o with Some w' => caches C w' r | None => [] end
  end.

(** * Specification vocabulary: what a store writes while the settings are being changed *)
From Coq Require Import ZArith List Bool.
From Verif Require Import Base MConf MPid MSettings SpecSettings.
Import ListNotations.
Open Scope Z_scope.

(** Byte [k] of the struct in memory. *)
Definition byte_of (s : settings) (k : Z) : Z := nth (Z.to_nat k) (settings_bytes s) 0.

(** [b] is byte [k] of one of the settings in [L]. *)
Definition from (L : list settings) (k b : Z) : Prop := exists s, In s L /\ b = byte_of s k.

(** Every byte of [s] but the serial number is the byte of one of the settings in [L] at the same place. *)
Definition mixture (L : list settings) (s : settings) : Prop := forall k, 0 <= k < 63 -> from L k (byte_of s k).

(** Executions of the storage (any changes at any time, any power failures) with two logs: the settings that
    were in use at some time during the last store that was completed (or were loaded at boot), and, while a
    store is in progress, those in use since it began. *)
Definition log_next (op : sop) (w' : world) (h : list settings * option (list settings)) : list settings * option (list settings) :=
  let s := x_cache (w_x w') in
  match op with
  | SPower _ => ([s], None)
  | _ => match snd h with
         | Some L => if quiet (w_x w') then (s :: L, None) else (fst h, Some (s :: L))
         | None => if x_eerie (w_x w') then (fst h, Some [s]) else (fst h, None)
         end
  end.
Inductive logged (C : conf) : world -> list settings * option (list settings) -> Prop :=
  | logged_boot w : sboot C = Some w -> logged C w ([x_cache (w_x w)], None)
  | logged_step w op w' h : logged C w h -> op_basic C w op -> sstep C w op = Some w' -> logged C w' (log_next op w' h).

(** Byte [k] of the (only) record is being programmed. *)
Definition torn (x : sst) (k : Z) : Prop := exists d, x_busy x = Some (k, d).

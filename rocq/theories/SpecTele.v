(** * Specification of what an observer of the debug output knows *)
From Coq Require Import ZArith List Bool.
From Verif Require Import Base MConf MPid MCurr MState MTemp MSettings MDebug SpecHost SpecSettings SpecSys MTele.
Import ListNotations.
Open Scope Z_scope.

Definition str_dec (a b : list Z) : {a = b} + {a <> b} := list_eq_dec Z.eq_dec a b.
(** Executions with their output: the state [y], the cells [f], everything sent so far [b], and the values [g]
    the cells had when the last greeting was sent (zero before the first). *)
Inductive tlog (C : conf) : sys -> cells -> list Z -> (item -> Z) -> Prop :=
  | tl_boot pinb y f s : is_u8 pinb -> tboot C (factory_ee C) pinb = Some (y, f, s) -> tlog C y f (concat s) (fun _ => 0)
  | tl_step y f b g e y' f' s : tlog C y f b g -> ev_ok C y e -> tstep C y f e = Some (y', f', s) ->
      tlog C y' f' (b ++ concat s) (if in_dec str_dec greeting s then fun i => f' (CItem i) else g).

(** What the receiver (dumpcurves.py) shows for an item after the bytes [b]. *)
Definition shows (b : list Z) (i : item) (v : Z) : Prop := r_val (receive b) i = (v, item_unit i).

(** The cells hold the values of the controllers: the last current and temperature given to the controllers,
    the last output, integral and previous error of the current controller, and the source of its feedback
    (0: model, 1: synchronizing, 2: measurement; 0 is shown before its first run, too). *)
Definition mirrored (f : cells) (y : sys) : Prop :=
  f (CItem Cr1) = cc_feedback (y_cc y) /\ f (CItem Tr) = t_feedback (y_ct y) /\ f (CItem Cy) = cc_prev_y (y_cc y) /\
  f (CPid false TI) = p_integr (cc_pid (y_cc y)) /\ f (CPid false TPe) = p_prev_e (cc_pid (y_cc y)) /\
  (f (CItem Rs) = rstate_num (cc_rstate (y_cc y)) \/ f (CItem Rs) = 0 /\ cc_rstate (y_cc y) = REnabled).

(** What the receiver knows about the item [i], which has the value [v]: after any noise [n] and the output it
    shows the value, or it still shows 0 as after a greeting and [v] is the value at the greeting. *)
Definition seen (n b : list Z) (g : item -> Z) (i : item) (v : Z) : Prop :=
  shows (n ++ b) i v \/ shows (n ++ b) i 0 /\ v = g i.

(** The number of bytes an event may send *)
Definition bytes (e : event) : nat :=
  match e with EMeasure => 245 | EMenu => 40 | EButtons _ => 320 | EPower _ _ => 52 | _ => 0 end.

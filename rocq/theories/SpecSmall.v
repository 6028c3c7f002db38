(** * Specifications and execution drivers for the small modules

    Definitions marked SPEC do not mention the model; definitions marked RUN only
    iterate a model function over a sequence of inputs. *)
From Coq Require Import ZArith List Bool.
From Verif Require Import Base MUtil MFixpt MBitmap MFilter MTimer MPid.
Import ListNotations.
Open Scope Z_scope.

(** SPEC. *)
(** Specification: bit [i] of a byte list. *)
Definition bit_of (bm : list Z) (i : Z) : bool :=
  Z.testbit (nth (Z.to_nat (i / 8)) bm 0) (i mod 8).

(** RUN. *)
(** A sequence of writes (bit number, value). *)
Fixpoint bm_writes (bm : list Z) (ws : list (Z * Z)) : option (list Z) :=
  match ws with
  | [] => Some bm
  | (i, v) :: r => bm' <- bm_write_bit bm i v ;; bm_writes bm' r
  end.
(** SPEC: the value last written to bit [j], or the initial one. *)
Fixpoint last_written (d : bool) (j : Z) (ws : list (Z * Z)) : bool :=
  match ws with
  | [] => d
  | (i, v) :: r => last_written (if j =? i then negb (v =? 0) else d) j r
  end.

(** RUN. *)
(** Run the filter over a list of inputs, collecting the outputs. *)
Fixpoint lp_outputs (buf : Z) (s : Z) (xs : list Z) : list Z :=
  match xs with
  | [] => []
  | x :: r => let '(b, o) := lp_filter_u16_run buf x s in o :: lp_outputs b s r
  end.

(** SPEC [lp_ideal], RUN [lp_final]. *)
(** The accumulator never wraps: the machine run equals the run over unbounded integers. *)
Fixpoint lp_ideal (buf : Z) (s : Z) (xs : list Z) : Z :=
  match xs with [] => buf | x :: r => lp_ideal (buf - buf / 2 ^ s + x) s r end.
Fixpoint lp_final (buf : Z) (s : Z) (xs : list Z) : Z :=
  match xs with [] => buf | x :: r => lp_final (fst (lp_filter_u16_run buf x s)) s r end.
(** RUN. *)
(** Constant input: monotone convergence. *)
Definition lp_const (s x : Z) (n : nat) (buf : Z) : Z :=
  Nat.iter n (fun b => fst (lp_filter_u16_run b x s)) buf.
Definition lp_const_out (s x : Z) (n : nat) (buf : Z) : Z := snd (lp_filter_u16_run (lp_const s x n buf) x s).

(** RUN. *)
Fixpoint lpf_outputs (buf d : Z) (xs : list Z) : option (list Z) :=
  match xs with
  | [] => Some []
  | x :: r => '(b, o) <- lp_filter_fixpt_run buf x d ;; os <- lpf_outputs b d r ;; Some (o :: os)
  end.
(** SPEC. *)
(** ** Timers.  Real time is an unbounded tick number; the counter is its residue. *)
Definition counter (t : Z) : Z := t mod 65536.

(** RUN [poll_timer], SPEC [ideal_timer]. *)
(** Polled periodic timer: at each poll, if expired then fire and advance by [p]. *)
Fixpoint poll_timer (tm p : Z) (polls : list Z) : option (list bool) :=
  match polls with
  | [] => Some []
  | t :: r =>
    if timer_expired (counter t) tm
    then tm' <- timer_add tm p ;; fs <- poll_timer tm' p r ;; Some (true :: fs)
    else fs <- poll_timer tm p r ;; Some (false :: fs)
  end.
(** Specification over unbounded time: due times are start, start+p, start+2p, ...;
    [None] when a poll is not within 32767 ticks of the due time. *)
Fixpoint ideal_timer (due p : Z) (polls : list Z) : option (list bool) :=
  match polls with
  | [] => Some []
  | t :: r =>
    if (t - due <=? 32767) && (-32768 <=? t - due) then
      if due <=? t
      then match ideal_timer (due + p) p r with Some fs => Some (true :: fs) | None => None end
      else match ideal_timer due p r with Some fs => Some (false :: fs) | None => None end
    else None
  end.
(** SPEC: limits are ordered *)
Definition pid_lims_ok (p : pid) : Prop := p_i_neglim p <= p_i_poslim p /\ p_y_neglim p <= p_y_poslim p.

(** RUN. *)
(** Call sequences of the PID API. *)
Inductive pid_op : Type :=
| PRun (dt r : Z)
| PSetFactors (k : pid_k)
| PReset
| PSetSetpoint (w : Z).

(** Execute a call sequence; collect (output, integrator) after every run.  *)
Fixpoint pid_exec (p : pid) (ops : list pid_op) : option (pid * list (Z * Z)) :=
  match ops with
  | [] => Some (p, [])
  | PRun dt r :: t =>
    '(p1, y) <- pid_run p dt r ;;
    '(p2, l) <- pid_exec p1 t ;; Some (p2, (y, p_integr p1) :: l)
  | PSetFactors k :: t => pid_exec (pid_set_factors p k) t
  | PReset :: t => pid_exec (pid_reset p) t
  | PSetSetpoint w :: t => pid_exec (pid_set_setpoint p w) t
  end.


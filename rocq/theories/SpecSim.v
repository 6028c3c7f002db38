(** * Specification vocabulary for the simulator (C89-C92) *)
From Coq Require Import ZArith List Bool.
From Verif Require Import Base MConf MSettings MState MMain MDebug SpecHost SpecSettings SpecSys MTele MSim.
Import ListNotations.
Open Scope Z_scope.

(** ** The serial port *)

(** SPEC: uses of the ring buffer since its reset, with the bytes written [s] and the bytes read [g]; not more
    than 4095 bytes are unread after a write. *)
Inductive piped : fifo -> list Z -> list Z -> Prop :=
  | piped_reset : piped fifo_reset [] []
  | piped_write f s g b f' : piped f s g -> (length s < length g + Z.to_nat 4095)%nat -> uart_write f b = Some f' ->
      piped f' (s ++ [b]) g
  | piped_read f s g n f' l : piped f s g -> uart_get_tx f n = Some (f', l) -> piped f' s (g ++ l).

(** ** Messages of the firmware *)

(** SPEC: the greeting, or a value of a debug cell with the time *)
Inductive smsg : Type := SHello | SVal (now : Z) (c : cell) (v : Z).
Definition smsg_ok (m : smsg) : Prop := match m with SHello => True | SVal _ _ v => is_s24 v end.
(** The bytes of the firmware (debug_uart.c) *)
Definition smsg_bytes (m : smsg) : option (list Z) :=
  match m with SHello => Some greeting | SVal now c v => print_int true now (Some (prefix0 c)) (prefix1 c) v end.
Inductive sstream : list smsg -> list Z -> Prop :=
  | ss_nil : sstream [] []
  | ss_cons m b l t : smsg_ok m -> smsg_bytes m = Some b -> sstream l t -> sstream (m :: l) (b ++ t).
(** SPEC: what the values of a cell are multiples of: 1/64 for the PID terms, for the items as in C57 *)
Definition cell_unit (c : cell) : Z := match c with CItem i => item_unit i | CPid _ _ => 64 end.
(** SPEC: the lines of a message; the greeting begins with an empty line. *)
Definition smsg_lines (m : smsg) : nat := match m with SHello => 2 | SVal _ _ _ => 1 end.
(** SPEC: the value of the cell [c] after the first [k] lines of the messages, [d] before *)
Fixpoint shown (k : nat) (l : list smsg) (c : cell) (d : Z) : Z :=
  match l with
  | [] => d
  | SVal _ c' v :: r => match k with O => d | S k => shown k r c (if cell_dec c c' then v else d) end
  | SHello :: r => match k with S (S k) => shown k r c 0 | _ => d end
  end.
(** SPEC: the number of complete lines in some bytes: line feeds after carriage returns *)
Fixpoint lines_in (s : list Z) : nat :=
  match s with
  | [] => O
  | c :: t => let n := lines_in t in if (c =? 13) && (match t with d :: _ => d =? 10 | [] => false end) then S n else n
  end.
(** SPEC: the number of lines taken after the chunks [l], when [got] was received and [k] lines were taken
    before: one with every chunk that is not empty, if there is one. *)
Fixpoint taken (l : list (list Z)) (got : list Z) (k : nat) : nat :=
  match l with
  | [] => k
  | d :: r => taken r (got ++ d) (match d with [] => k | _ => Nat.min (S k) (lines_in (got ++ d)) end)
  end.

(** ** The firmware in the simulator *)

(** SPEC: the number of the work function in the main loop (main.c:77-91), for those that send something *)
Definition turn (e : event) : option nat :=
  match e with EMeasure => Some 0%nat | EMenu => Some 1%nat | EButtons _ => Some 2%nat | _ => None end.
(** SPEC: the firmware runs in the simulator: state, debug cells, everything sent, ring buffer, everything
    read from it, the decoder, and the first work function that has not run since the last reading.  Between two
    readings every work function runs at most once, in the order of the main loop; interrupts may happen at
    any time; the bytes go to the ring buffer.  The simulator has no power failures. *)
Inductive simulated (C : conf) : sys -> cells -> list Z -> fifo -> list (list Z) -> pysim -> nat -> Prop :=
  | sim_boot pinb y f s u : is_u8 pinb -> tboot C (factory_ee C) pinb = Some (y, f, s) ->
      uart_writes fifo_reset (concat s) = Some u -> simulated C y f (concat s) u [] sim_reset 0
  | sim_event y f b u g q p e y' f' s u' : simulated C y f b u g q p -> ev_ok C y e -> is_power e = false ->
      match turn e with Some k => (p <= k)%nat | None => True end ->
      tstep C y f e = Some (y', f', s) -> uart_writes u (concat s) = Some u' ->
      simulated C y' f' (b ++ concat s) u' g q (match turn e with Some k => S k | None => p end)
  | sim_read y f b u g q p u' d : simulated C y f b u g q p -> xy_uart_get_tx u = Some (u', d) ->
      simulated C y f b u' (g ++ [d]) (sim_handle q d) 0.
(** SPEC: the last value of the cell [c] said after the last greeting, if any *)
Fixpoint said (l : list smsg) (c : cell) (d : option Z) : option Z :=
  match l with
  | [] => d
  | SHello :: r => said r c None
  | SVal _ c' v :: r => said r c (if cell_dec c c' then Some v else d)
  end.
(** SPEC: a message that changes what is known about the cell [c] *)
Definition concerns (c : cell) (m : smsg) : Prop := match m with SHello => True | SVal _ c' _ => c' = c end.

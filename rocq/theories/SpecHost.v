(** * Specifications for the unit test support and the telemetry *)
From Coq Require Import ZArith List Bool.
From Verif Require Import Base.
Import ListNotations.
Open Scope Z_scope.

(** [v] is what a 24-bit two's complement register holds after storing [x]. *)
Definition stored24 (x v : Z) : Prop := -8388608 <= v < 8388608 /\ exists k, x = v + k * 16777216.
(** The same for an unsigned register. *)
Definition ustored24 (x v : Z) : Prop := 0 <= v < 16777216 /\ exists k, x = v + k * 16777216.
(** [q] is the quotient of [a] and [b] rounded towards zero. *)
Definition truncated (a b q : Z) : Prop := exists r, a = b * q + r /\ Z.abs r < Z.abs b /\ (r = 0 \/ Z.sgn r = Z.sgn a).

(** ** Telemetry *)
From Verif Require Import MDebug.
(** A name that can be printed: not empty, visible ASCII characters. *)
Definition name_ok (n : list Z) : Prop := n <> [] /\ Forall (fun c => 33 <= c < 128) n.

(** What the firmware says to the receiver: the greeting, a value with one name, a value with two names;
    [now] is the time of the system timer. *)
Inductive msg : Type :=
| Hello
| Value (now : Z) (name : list Z) (v : Z)
| Value2 (now : Z) (name name' : list Z) (v : Z).
Definition msg_ok (m : msg) : Prop :=
  match m with
  | Hello => True
  | Value now n v => name_ok n /\ is_s32 v
  | Value2 now n n' v => name_ok n /\ name_ok n' /\ is_s32 v
  end.
(** The bytes of the firmware *)
Definition msg_bytes (m : msg) : option (list Z) :=
  match m with
  | Hello => Some greeting
  | Value now n v => print_int true now (Some n) None v
  | Value2 now n n' v => print_int true now (Some n) (Some n') v
  end.
Fixpoint stream (l : list msg) : option (list Z) :=
  match l with [] => Some [] | m :: l => a <- msg_bytes m ;; b <- stream l ;; Some (a ++ b) end.

(** The last value said for a name since the last greeting; newest message last. *)
Fixpoint latest (n : list Z) (l : list msg) (d : Z) : Z :=
  match l with
  | [] => d
  | Hello :: l => latest n l 0
  | Value _ n' v :: l => latest n l (if list_eq_dec Z.eq_dec n n' then v else d)
  | Value2 _ _ _ _ :: l => latest n l d
  end.
(** What the values on the lines are multiples of: currents of 1/640 A, temperatures of 1/64 degree, states and
    converter codes of 1. *)
Definition item_unit (i : item) : Z :=
  match i with
  | Cr1 => 640 | Cr2 => 640 | Rs => 1 | Cy => 640 | Tr => 64 | Ty1 => 64 | Ty2 => 640 | Tb => 1 | Mc => 1 | Fc => 1 | Mt => 1
  end.
(** The table a faithful receiver holds after the messages: for each value of a known item the low 16 bits
    of its time and the values of all items at that moment, in units of 1/[item_unit]; newest row first. *)
Definition known (n : list Z) : Prop := exists i, n = fw_name i.
Inductive table : list msg -> list (Z * (item -> Z * Z)) -> Prop :=
| TNil : table [] []
| THello l : table (l ++ [Hello]) []
| TValue l now i v rows vals : table l rows ->
    (forall j, vals j = (latest (fw_name j) (l ++ [Value now (fw_name i) v]) 0, item_unit j)) ->
    table (l ++ [Value now (fw_name i) v]) ((now mod 65536, vals) :: rows)
| TUnknown l now n v rows : table l rows -> ~ known n -> table (l ++ [Value now n v]) rows
| TValue2 l now n n' v rows : table l rows -> table (l ++ [Value2 now n n' v]) rows.

(** ** Reports: calls of debug_report with the cell of an item, the time and the value. *)
Definition call : Type := (Z * item * Z)%type.
Definition item_dec (a b : item) : {a = b} + {a <> b}.
Proof. decide equality. Defined.
(** The firmware: the cells [*old_value] and the bytes sent. *)
Fixpoint reports (enabled : bool) (old : item -> Z) (l : list call) : option ((item -> Z) * list Z) :=
  match l with
  | [] => Some (old, [])
  | (now, i, v) :: l =>
    '(o, a) <- report enabled now (Some (fw_name i)) None (old i) v ;;
    '(old', b) <- reports enabled (fun j => if item_dec j i then o else old j) l ;;
    Some (old', a ++ b)
  end.
(** The last value given for an item. *)
Fixpoint given (i : item) (l : list call) (d : Z) : Z :=
  match l with [] => d | (_, j, v) :: l => given i l (if item_dec i j then v else d) end.
(** The calls whose value differs from the one given before for the same item. *)
Fixpoint changes (old : item -> Z) (l : list call) : list call :=
  match l with
  | [] => []
  | (now, i, v) :: l =>
    (if v =? old i then [] else [(now, i, v)]) ++ changes (fun j => if item_dec j i then v else old j) l
  end.
Definition value_of (c : call) : msg := match c with (now, i, v) => Value now (fw_name i) v end.
Definition call_ok (c : call) : Prop := match c with (_, _, v) => is_s32 v end.

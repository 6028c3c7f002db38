(** * Specification of a reader of the table (a spreadsheet)

    Independent of the model of dumpcurves.py but for the names of the items. *)
From Coq Require Import ZArith List Bool String.
From Verif Require Import Base MDebug SpecHost MCsv.
Import ListNotations.
Open Scope Z_scope.

(** The pieces of a text between the characters [c] *)
Fixpoint split_at (c : Z) (s : list Z) : list (list Z) :=
  match s with
  | [] => [[]]
  | x :: t => if x =? c then [] :: split_at c t
              else match split_at c t with w :: ws => (x :: w) :: ws | [] => [[x]] end
  end.
(** A line must end with a carriage return, which is removed. *)
Definition chomp (s : list Z) : option (list Z) :=
  match rev s with c :: t => if c =? 13 then Some (rev t) else None | [] => None end.
(** A number in decimal notation as (n, k): n / 10^k.  [seen]: a digit was read since the start or the point;
    [k] is negative before the point. *)
Fixpoint read_dec (s : list Z) (n k : Z) (seen : bool) : option (Z * Z) :=
  match s with
  | [] => if seen then Some (n, Z.max 0 k) else None
  | c :: t => if (48 <=? c) && (c <=? 57) then read_dec t (10 * n + (c - 48)) (if k <? 0 then k else k + 1) true
              else if (c =? 46) && (k <? 0) && seen then read_dec t n 0 false
              else None
  end.
Definition read_num (s : list Z) : option (Z * Z) :=
  match s with
  | c :: t => if c =? 45 then '(n, k) <- read_dec t 0 (-1) false ;; Some (- n, k) else read_dec s 0 (-1) false
  | [] => None
  end.
Fixpoint read_all (l : list (list Z)) : option (list (Z * Z)) :=
  match l with [] => Some [] | s :: t => a <- read_num s ;; b <- read_all t ;; Some (a :: b) end.
(** The lines after the first; the last piece, after the last line end, must be empty. *)
Fixpoint read_rows (l : list (list Z)) : option (list (list (Z * Z))) :=
  match l with
  | [] => None
  | s :: t => match t with
              | [] => match s with [] => Some [] | _ => None end
              | _ => c <- chomp s ;; a <- read_all (split_at 59 c) ;; b <- read_rows t ;; Some (a :: b)
              end
  end.
(** The titles and the numbers *)
Definition read_csv (text : list Z) : option (list (list Z) * list (list (Z * Z))) :=
  match split_at 10 text with
  | h :: t => c <- chomp h ;; b <- read_rows t ;; Some (split_at 59 c, b)
  | [] => None
  end.

(** The number is exactly v / u. *)
Definition exactly (u v : Z) (n : Z * Z) : Prop := 0 <= snd n /\ u * fst n = v * 10 ^ snd n.
(** The number has six decimals and none with six decimals is nearer to v / u. *)
Definition nearest (u v : Z) (n : Z * Z) : Prop := snd n = 6 /\ 2 * Z.abs (u * fst n - v * 1000000) <= u.
(** The integer v is the one nearest to u times the number. *)
Definition recovers (u v : Z) (n : Z * Z) : Prop := 0 <= snd n /\ 2 * Z.abs (u * fst n - v * 10 ^ snd n) < 10 ^ snd n.

(** The titles of the columns (the order of the items in a row) *)
Definition titles : list (list Z) := map codes ["time (ticks)"; "current controller real r (A)"; "current controller used r (A)";
  "current controller r state"; "current controller y (A)"; "temp controller r (*C)"; "temp controller y1 (*C)";
  "temp controller y2 (A)"; "measured current (ADC)"; "filtered current (ADC)"; "measured temp (ADC)"; "boost mode"]%string.
Definition columns : list item := [Cr1; Cr2; Rs; Cy; Tr; Ty1; Ty2; Mc; Fc; Mt; Tb].
(** A cell of the item [i] with the value v / [item_unit i]: currents are nearest, everything else is exact. *)
Definition cell_shows (i : item) (v : Z) (n : Z * Z) : Prop :=
  if item_unit i =? 640 then nearest 640 v n else exactly (item_unit i) v n.
Definition row_shows (row : Z * (item -> Z * Z)) (nums : list (Z * Z)) : Prop :=
  match nums with
  | n0 :: ns => exactly 1 (fst row) n0 /\ Forall2 (fun i n => cell_shows i (fst (snd row i)) n) columns ns
  | [] => False
  end.
(** The file [text] holds the rows. *)
Definition holds (rows : list (Z * (item -> Z * Z))) (text : list Z) : Prop :=
  exists nums, read_csv text = Some (titles, nums) /\ Forall2 row_shows rows nums.

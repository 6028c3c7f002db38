(** * Specification vocabulary for texts and the seven segment display *)
From Coq Require Import ZArith List Bool.
From Verif Require Import SpecNum Base MSseg MDisplay.
Import ListNotations.
Open Scope Z_scope.

(** ** Numbers as text (ASCII: '0' = 48, ' ' = 32, '-' = 45, '.' = 46) *)
Definition is_digit (c : Z) : Prop := 48 <= c <= 57.
Definition digits_value (l : list Z) : Z := fold_left (fun a c => 10 * a + (c - 48)) l 0.

(** [l] is the usual decimal notation of [n >= 0]: only digits, at least one, no leading zero. *)
Definition decimal (n : Z) (l : list Z) : Prop :=
  l <> [] /\ Forall is_digit l /\ digits_value l = n /\ ((1 < length l)%nat -> hd 0 l <> 48).

(** [l] shows [n] right-aligned in [w] characters: blanks, sign, digits. *)
Definition right_aligned (w : nat) (n : Z) (l : list Z) : Prop :=
  exists pad sign ds, l = pad ++ sign ++ ds /\ length l = w /\ Forall (eq 32) pad /\
    sign = (if n <? 0 then [45] else []) /\ decimal (Z.abs n) ds.

(** [l] is exactly [w] digits, with leading zeros, of value [n]. *)
Definition zero_filled (w : nat) (n : Z) (l : list Z) : Prop :=
  length l = w /\ Forall is_digit l /\ digits_value l = n.

Definition limit (lo hi n : Z) : Z := Z.max lo (Z.min hi n).

(** ** Glyphs *)
Inductive seg : Type := SA | SB | SC | SD | SE | SF | SG | SDP.
Definition seg_id (s : seg) : Z :=
  match s with SA => 0 | SB => 1 | SC => 2 | SD => 3 | SE => 4 | SF => 5 | SG => 6 | SDP => 7 end.

(** The segments that form a character on a seven segment digit:
<<
      -A-
     F   B
      -G-
     E   C
      -D-   DP
>>
    Upper and lower case letters look the same; letters after R and K, M, Q have no glyph. *)
Definition font (c : Z) : list seg :=
  let c := if (97 <=? c) && (c <=? 122) then c - 32 else c in
  match c with
  | 45 => [SG]
  | 48 => [SA; SB; SC; SD; SE; SF]
  | 49 => [SB; SC]
  | 50 => [SA; SB; SG; SE; SD]
  | 51 => [SA; SB; SG; SC; SD]
  | 52 => [SF; SG; SB; SC]
  | 53 => [SA; SF; SG; SC; SD]
  | 54 => [SA; SF; SG; SE; SC; SD]
  | 55 => [SA; SB; SC]
  | 56 => [SA; SB; SC; SD; SE; SF; SG]
  | 57 => [SA; SB; SC; SD; SF; SG]
  | 65 => [SE; SF; SA; SB; SC; SG]
  | 66 => [SF; SE; SD; SC; SG]
  | 67 => [SA; SF; SE; SD]
  | 68 => [SB; SC; SD; SE; SG]
  | 69 => [SA; SF; SG; SE; SD]
  | 70 => [SA; SF; SG; SE]
  | 71 => [SA; SF; SE; SD; SC; SG]
  | 72 => [SF; SE; SG; SB; SC]
  | 73 => [SF; SE]
  | 74 => [SB; SC; SD]
  | 76 => [SF; SE; SD]
  | 78 => [SE; SG; SC]
  | 79 => [SA; SB; SC; SD; SE; SF]
  | 80 => [SE; SF; SA; SB; SG]
  | 82 => [SE; SG]
  | _ => []
  end.

(** The port D pin of each segment: digits 0 to 2 are the big digits, digit 3 the small one. *)
Definition seg_pin (i : Z) (s : seg) : Z :=
  if i <? 3 then
    match s with SA => 7 | SB => 0 | SC => 2 | SD => 4 | SE => 5 | SF => 6 | SG => 1 | SDP => 3 end
  else
    match s with SA => 2 | SB => 3 | SC => 0 | SD => 1 | SE => 6 | SF => 4 | SG => 7 | SDP => 5 end.

(** A string split into characters, each with its decimal point. *)
Fixpoint glyphs (s : list Z) : list (Z * bool) :=
  match s with
  | [] => []
  | c :: r =>
    match r with
    | d :: r' => if d =? 46 then (c, true) :: glyphs r' else (c, false) :: glyphs r
    | [] => [(c, false)]
    end
  end.

(** What digit number [i] has to show for the string [s]: the [i]-th character with its point, or
    with the forced point; a blank without point after the end of the string. *)
Definition glyph_at (s : list Z) (i : nat) (force on : bool) : Z * bool :=
  match nth_error (glyphs s) i with
  | Some (c, dot) => (c, if force then on else dot)
  | None => (32, false)
  end.

(** Segment [s] is lit when [c] is shown with decimal point [dot]. *)
Definition seg_in (s : seg) (l : list seg) : bool := existsb (fun x => seg_id x =? seg_id s) l.
Definition lit (c : Z) (dot : bool) (s : seg) : bool :=
  seg_in s (font c) || (match s with SDP => dot | _ => false end).

(** The segment register of digit [i] holds the picture of [c], [dot] and nothing else. *)
Definition holds (i : Z) (v c : Z) (dot : bool) : Prop :=
  is_u8 v /\ forall s, Z.testbit v (seg_pin i s) = lit c dot s.

(** The four digits are connected as display_init does it. *)
Definition wired (d : disp) : Prop :=
  map (fun g => dd_iomap (g_sseg g)) (d_digits d) = map Some digit_iomaps.

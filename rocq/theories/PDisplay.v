(** * Proofs about texts and the display *)
From Coq Require Import ZArith List Bool Lia.
From Verif Require Import Base PBase MUtil MFixpt MSseg MDisplay MText MMenu SpecNum SpecDisplay PNum.
Import ListNotations.
Open Scope Z_scope.

(** ** Finite ranges *)
Definition zseq (lo : Z) (n : nat) : list Z := map (fun k => lo + Z.of_nat k) (seq 0 n).
Lemma in_zseq lo n x : lo <= x < lo + Z.of_nat n -> In x (zseq lo n).
Proof.
  intros H. unfold zseq. apply in_map_iff. exists (Z.to_nat (x - lo)).
  split; [rewrite Z2Nat.id by lia; lia|]. apply in_seq. lia.
Qed.
Lemma range_check (f : Z -> bool) lo n :
  forallb f (zseq lo n) = true -> forall x, lo <= x < lo + Z.of_nat n -> f x = true.
Proof.
  intros H x Hx. rewrite forallb_forall in H. apply H. apply in_zseq; assumption.
Qed.

(** ** Text of numbers *)
Definition is_digitb (c : Z) : bool := (48 <=? c) && (c <=? 57).
Definition decimalb (n : Z) (l : list Z) : bool :=
  negb (Nat.eqb (length l) 0) && forallb is_digitb l && (digits_value l =? n) &&
  (negb (Nat.ltb 1 (length l)) || negb (hd 0 l =? 48)).
Lemma digitsb_ok l : forallb is_digitb l = true -> Forall is_digit l.
Proof.
  intros H. apply Forall_forall. intros x Hx. rewrite forallb_forall in H.
  specialize (H x Hx). unfold is_digitb in H. apply andb_prop in H. unfold is_digit. lia.
Qed.
Lemma decimalb_ok n l : decimalb n l = true -> decimal n l.
Proof.
  unfold decimalb, decimal. intros H.
  apply andb_prop in H as [H H4]. apply andb_prop in H as [H H3]. apply andb_prop in H as [H1 H2].
  split; [intros ->; discriminate|]. split; [apply digitsb_ok; assumption|].
  split; [apply Z.eqb_eq; assumption|].
  intros Hl He. apply Nat.ltb_lt in Hl. rewrite Hl in H4. cbn in H4.
  rewrite He in H4. discriminate.
Qed.
Fixpoint skip_blanks (l : list Z) : list Z * list Z :=
  match l with
  | c :: r => if c =? 32 then let '(p, q) := skip_blanks r in (c :: p, q) else ([], l)
  | [] => ([], [])
  end.
Lemma skip_blanks_ok l p q : skip_blanks l = (p, q) -> l = p ++ q /\ Forall (eq 32) p.
Proof.
  revert p q. induction l as [|c r IH]; intros p q H; cbn in H.
  - inversion H. split; [reflexivity|apply Forall_nil].
  - destruct (c =? 32) eqn:E.
    + destruct (skip_blanks r) as [p' q'] eqn:Er. inversion H; subst.
      destruct (IH _ _ eq_refl) as [-> Hp]. split; [reflexivity|].
      apply Z.eqb_eq in E. apply Forall_cons; [congruence|assumption].
    + inversion H; subst. split; [reflexivity|apply Forall_nil].
Qed.
Definition right_alignedb (w : nat) (n : Z) (l : list Z) : bool :=
  Nat.eqb (length l) w &&
  let '(p, q) := skip_blanks l in
  if n <? 0 then match q with c :: ds => (c =? 45) && decimalb (Z.abs n) ds | [] => false end
  else decimalb (Z.abs n) q.
Lemma right_alignedb_ok w n l : right_alignedb w n l = true -> right_aligned w n l.
Proof.
  unfold right_alignedb, right_aligned. intros H. apply andb_prop in H as [H1 H2].
  destruct (skip_blanks l) as [p q] eqn:E. apply skip_blanks_ok in E as [-> Hp].
  apply Nat.eqb_eq in H1. destruct (n <? 0) eqn:En.
  - destruct q as [|c ds]; [discriminate|]. apply andb_prop in H2 as [H2 H3].
    apply Z.eqb_eq in H2. subst c. exists p, [45], ds.
    split; [reflexivity|]. split; [assumption|]. split; [assumption|]. split; [reflexivity|].
    apply decimalb_ok; assumption.
  - exists p, [], q. split; [reflexivity|]. split; [assumption|]. split; [assumption|].
    split; [reflexivity|]. apply decimalb_ok; assumption.
Qed.
Definition zero_filledb (w : nat) (n : Z) (l : list Z) : bool :=
  Nat.eqb (length l) w && forallb is_digitb l && (digits_value l =? n).
Lemma zero_filledb_ok w n l : zero_filledb w n l = true -> zero_filled w n l.
Proof.
  unfold zero_filledb, zero_filled. intros H. apply andb_prop in H as [H H3].
  apply andb_prop in H as [H1 H2]. split; [apply Nat.eqb_eq; assumption|].
  split; [apply digitsb_ok; assumption|apply Z.eqb_eq; assumption].
Qed.

(** cclamp is [limit] on non-empty ranges *)
Lemma cclamp_limit v lo hi : lo <= hi -> cclamp v lo hi = limit lo hi v.
Proof.
  intros H. unfold cclamp, cmax, cmin, limit.
  destruct (v <? hi) eqn:E1; [destruct (lo <? v) eqn:E2|destruct (lo <? hi) eqn:E2]; lia.
Qed.
Lemma limit_limit lo hi v : lo <= hi -> limit lo hi (limit lo hi v) = limit lo hi v.
Proof. unfold limit. lia. Qed.

Definition temp_check (n : Z) : bool :=
  match int_to_ascii_align_right disp_buf 0 2 n (-99) 999 32 with
  | Some [Some a; Some b; Some c; Some 0; None; None] => right_alignedb 3 n [a; b; c]
  | _ => false
  end.
Lemma temp_check_all : forallb temp_check (zseq (-99) (Z.to_nat 1099)) = true.
Proof. vm_compute. reflexivity. Qed.

(** int_to_ascii only depends on the clamped value. *)
Lemma ascii_clamped b off al v lo hi fill : lo <= hi ->
  int_to_ascii_align_right b off al v lo hi fill =
  int_to_ascii_align_right b off al (limit lo hi v) lo hi fill.
Proof.
  intros H. unfold int_to_ascii_align_right.
  rewrite (cclamp_limit (limit lo hi v)), (cclamp_limit v), limit_limit by assumption. reflexivity.
Qed.

Lemma put_temp_ok temp symbol : -2097120 < temp < 2097120 -> (length symbol <= 2)%nat ->
  exists n l rest, nearest_away temp 64 n /\ right_aligned 3 (limit (-99) 999 n) l /\
    menu_put_temp disp_buf temp symbol = Some (map Some (l ++ symbol ++ [0]) ++ rest) /\
    length (map Some (l ++ symbol ++ [0]) ++ rest) = 6%nat.
Proof.
  intros Ht Hs.
  destruct (proj1 (proj2 int_conv_spec) temp) as [n [E Hn]]; [unfold is_s24; lia|].
  assert (Hr : -32768 <= n <= 32767) by (unfold nearest_away in Hn; clear E; lia).
  unfold menu_put_temp. rewrite E. cbn [bind]. rewrite s16_id by assumption.
  rewrite ascii_clamped by lia.
  assert (Hc : temp_check (limit (-99) 999 n) = true).
  { apply (range_check temp_check (-99) (Z.to_nat 1099) temp_check_all).
    rewrite Z2Nat.id by lia. unfold limit. clear. lia. }
  unfold temp_check in Hc.
  destruct (int_to_ascii_align_right disp_buf 0 2 (limit (-99) 999 n) (-99) 999 32) as [b|]; [|discriminate].
  destruct b as [|[x1|] b]; try discriminate. destruct b as [|[x2|] b]; try discriminate.
  destruct b as [|[x3|] b]; try discriminate. destruct b as [|[x4|] b]; try discriminate.
  destruct x4; try discriminate. destruct b as [|[x5|] b]; try discriminate.
  destruct b as [|[x6|] b]; try discriminate. destruct b as [|x7 b]; try discriminate.
  apply right_alignedb_ok in Hc. cbn [bind].
  destruct symbol as [|c1 [|c2 [|c3 s]]]; [| | |cbn [length] in Hs; lia].
  - exists n, [x1; x2; x3], [None; None]. split; [assumption|]. split; [assumption|]. split; reflexivity.
  - exists n, [x1; x2; x3], [None]. split; [assumption|]. split; [assumption|]. split; reflexivity.
  - exists n, [x1; x2; x3], []. split; [assumption|]. split; [assumption|]. split; reflexivity.
Qed.

(** ** Gains *)
Definition put_parts (fract_digits ip fp : Z) : option text :=
  let '(ipart_max, ipart_align, fpart_max, fpart_align) :=
    if fract_digits =? 2 then (99, 1, 99, 1) else (9, 0, 999, 2) in
  b <- int_to_ascii_align_right disp_buf 0 ipart_align ip 0 ipart_max 32 ;;
  b <- wr_char b (4 - fract_digits) 46 ;;
  int_to_ascii_align_right b (4 - fract_digits + 1) fpart_align fp 0 fpart_max 48.
Definition fixpt_check2 (x : Z) : bool :=
  let ip := x / 64 in let fr := x mod 64 in
  match fixpt_get_dec_fract fr 2 with
  | None => false
  | Some fp =>
    (2 * Z.abs (64 * fp - 100 * fr) <=? 64) && (s16 fp =? fp) &&
    match put_parts 2 ip fp with
    | Some [Some a; Some b; Some 46; Some c; Some d; Some 0] =>
      right_alignedb 2 ip [a; b] && zero_filledb 2 fp [c; d]
    | _ => false
    end
  end.
Definition fixpt_check3 (x : Z) : bool :=
  let ip := x / 64 in let fr := x mod 64 in
  match fixpt_get_dec_fract fr 3 with
  | None => false
  | Some fp =>
    (2 * Z.abs (64 * fp - 1000 * fr) <=? 64) && (s16 fp =? fp) &&
    match put_parts 3 ip fp with
    | Some [Some a; Some 46; Some b; Some c; Some d; Some 0] =>
      right_alignedb 1 ip [a] && zero_filledb 3 fp [b; c; d]
    | _ => false
    end
  end.
Lemma fixpt_check2_all : forallb fixpt_check2 (zseq 0 (Z.to_nat 6400)) = true.
Proof. vm_compute. reflexivity. Qed.
Lemma fixpt_check3_all : forallb fixpt_check3 (zseq 0 (Z.to_nat 640)) = true.
Proof. vm_compute. reflexivity. Qed.

Lemma dec_fract_mod v n : 0 <= v <= 8388607 ->
  fixpt_get_dec_fract v n = fixpt_get_dec_fract (v mod 64) n.
Proof.
  intros H. unfold fixpt_get_dec_fract, fixpt_abs.
  replace (v <? 0) with false by lia. replace (v mod 64 <? 0) with false by lia.
  change 63 with (Z.ones 6). rewrite !Z.land_ones by lia. change (2 ^ 6) with 64.
  rewrite (Z.mod_mod v 64) by lia. reflexivity.
Qed.

Lemma put_fixpt2_ok v : 0 <= v <= 8388607 ->
  exists i f l1 l2, i = Z.min 99 (v / 64) /\ 2 * Z.abs (64 * f - 100 * (v mod 64)) <= 64 /\
    right_aligned 2 i l1 /\ zero_filled 2 f l2 /\
    menu_put_fixpt disp_buf v 2 = Some (map Some (l1 ++ [46] ++ l2 ++ [0])).
Proof.
  intros Hv. set (i := Z.min 99 (v / 64)).
  assert (Hi : 0 <= i <= 99) by (unfold i; lia).
  assert (Hm : 0 <= v mod 64 < 64) by (apply Z.mod_pos_bound; lia).
  pose proof (range_check _ _ _ fixpt_check2_all (64 * i + v mod 64)) as Hc.
  rewrite Z2Nat.id in Hc by lia. specialize (Hc ltac:(clearbody i; clear - Hi Hm; lia)).
  unfold fixpt_check2 in Hc. cbv zeta in Hc.
  replace ((64 * i + v mod 64) / 64) with i in Hc by (clearbody i; clear - Hm; generalize dependent (v mod 64); intros; lia).
  replace ((64 * i + v mod 64) mod 64) with (v mod 64) in Hc by (clearbody i; clear - Hm; generalize dependent (v mod 64); intros; lia).
  rewrite <- dec_fract_mod in Hc by assumption.
  unfold menu_put_fixpt, fixpt_get_int_part. cbn [Z.eqb Pos.eqb].
  change (2 =? 2) with true. cbv iota.
  replace (0 <=? v) with true by lia. cbn [bind].
  destruct (fixpt_get_dec_fract v 2) as [fp|] eqn:Ef; [|discriminate].
  apply andb_prop in Hc as [Hc H3]. apply andb_prop in Hc as [H1 H2].
  apply Z.leb_le in H1. apply Z.eqb_eq in H2. cbn [bind]. rewrite H2.
  rewrite shiftr6, cclamp_limit by lia.
  replace (limit 0 99 (v / 64)) with i by (unfold limit, i; clear - Hv; lia).
  rewrite (s16_id i) by lia.
  unfold put_parts in H3. change (2 =? 2) with true in H3. cbv iota in H3.
  destruct (int_to_ascii_align_right disp_buf 0 1 i 0 99 32) as [b|]; [|discriminate].
  cbn [bind] in H3 |- *.
  destruct (wr_char b (4 - 2) 46) as [b1|]; [|discriminate]. cbn [bind] in H3 |- *.
  destruct (int_to_ascii_align_right b1 (4 - 2 + 1) 1 fp 0 99 48) as [b2|]; [|discriminate].
  destruct b2 as [|[x1|] b2]; try discriminate. destruct b2 as [|[x2|] b2]; try discriminate.
  destruct b2 as [|[x3|] b2]; try discriminate. destruct (Z.eq_dec x3 46) as [->|N3].
  2:{ exfalso. destruct x3 as [|q|q]; try discriminate.
      repeat (destruct q as [q|q|]; try discriminate). apply N3. reflexivity. }
  destruct b2 as [|[x4|] b2]; try discriminate. destruct b2 as [|[x5|] b2]; try discriminate.
  destruct b2 as [|[x6|] b2]; try discriminate. destruct x6; try discriminate.
  destruct b2; try discriminate.
  apply andb_prop in H3 as [H3 H4].
  exists i, fp, [x1; x2], [x4; x5]. split; [reflexivity|]. split; [assumption|].
  split; [apply right_alignedb_ok; assumption|]. split; [apply zero_filledb_ok; assumption|]. reflexivity.
Qed.

Lemma put_fixpt3_ok v : 0 <= v <= 8388607 ->
  exists i f l1 l2, i = Z.min 9 (v / 64) /\ 2 * Z.abs (64 * f - 1000 * (v mod 64)) <= 64 /\
    right_aligned 1 i l1 /\ zero_filled 3 f l2 /\
    menu_put_fixpt disp_buf v 3 = Some (map Some (l1 ++ [46] ++ l2 ++ [0])).
Proof.
  intros Hv. set (i := Z.min 9 (v / 64)).
  assert (Hi : 0 <= i <= 9) by (unfold i; lia).
  assert (Hm : 0 <= v mod 64 < 64) by (apply Z.mod_pos_bound; lia).
  pose proof (range_check _ _ _ fixpt_check3_all (64 * i + v mod 64)) as Hc.
  rewrite Z2Nat.id in Hc by lia. specialize (Hc ltac:(clearbody i; clear - Hi Hm; lia)).
  unfold fixpt_check3 in Hc. cbv zeta in Hc.
  replace ((64 * i + v mod 64) / 64) with i in Hc by (clearbody i; clear - Hm; generalize dependent (v mod 64); intros; lia).
  replace ((64 * i + v mod 64) mod 64) with (v mod 64) in Hc by (clearbody i; clear - Hm; generalize dependent (v mod 64); intros; lia).
  rewrite <- dec_fract_mod in Hc by assumption.
  unfold menu_put_fixpt, fixpt_get_int_part.
  change (3 =? 2) with false. cbv iota.
  replace (0 <=? v) with true by lia. cbn [bind].
  destruct (fixpt_get_dec_fract v 3) as [fp|] eqn:Ef; [|discriminate].
  apply andb_prop in Hc as [Hc H3]. apply andb_prop in Hc as [H1 H2].
  apply Z.leb_le in H1. apply Z.eqb_eq in H2. cbn [bind]. rewrite H2.
  rewrite shiftr6, cclamp_limit by lia.
  replace (limit 0 9 (v / 64)) with i by (unfold limit, i; clear - Hv; lia).
  rewrite (s16_id i) by lia.
  unfold put_parts in H3. change (3 =? 2) with false in H3. cbv iota in H3.
  destruct (int_to_ascii_align_right disp_buf 0 0 i 0 9 32) as [b|]; [|discriminate].
  cbn [bind] in H3 |- *.
  destruct (wr_char b (4 - 3) 46) as [b1|]; [|discriminate]. cbn [bind] in H3 |- *.
  destruct (int_to_ascii_align_right b1 (4 - 3 + 1) 2 fp 0 999 48) as [b2|]; [|discriminate].
  destruct b2 as [|[x1|] b2]; try discriminate. destruct b2 as [|[x3|] b2]; try discriminate.
  destruct (Z.eq_dec x3 46) as [->|N3].
  2:{ exfalso. destruct x3 as [|q|q]; try discriminate.
      repeat (destruct q as [q|q|]; try discriminate). apply N3. reflexivity. }
  destruct b2 as [|[x4|] b2]; try discriminate. destruct b2 as [|[x5|] b2]; try discriminate.
  destruct b2 as [|[x6|] b2]; try discriminate. destruct b2 as [|[x7|] b2]; try discriminate.
  destruct x7; try discriminate.
  destruct b2; try discriminate.
  apply andb_prop in H3 as [H3 H4].
  exists i, fp, [x1], [x4; x5; x6]. split; [reflexivity|]. split; [assumption|].
  split; [apply right_alignedb_ok; assumption|]. split; [apply zero_filledb_ok; assumption|]. reflexivity.
Qed.

(** ** From characters to segments *)
Definition segval (im : iomap) (digit : Z) : option Z :=
  segment_mask <- char_mask (Z.land digit 127) ;;
  let segment_mask := if Z.land digit 128 =? 0 then segment_mask else or8 segment_mask 128 in
  map_segments (im_masks im) segment_mask SSEG_IDS 0.
Lemma digit_set_eq dd im c : dd_iomap dd = Some im ->
  sseg_digit_set dd c = (v <- segval im c ;; Some (set_dd_set dd v)).
Proof.
  intros H. unfold sseg_digit_set, segval. rewrite H. cbn [bind].
  destruct (char_mask (Z.land c 127)); cbn [bind]; reflexivity.
Qed.

Definition all_segs : list seg := [SA; SB; SC; SD; SE; SF; SG; SDP].
Definition holdsb (i v c : Z) (dot : bool) : bool :=
  (0 <=? v) && (v <=? 255) &&
  forallb (fun s => Bool.eqb (Z.testbit v (seg_pin i s)) (lit c dot s)) all_segs.
Lemma holdsb_ok i v c dot : holdsb i v c dot = true -> holds i v c dot.
Proof.
  unfold holdsb, holds, is_u8. intros H. apply andb_prop in H as [H H2]. split; [lia|].
  rewrite forallb_forall in H2. intros s. apply eqb_prop. apply H2.
  destruct s; cbn; tauto.
Qed.
Definition seg_check (c : Z) : bool :=
  forallb (fun i =>
    match zget digit_iomaps i with
    | None => false
    | Some im =>
      match segval im c, segval im (Z.lor c 128) with
      | Some v, Some v' => holdsb i v c false && holdsb i v' c true &&
                           (Z.land (Z.lor c 128) 127 =? c) && (Z.land c 127 =? c) &&
                           (Z.lor (Z.lor c 128) 128 =? Z.lor c 128)
      | _, _ => false
      end
    end) [0; 1; 2; 3].
Lemma seg_check_all : forallb seg_check (zseq 0 (Z.to_nat 128)) = true.
Proof. vm_compute. reflexivity. Qed.

(** Character with its decimal point, as display_show hands it to sseg_digit_set. *)
Definition pack (c : Z) (dot : bool) : Z := if dot then Z.lor c 128 else c.
Lemma segval_ok i im c dot : 0 <= i < 4 -> zget digit_iomaps i = Some im -> 0 <= c <= 127 ->
  exists v, segval im (pack c dot) = Some v /\ holds i v c dot.
Proof.
  intros Hi Him Hc.
  pose proof (range_check _ _ _ seg_check_all c) as H. rewrite Z2Nat.id in H by lia.
  specialize (H ltac:(lia)). unfold seg_check in H. rewrite forallb_forall in H.
  specialize (H i). rewrite Him in H.
  assert (Hin : In i [0; 1; 2; 3]) by (cbn; lia). specialize (H Hin).
  destruct (segval im c) as [v|] eqn:E1; [|discriminate].
  destruct (segval im (Z.lor c 128)) as [v'|] eqn:E2; [|discriminate].
  apply andb_prop in H as [H _]. apply andb_prop in H as [H _]. apply andb_prop in H as [H _].
  apply andb_prop in H as [H1 H2].
  destruct dot; cbn [pack].
  - exists v'. split; [assumption|]. apply holdsb_ok; assumption.
  - exists v. split; [assumption|]. apply holdsb_ok; assumption.
Qed.
Lemma bits_ok c : 0 <= c <= 127 ->
  Z.land (Z.lor c 128) 127 = c /\ Z.land c 127 = c /\ Z.lor (Z.lor c 128) 128 = Z.lor c 128.
Proof.
  intros Hc.
  pose proof (range_check _ _ _ seg_check_all c) as H. rewrite Z2Nat.id in H by lia.
  specialize (H ltac:(lia)). unfold seg_check in H. rewrite forallb_forall in H.
  specialize (H 0 (or_introl eq_refl)). destruct (zget digit_iomaps 0); [|discriminate].
  destruct (segval i c), (segval i (Z.lor c 128)); try discriminate.
  apply andb_prop in H as [H H3]. apply andb_prop in H as [H H2]. apply andb_prop in H as [H H1].
  apply Z.eqb_eq in H1, H2, H3. repeat split; assumption.
Qed.

(** Reading a NUL terminated string *)
Lemma rd_char_app pre c rest : rd_char (pre ++ Some c :: rest) (Z.of_nat (length pre)) = Some c.
Proof.
  unfold rd_char, zget. replace (Z.of_nat (length pre) <? 0) with false by lia.
  rewrite Nat2Z.id, nth_error_app2, Nat.sub_diag by lia. reflexivity.
Qed.

(** What the loop of display_show leaves in the digits [k, k+1, ...] *)
Lemma glyphs_nonempty c r : exists dot t, glyphs (c :: r) = (c, dot) :: t.
Proof.
  cbn [glyphs]. destruct r as [|d r']; [eauto|]. destruct (d =? 46); eauto.
Qed.

Lemma show_digits_ok : forall (ims : list iomap) (ds : list digit) (s : list Z) (pre rest : text) (k : nat),
  map (fun g => dd_iomap (g_sseg g)) ds = map Some ims ->
  (forall j im, nth_error ims j = Some im -> zget digit_iomaps (Z.of_nat (k + j)) = Some im) ->
  (k + length ims <= 4)%nat ->
  Forall (fun c => 1 <= c <= 127) s ->
  exists ds', show_digits ds (pre ++ map Some (s ++ [0]) ++ rest) (Z.of_nat (length pre)) = Some ds' /\
    length ds' = length ds /\
    forall j g, nth_error ds j = Some g -> exists v,
      nth_error ds' j = Some (set_g_sseg g (set_dd_set (g_sseg g) v)) /\
      let '(c, dot) := glyph_at s j (g_dpforce g) (g_dpon g) in
      holds (Z.of_nat (k + j)) v c dot.
Proof.
  induction ims as [|im ims IH]; intros ds s pre rest k Hm Him Hk Hs.
  - destruct ds; [|discriminate]. exists []. split; [reflexivity|]. split; [reflexivity|].
    intros j g H. destruct j; discriminate.
  - destruct ds as [|g ds]; [discriminate|]. cbn [map] in Hm. inversion Hm as [[Hg Hms]].
    cbn [length] in Hk.
    assert (Him0 : zget digit_iomaps (Z.of_nat k) = Some im).
    { rewrite <- (Him 0%nat im eq_refl). f_equal. lia. }
    assert (Him' : forall j im0, nth_error ims j = Some im0 ->
               zget digit_iomaps (Z.of_nat (S k + j)) = Some im0).
    { intros j im0 Hj. rewrite <- (Him (S j) im0 Hj). f_equal. lia. }
    cbn [show_digits].
    (* generic end of the argument *)
    assert (Hfin : forall c dot s' pre' tail,
      pre ++ map Some (s ++ [0]) ++ rest = pre' ++ map Some (s' ++ [0]) ++ tail ->
      Forall (fun c => 1 <= c <= 127) s' -> 0 <= c <= 127 ->
      glyph_at s 0 (g_dpforce g) (g_dpon g) = (c, dot) ->
      (forall j f o, glyph_at s (S j) f o = glyph_at s' j f o) ->
      exists ds', (dd <- sseg_digit_set (g_sseg g) (pack c dot) ;;
                   r <- show_digits ds (pre ++ map Some (s ++ [0]) ++ rest) (Z.of_nat (length pre')) ;;
                   Some (set_g_sseg g dd :: r)) = Some ds' /\
        length ds' = length (g :: ds) /\
        forall j g0, nth_error (g :: ds) j = Some g0 -> exists v,
          nth_error ds' j = Some (set_g_sseg g0 (set_dd_set (g_sseg g0) v)) /\
          let '(c, dot) := glyph_at s j (g_dpforce g0) (g_dpon g0) in
          holds (Z.of_nat (k + j)) v c dot).
    { intros c dot s' pre' tail Hbuf Hs' Hc H0 HS.
      destruct (segval_ok (Z.of_nat k) im c dot ltac:(lia) Him0 Hc) as [v [Ev Hv]].
      rewrite (digit_set_eq _ _ _ Hg), Ev. cbn [bind].
      destruct (IH ds s' pre' tail (S k) Hms Him' ltac:(lia) Hs') as [ds' [E [Hl Hd]]].
      rewrite Hbuf, E. cbn [bind].
      exists (set_g_sseg g (set_dd_set (g_sseg g) v) :: ds').
      split; [reflexivity|]. split; [cbn [length]; congruence|].
      intros j g0 Hj. destruct j as [|j].
      - cbn [nth_error] in Hj. inversion Hj; subst g0. exists v. split; [reflexivity|].
        rewrite H0. rewrite Nat.add_0_r. assumption.
      - cbn [nth_error] in Hj. destruct (Hd j g0 Hj) as [v0 [E0 H00]]. exists v0.
        split; [assumption|]. rewrite HS.
        replace (k + S j)%nat with (S k + j)%nat by lia. assumption. }
    destruct s as [|c s].
    + (* end of the string *)
      assert (H0 : rd_char (pre ++ map Some ([] ++ [0]) ++ rest) (Z.of_nat (length pre)) = Some 0)
        by apply rd_char_app.
      rewrite H0. cbn [bind]. change (0 =? 0) with true. cbv iota. cbn [bind].
      apply (Hfin 32 false [] pre rest).
      * reflexivity.
      * apply Forall_nil.
      * lia.
      * reflexivity.
      * intros j f o. unfold glyph_at. cbn [glyphs]. destruct j; reflexivity.
    + inversion Hs as [|x y Hc Hs' [Hx Hy]]; subst x y.
      destruct (bits_ok c ltac:(lia)) as [Hb1 [Hb2 Hb3]].
      assert (H0 : rd_char (pre ++ map Some ((c :: s) ++ [0]) ++ rest) (Z.of_nat (length pre)) = Some c)
        by apply rd_char_app.
      rewrite H0. cbn [bind].
      replace (c =? 0) with false by (symmetry; apply Z.eqb_neq; lia). cbv iota.
      assert (Hrd : rd_char (pre ++ map Some ((c :: s) ++ [0]) ++ rest) (Z.of_nat (length pre) + 1)
                    = Some (hd 0 s)).
      { change (map Some ((c :: s) ++ [0])) with (Some c :: map Some (s ++ [0])).
        rewrite <- app_comm_cons. replace (pre ++ Some c :: map Some (s ++ [0]) ++ rest)
          with ((pre ++ [Some c]) ++ map Some (s ++ [0]) ++ rest)
          by (rewrite <- app_assoc; reflexivity).
        replace (Z.of_nat (length pre) + 1) with (Z.of_nat (length (pre ++ [Some c])))
          by (rewrite app_length; cbn [length]; lia).
        destruct s as [|d s]; cbn [app map hd]; apply rd_char_app. }
      rewrite Hrd. cbn [bind].
      destruct (hd 0 s =? 46) eqn:Ed.
      * (* followed by a decimal point *)
        destruct s as [|d s]; [discriminate|]. cbn [hd] in Ed. apply Z.eqb_eq in Ed. subst d.
        replace (if g_dpforce g then if g_dpon g then Z.lor (Z.lor c 128) 128
                 else Z.land (Z.lor c 128) 127 else Z.lor c 128)
          with (pack c (if g_dpforce g then g_dpon g else true))
          by (rewrite Hb1, Hb3; destruct (g_dpforce g), (g_dpon g); reflexivity).
        cbn [bind].
        replace (Z.of_nat (length pre) + 1 + 1) with (Z.of_nat (length (pre ++ [Some c; Some 46])))
          by (rewrite app_length; cbn [length]; lia).
        apply (Hfin c (if g_dpforce g then g_dpon g else true) s (pre ++ [Some c; Some 46]) rest).
        -- rewrite <- app_assoc. reflexivity.
        -- inversion Hs'; assumption.
        -- lia.
        -- reflexivity.
        -- intros j f o. unfold glyph_at. reflexivity.
      * replace (if g_dpforce g then if g_dpon g then Z.lor c 128 else Z.land c 127 else c)
          with (pack c (if g_dpforce g then g_dpon g else false))
          by (rewrite Hb2; destruct (g_dpforce g), (g_dpon g); reflexivity).
        cbn [bind].
        replace (Z.of_nat (length pre) + 1) with (Z.of_nat (length (pre ++ [Some c])))
          by (rewrite app_length; cbn [length]; lia).
        assert (Hgl : glyphs (c :: s) = (c, false) :: glyphs s).
        { destruct s as [|d s]; [reflexivity|]. cbn [glyphs]. cbn [hd] in Ed. rewrite Ed. reflexivity. }
        apply (Hfin c (if g_dpforce g then g_dpon g else false) s (pre ++ [Some c]) rest).
        -- rewrite <- app_assoc. reflexivity.
        -- assumption.
        -- lia.
        -- unfold glyph_at. rewrite Hgl. reflexivity.
        -- intros j f o. unfold glyph_at. rewrite Hgl. reflexivity.
Qed.

Lemma display_show_ok d s rest : wired d -> Forall (fun c => 1 <= c <= 127) s ->
  exists d', display_show d (map Some (s ++ [0]) ++ rest) = Some d' /\
    d_enabled d' = d_enabled d /\ d_mux d' = d_mux d /\ d_timer d' = d_timer d /\
    length (d_digits d') = length (d_digits d) /\
    forall i g, nth_error (d_digits d) i = Some g -> exists v,
      nth_error (d_digits d') i = Some (set_g_sseg g (set_dd_set (g_sseg g) v)) /\
      let '(c, dot) := glyph_at s i (g_dpforce g) (g_dpon g) in
      holds (Z.of_nat i) v c dot.
Proof.
  intros Hw Hs.
  destruct (show_digits_ok digit_iomaps (d_digits d) s [] rest 0 Hw) as [ds' [E [Hl Hd]]].
  - intros j im H. unfold zget. replace (Z.of_nat (0 + j) <? 0) with false by lia.
    rewrite Nat2Z.id. assumption.
  - reflexivity.
  - assumption.
  - unfold display_show. change 0 with (Z.of_nat (length (@nil (option Z)))) at 2.
    change (map Some (s ++ [0]) ++ rest) with ([] ++ map Some (s ++ [0]) ++ rest).
    rewrite E. cbn [bind]. exists (set_d_digits d ds'). repeat split; assumption.
Qed.

Lemma digits_distinct : forall a b, is_digit a -> is_digit b ->
  (forall s, lit a false s = lit b false s) -> a = b.
Proof.
  intros a b Ha Hb H. unfold is_digit in *.
  assert (Hc : forallb (fun a => forallb (fun b =>
             (a =? b) || negb (forallb (fun s => Bool.eqb (lit a false s) (lit b false s)) all_segs))
             (zseq 48 (Z.to_nat 10))) (zseq 48 (Z.to_nat 10)) = true) by (vm_compute; reflexivity).
  assert (Hb' : forallb (fun s => Bool.eqb (lit a false s) (lit b false s)) all_segs = true).
  { apply forallb_forall. intros s _. rewrite H. apply eqb_reflx. }
  pose proof (range_check _ _ _ Hc a) as H1. rewrite Z2Nat.id in H1 by lia.
  specialize (H1 ltac:(lia)). pose proof (range_check _ _ _ H1 b) as H2.
  rewrite Z2Nat.id in H2 by lia. specialize (H2 ltac:(lia)). cbv beta in H2.
  rewrite Hb' in H2. cbn [negb] in H2. rewrite orb_false_r in H2. apply Z.eqb_eq. assumption.
Qed.

Lemma put_temp_wraps : exists temp, is_s24 temp /\ 64 * 999 < temp /\
  menu_put_temp disp_buf temp [67; 46] = Some (map Some [45; 57; 57; 67; 46; 0]).
Proof.
  exists 2097152. split; [unfold is_s24; lia|]. split; [lia|]. vm_compute. reflexivity.
Qed.

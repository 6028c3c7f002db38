(** * Proofs about the simulator: the ring buffer, the lines, the decoder *)
From Coq Require Import ZArith List Bool Lia ZifyBool.
From Verif Require Import Base PBase MDebug SpecHost PDebug MTele SpecTele PTele PTele2 MSim SpecSim.
Import ListNotations.
Open Scope Z_scope.

(** ** The ring buffer *)
Definition holds (f : fifo) (rest : list Z) : Prop :=
  0 <= u_rd f < 4096 /\ u_wr f = (u_rd f + Z.of_nat (length rest)) mod 4096 /\ Z.of_nat (length rest) <= 4095 /\
  forall k b, nth_error rest k = Some b -> u_mem f ((u_rd f + Z.of_nat k) mod 4096) = b.
Lemma bump_eq i : 0 <= i < 4096 -> bump i = (i + 1) mod 4096.
Proof. intros H. unfold bump, UART_BUF. destruct (Z.leb_spec 4096 (i + 1)); lia. Qed.
Lemma in_buf_true i : 0 <= i < 4096 -> in_buf i = true.
Proof. unfold in_buf, UART_BUF. lia. Qed.
Lemma holds_reset : holds fifo_reset [].
Proof. unfold holds. cbn. repeat split; try lia. intros [|k] b E; discriminate E. Qed.
Lemma holds_write f rest b : holds f rest -> Z.of_nat (length rest) < 4095 -> exists f', uart_write f b = Some f' /\ holds f' (rest ++ [b]).
Proof.
  intros (H1 & H2 & H3 & H4) L. unfold uart_write. assert (B : 0 <= u_wr f < 4096) by lia. rewrite in_buf_true by exact B.
  eexists. split; [reflexivity|]. unfold holds. cbn [u_rd u_wr u_mem]. rewrite app_length. cbn [length]. split; [exact H1|]. split; [|split; [lia|]].
  - rewrite bump_eq by exact B. rewrite H2. lia.
  - intros k c E. destruct (Nat.eq_dec k (length rest)) as [->|N].
    + rewrite nth_error_app2 in E by lia. rewrite Nat.sub_diag in E. cbn in E. injection E as <-. rewrite <- H2, Z.eqb_refl. reflexivity.
    + assert (Lk : (k < length rest)%nat).
      { assert (Hk : nth_error (rest ++ [b]) k <> None) by congruence. apply nth_error_Some in Hk. rewrite app_length in Hk. cbn in Hk. lia. }
      rewrite nth_error_app1 in E by exact Lk. destruct (Z.eqb_spec ((u_rd f + Z.of_nat k) mod 4096) (u_wr f)) as [Q|_]; [lia|]. exact (H4 k c E).
Qed.
Lemma holds_read n : forall f rest, holds f rest -> exists f', uart_get_tx f n = Some (f', firstn n rest) /\ holds f' (skipn n rest).
Proof.
  induction n as [|n IH]; intros f rest H; [exists f; split; [reflexivity|exact H]|]. cbn [uart_get_tx]. destruct H as (H1 & H2 & H3 & H4). destruct rest as [|b rest].
  - cbn [length firstn skipn] in *. replace (u_rd f =? u_wr f) with true by lia. exists f. split; [reflexivity|]. split; [exact H1|]. split; [exact H2|]. split; [exact H3|exact H4].
  - cbn [length firstn skipn] in *. replace (u_rd f =? u_wr f) with false by lia. rewrite in_buf_true by exact H1.
    assert (Hb : u_mem f (u_rd f) = b) by (rewrite <- (H4 0%nat b eq_refl); f_equal; lia).
    destruct (IH (mkFifo (u_mem f) (u_wr f) (bump (u_rd f))) rest) as (f' & E & K).
    + unfold holds. cbn [u_rd u_wr u_mem]. rewrite bump_eq by exact H1. split; [lia|]. split; [lia|]. split; [lia|]. intros k c E. rewrite <- (H4 (S k) c E). f_equal. lia.
    + rewrite E. cbn [bind]. exists f'. rewrite Hb. split; [reflexivity|exact K].
Qed.
Lemma piped_holds f s g : piped f s g -> exists rest, s = g ++ rest /\ holds f rest.
Proof.
  induction 1 as [|f s g b f' P IH L E|f s g n f' l P IH E].
  - exists []. split; [reflexivity|exact holds_reset].
  - destruct IH as (rest & -> & H). rewrite app_length in L. destruct (holds_write f rest b H ltac:(lia)) as (f1 & E1 & H1). rewrite E in E1. apply Some_inj in E1. subst f1.
    exists (rest ++ [b]). split; [rewrite app_assoc; reflexivity|exact H1].
  - destruct IH as (rest & -> & H). destruct (holds_read n f rest H) as (f1 & E1 & H1). rewrite E in E1. apply Some_inj in E1. injection E1 as <- ->.
    exists (skipn n rest). split; [rewrite <- app_assoc, firstn_skipn; reflexivity|exact H1].
Qed.
Lemma fifo_faithful f s g : piped f s g -> exists rest, s = g ++ rest /\ (length rest <= Z.to_nat 4095)%nat /\
  (forall n, exists f', uart_get_tx f n = Some (f', firstn n rest)) /\ (forall b, exists f', uart_write f b = Some f').
Proof.
  intros P. destruct (piped_holds f s g P) as (rest & E & H). exists rest. split; [exact E|]. pose proof H as (H1 & H2 & H3 & _). split; [lia|]. split.
  - intros n. destruct (holds_read n f rest H) as (f' & K & _). exists f'. exact K.
  - intros b. unfold uart_write. rewrite in_buf_true by lia. eexists. reflexivity.
Qed.
Lemma writes_wr l : forall f, 0 <= u_wr f < 4096 -> exists f', uart_writes f l = Some f' /\ u_rd f' = u_rd f /\ u_wr f' = (u_wr f + Z.of_nat (length l)) mod 4096.
Proof.
  induction l as [|b l IH]; intros f H; [exists f; cbn; repeat split; lia|]. cbn [uart_writes length]. unfold uart_write. rewrite in_buf_true by exact H. cbn [bind].
  destruct (IH (mkFifo (fun i => if i =? u_wr f then b else u_mem f i) (bump (u_wr f)) (u_rd f))) as (f' & E & R & W); cbn [u_wr u_rd] in *.
  - rewrite bump_eq by exact H. lia.
  - exists f'. split; [exact E|]. split; [exact R|]. rewrite W, bump_eq by exact H. lia.
Qed.
Lemma fifo_overrun f s l : piped f s s -> length l = Z.to_nat 4096 -> exists f', uart_writes f l = Some f' /\ forall n, uart_get_tx f' n = Some (f', []).
Proof.
  intros P L. destruct (piped_holds f s s P) as (rest & E & (H1 & H2 & _)). assert (rest = []) as -> by (apply (f_equal (@length Z)) in E; rewrite app_length in E; destruct rest; [reflexivity|cbn in E; lia]).
  cbn [length] in H2. destruct (writes_wr l f ltac:(lia)) as (f' & E' & R & W). exists f'. split; [exact E'|]. intros [|n]; [reflexivity|]. cbn [uart_get_tx].
  replace (u_rd f' =? u_wr f') with true by lia. reflexivity.
Qed.
Lemma writes_piped l : forall f s g, piped f s g -> (length s + length l <= length g + Z.to_nat 4095)%nat -> exists f', uart_writes f l = Some f' /\ piped f' (s ++ l) g.
Proof.
  induction l as [|b l IH]; intros f s g P L; [exists f; rewrite app_nil_r; split; [reflexivity|exact P]|]. cbn [length uart_writes] in *.
  destruct (fifo_faithful f s g P) as (_ & _ & _ & _ & W). destruct (W b) as (f1 & E1). rewrite E1. cbn [bind].
  destruct (IH f1 (s ++ [b]) g) as (f' & E' & P'); [apply (piped_write f s g b f1 P); [lia|exact E1]|rewrite app_length; cbn; lia|].
  exists f'. split; [exact E'|]. rewrite <- app_assoc in P'. exact P'.
Qed.

(** ** Lines *)
Definition crlf (s : list Z) : list Z := s ++ [13; 10].
Definition no13 (s : list Z) : Prop := Forall (fun c => c <> 13) s.
Lemma cut_crlf_line s r : no13 s -> cut_crlf (s ++ 13 :: 10 :: r) = Some (s, r).
Proof.
  induction 1 as [|c s H _ IH]; [reflexivity|]. cbn [app cut_crlf]. replace (c =? 13) with false by lia. cbn [andb]. rewrite IH. reflexivity.
Qed.
Lemma cut_crlf_none s : lines_in s = O -> cut_crlf s = None.
Proof.
  induction s as [|c t IH]; [reflexivity|]. cbn [lines_in cut_crlf]. destruct ((c =? 13) && _); [discriminate|]. intros H. rewrite IH by exact H. reflexivity.
Qed.
Lemma lines_line s r : no13 s -> lines_in (s ++ 13 :: 10 :: r) = S (lines_in r).
Proof.
  induction 1 as [|c s H _ IH]; [reflexivity|]. cbn [app lines_in]. replace (c =? 13) with false by lia. cbn [andb]. exact IH.
Qed.
Lemma lines_no13 s : no13 s -> lines_in s = O.
Proof. induction 1 as [|c s H _ IH]; [reflexivity|]. cbn [lines_in]. replace (c =? 13) with false by lia. cbn [andb]. exact IH. Qed.
Lemma lines_part s : no13 s -> lines_in (s ++ [13]) = O.
Proof. induction 1 as [|c s H _ IH]; [reflexivity|]. cbn [app lines_in]. replace (c =? 13) with false by lia. cbn [andb]. exact IH. Qed.
Lemma lines_skip l r : Forall no13 l -> lines_in (concat (map crlf l) ++ r) = (length l + lines_in r)%nat.
Proof.
  induction 1 as [|s l H _ IH]; [reflexivity|]. cbn [map concat length]. unfold crlf at 1. rewrite <- !app_assoc. cbn [app]. rewrite lines_line by exact H.
  cbn [plus]. f_equal. exact IH.
Qed.
(** A beginning of a line and what follows it *)
Lemma prefix_line s r b t : no13 s -> s ++ 13 :: 10 :: r = b ++ t -> lines_in b = O \/ exists b', b = s ++ 13 :: 10 :: b' /\ r = b' ++ t.
Proof.
  intros H. revert b. induction H as [|c s Hc H IH]; intros b E.
  - destruct b as [|x [|y b]]; [left; reflexivity|left; cbn in *; injection E as <- _; reflexivity|]. cbn in E. injection E as <- <- ->. right. exists b. split; reflexivity.
  - destruct b as [|x b]; [left; reflexivity|]. cbn in E. injection E as <- E. destruct (IH b E) as [L|(b' & -> & ->)].
    + left. cbn [lines_in]. replace (c =? 13) with false by lia. exact L.
    + right. exists b'. split; reflexivity.
Qed.
(** What a line is to the decoder *)
Definition seg_line (s : list Z) : list Z := match s with [] => [] | _ => strip (filter (fun c => c <? 128) s) end.
Definition seg_step (st : (cell -> Z * Z) * Z) (s : list Z) : (cell -> Z * Z) * Z := sim_line (fst st) (snd st) (seg_line s).
Definition follows (S : list (list Z)) (got : list Z) (k : nat) (q : pysim) : Prop :=
  got = concat (map crlf (firstn k S)) ++ q_buf q /\ (k <= length S)%nat /\ (k <= lines_in got)%nat /\
  (q_val q, q_err q) = fold_left seg_step (firstn k S) (sim_values, 0).
Lemma firstn_S {A} k (l : list A) x r : skipn k l = x :: r -> firstn (S k) l = firstn k l ++ [x] /\ skipn (S k) l = r.
Proof.
  revert l. induction k as [|k IH]; intros l E; destruct l as [|a l]; try discriminate E.
  - cbn in *. injection E as <- <-. split; reflexivity.
  - cbn [skipn] in E. destruct (IH l E) as (E1 & E2). split; [|exact E2].
    change (firstn (S (S k)) (a :: l)) with (a :: firstn (S k) l). rewrite E1. reflexivity.
Qed.
Lemma handle_follows S got k q d tl : Forall no13 S -> follows S got k q -> concat (map crlf S) = (got ++ d) ++ tl ->
  follows S (got ++ d) (match d with [] => k | _ => Nat.min (Datatypes.S k) (lines_in (got ++ d)) end) (sim_handle q d).
Proof.
  intros N (F1 & F2 & F3 & F4) E. unfold sim_handle, sim_get_line. destruct d as [|x d0] eqn:Ed.
  { cbn [sim_line]. rewrite app_nil_r. split; [exact F1|]. split; [exact F2|]. split; [exact F3|]. exact F4. }
  rewrite <- Ed in *. clear x d0 Ed.
  assert (Ns : Forall no13 (firstn k S)) by (rewrite <- (firstn_skipn k S) in N; apply Forall_app in N; apply N).
  assert (Nr : Forall no13 (skipn k S)) by (rewrite <- (firstn_skipn k S) in N; apply Forall_app in N; apply N).
  assert (Lk : length (firstn k S) = k) by (apply firstn_length_le; exact F2).
  assert (Lg : lines_in (got ++ d) = (k + lines_in (q_buf q ++ d))%nat) by (rewrite F1, <- app_assoc, lines_skip, Lk by exact Ns; reflexivity).
  assert (Er : concat (map crlf (skipn k S)) = (q_buf q ++ d) ++ tl).
  { rewrite <- (firstn_skipn k S) in E at 1. rewrite map_app, concat_app in E. rewrite F1, <- !app_assoc in E. apply app_inv_head in E. rewrite <- app_assoc. exact E. }
  assert (Z : lines_in (q_buf q ++ d) = O -> follows S (got ++ d) (Nat.min (Datatypes.S k) (lines_in (got ++ d))) (let '(line, buf) := match cut_crlf (q_buf q ++ d) with
      | Some (line, rest) => match line with [] => ([], rest) | _ => (strip (filter (fun c => c <? 128) line), rest) end | None => ([], q_buf q ++ d) end in
      let '(val, err) := sim_line (q_val q) (q_err q) line in mkPysim buf val err)).
  { intros Z0. rewrite cut_crlf_none by exact Z0. cbn [sim_line]. rewrite Lg, Z0, Nat.add_0_r. replace (Nat.min (Datatypes.S k) k) with k by lia.
    split; [cbn [q_buf]; rewrite F1, app_assoc; reflexivity|]. split; [exact F2|]. split; [lia|]. exact F4. }
  destruct (skipn k S) as [|s r] eqn:Es.
  - cbn [map concat] in Er. symmetry in Er. apply app_eq_nil in Er. destruct Er as (Er & _). apply Z. rewrite Er. reflexivity.
  - pose proof (Forall_inv Nr) as N1. cbn [map concat] in Er. unfold crlf at 1 in Er. rewrite <- app_assoc in Er. cbn [app] in Er.
    destruct (prefix_line s _ _ tl N1 Er) as [Z0|(b' & Eb & Et)]; [exact (Z Z0)|]. clear Z.
    rewrite Eb, cut_crlf_line by exact N1. destruct (firstn_S k S s r Es) as (G1 & G2).
    assert (Mn : Nat.min (Datatypes.S k) (lines_in (got ++ d)) = Datatypes.S k) by (rewrite Lg, Eb, lines_line by exact N1; lia). rewrite Mn.
    assert (X : (match s with [] => ([], b') | _ => (strip (filter (fun c => c <? 128) s), b') end) = (seg_line s, b')) by (destruct s; reflexivity). rewrite X.
    destruct (sim_line (q_val q) (q_err q) (seg_line s)) as (val, err) eqn:Sl. split.
    + cbn [q_buf]. rewrite G1, map_app, concat_app. cbn [map concat]. rewrite F1, <- !app_assoc. f_equal. rewrite Eb. unfold crlf. rewrite <- !app_assoc. reflexivity.
    + assert (Ls : length (skipn k S) = (length S - k)%nat) by apply skipn_length. rewrite Es in Ls. cbn [length] in Ls. split; [lia|]. split; [lia|].
      cbn [q_val q_err]. rewrite G1, fold_left_app, <- F4. cbn [fold_left]. unfold seg_step. cbn [fst snd]. symmetry. exact Sl.
Qed.
Lemma chunks_follow S l : Forall no13 S -> forall got k q tl, follows S got k q -> concat (map crlf S) = (got ++ concat l) ++ tl ->
  follows S (got ++ concat l) (taken l got k) (fold_left sim_handle l q).
Proof.
  intros N. induction l as [|d r IH]; intros got k q tl F E.
  - cbn [concat taken fold_left]. rewrite app_nil_r. exact F.
  - cbn [concat taken fold_left] in *. rewrite app_assoc. apply (IH _ _ _ tl); [|rewrite E, <- !app_assoc; reflexivity].
    apply (handle_follows S got k q d (concat r ++ tl)); [exact N|exact F|]. rewrite E, <- !app_assoc. reflexivity.
Qed.
Lemma follows_start S : follows S [] 0 sim_reset.
Proof. split; [reflexivity|]. split; [lia|]. split; [lia|reflexivity]. Qed.

(** ** The decoder *)
Lemma ltoa_py v : is_s32 v -> exists s, ltoa10 v 12 = Some s /\ s <> [] /\ Forall (fun c => c = 45 \/ hexd c) s /\ py_int s 10 = Some v.
Proof.
  unfold is_s32. intros R. unfold ltoa10. assert (u32 (Z.abs v) = Z.abs v) as -> by (unfold u32; lia).
  assert (0 <= Z.abs v < 10 ^ Z.of_nat 16) as R2 by (change (10 ^ Z.of_nat 16) with 10000000000000000; lia).
  destruct (digits_ok 10 (or_introl eq_refl) 16 (Z.abs v) [] R2 ltac:(discriminate)) as (ds & E & N & F & L & K).
  rewrite E, app_nil_r. cbn [bind]. assert (Z.of_nat (length ds) <= 10) as L' by (apply L; [lia|change (10 ^ 10) with 10000000000; lia]). clear L E.
  assert (int_digits ds 10 0 true = Some (Z.abs v)) as K'.
  { specialize (K [] 0 true). rewrite app_nil_r in K. cbn [int_digits] in K. rewrite Z.mul_0_l, Z.add_0_l in K. exact K. }
  clear K. destruct (Z.ltb_spec v 0) as [S|S].
  - rewrite into_buf_ok by (cbn [length]; lia). exists (45 :: ds). split; [reflexivity|]. split; [discriminate|].
    split; [constructor; [left; reflexivity|revert F; apply Forall_impl; tauto]|].
    unfold py_int. rewrite strip_word; [|constructor; [reflexivity|apply hex_nbs; exact F]|discriminate].
    cbn [Z.eqb Pos.eqb]. replace (10 =? 16) with false by reflexivity. cbn [andb].
    assert (match ds with | c :: _ :: _ => ds | _ => ds end = ds) as -> by (destruct ds as [|? [|? ?]]; reflexivity).
    rewrite K'. cbn [bind]. f_equal. lia.
  - rewrite into_buf_ok by lia. exists ds. split; [reflexivity|]. split; [exact N|].
    split; [revert F; apply Forall_impl; tauto|].
    unfold py_int. rewrite strip_word; [|apply hex_nbs; exact F|exact N].
    destruct ds as [|c ds]; [contradiction|]. inversion F as [|x y Fc Fs]; subst. apply hexd_nb in Fc.
    replace (c =? 45) with false by lia. replace (c =? 43) with false by lia. replace (10 =? 16) with false by reflexivity. cbn [andb].
    assert (match ds with | _ :: _ => c :: ds | _ => c :: ds end = c :: ds) as -> by (destruct ds; reflexivity).
    rewrite K'. cbn [bind]. f_equal. lia.
Qed.
Lemma sim_line_ok val err now t n m v : Forall hexd t -> t <> [] -> py_int t 16 = Some (u16 now) -> nbs n -> n <> [] -> Forall (fun c => c < 128) n ->
  Forall (fun c => c < 128) m -> nbs v -> v <> [] -> Forall (fun c => c < 128) v ->
  seg_step (val, err) (t ++ [58; 32] ++ (n ++ m ++ v)) =
    (let elems := split_words (n ++ m ++ v) [] in
     if (Z.of_nat (length elems) <? 2) || (3 <? Z.of_nat (length elems)) then (val, err + 1)
     else match sim_elem elems with
          | None => (val, err + 1)
          | Some (c, w) => let '(x, err) := sim_parse w err in (set_val val c (x, cell_div c), err)
          end).
Proof.
  intros Ft Nt Pt Bn Nn An Am Bv Nv Av. destruct (hex_parts t Ft) as (T1 & T2 & T3 & T4). unfold seg_step, seg_line. cbn [fst snd].
  destruct (t ++ [58; 32] ++ n ++ m ++ v) as [|x l] eqn:El; [destruct t; discriminate El|]. rewrite <- El. clear x l El.
  rewrite filter_id.
  2: { repeat (apply Forall_app; split); try assumption; repeat (constructor; [lia|]); constructor. }
  assert (strip (t ++ [58; 32] ++ (n ++ m ++ v)) = t ++ 58 :: 32 :: n ++ m ++ v) as ->.
  { replace (t ++ [58; 32] ++ (n ++ m ++ v)) with ([] ++ (t ++ ([58; 32] ++ n ++ m) ++ v) ++ []) by (rewrite !app_nil_r; cbn [app]; rewrite <- !app_assoc; reflexivity).
    rewrite strip_between; [cbn [app]; rewrite <- !app_assoc; reflexivity|constructor|constructor|assumption..]. }
  unfold sim_line. destruct t as [|c t]; [contradiction|]. cbn [app].
  assert (str_eqb (c :: t ++ 58 :: 32 :: n ++ m ++ v) [115; 116] = false) as ->.
  { apply str_eqb_false. intros E. assert (In 58 [115; 116]) as I; [|cbn in I; lia]. rewrite <- E. right. apply in_or_app. right. left. reflexivity. }
  change (c :: t ++ 58 :: 32 :: n ++ m ++ v) with ((c :: t) ++ 58 :: 32 :: n ++ m ++ v). rewrite cut_ok by exact T4. rewrite Pt.
  assert (strip (32 :: n ++ m ++ v) = n ++ m ++ v) as ->; [|reflexivity].
  replace (32 :: n ++ m ++ v) with ([32] ++ (n ++ m ++ v) ++ []) by (rewrite app_nil_r; reflexivity).
  apply strip_between; try assumption; repeat constructor.
Qed.
Lemma not13 s : nbs s -> no13 s.
Proof. apply Forall_impl. intros c H ->. discriminate H. Qed.
Lemma find_term_ok t : find_term (term_name t) = Some t.
Proof. destruct t; reflexivity. Qed.
(** The lines of a message *)
Lemma sim_find_name i : sim_find all_items (fw_name i) = Some i.
Proof. destruct i; reflexivity. Qed.
Lemma value_seg now c v : is_s24 v -> exists s, print_int true now (Some (prefix0 c)) (prefix1 c) v = Some (crlf s) /\ no13 s /\
  forall val err, seg_step (val, err) s = (set_val val c (v, cell_div c), err).
Proof.
  intros Rv. assert (S32 : is_s32 v) by (unfold is_s24, is_s32 in *; lia). destruct (ltoa_py v S32) as (s & Es & Ns & Fs & Ps). unfold print_int. rewrite Es. cbn [bind].
  destruct (print_str3_ok now (Some (prefix0 c)) (prefix1 c) (Some s)) as (t & E & Nt & Ft & Pt). rewrite E.
  assert (Hn : name_ok (prefix0 c)) by (destruct c; cbn [prefix0]; [apply name_item_ok|apply pid_name_ok]).
  destruct (name_nbs _ Hn) as (N1 & N2 & N3 & N4). destruct (num_nbs s Fs) as (S1 & S2 & S3). destruct (hex_parts t Ft) as (T1 & T2 & T3 & T4).
  set (m := match prefix1 c with Some x => 32 :: x ++ [32] | None => [32] end).
  exists (t ++ [58; 32] ++ (prefix0 c ++ m ++ s)). unfold m, crlf. split; [|split].
  - destruct (prefix1 c); repeat (cbn [app]; rewrite <- ?app_assoc); reflexivity.
  - apply Forall_app. split; [apply not13; exact T1|]. apply Forall_app. split; [repeat constructor; lia|]. apply Forall_app. split; [apply not13; exact N1|].
    apply Forall_app. split; [|apply not13; exact S1]. destruct c as [i|k x]; cbn [prefix1]; [repeat constructor; lia|]. constructor; [lia|]. apply Forall_app. split; [|repeat constructor; lia].
    apply not13. apply name_nbs, term_name_ok.
  - intros val err. rewrite (sim_line_ok val err now); try assumption.
    2: { destruct c as [i|k x]; cbn [prefix1]; [repeat constructor|]. constructor; [lia|]. apply Forall_app. split; [apply name_nbs, term_name_ok|repeat constructor]. }
    destruct c as [i|k x]; cbn [prefix0 prefix1].
    + cbn [app]. rewrite words_one, words_last by assumption. cbn [length Z.of_nat]. cbv zeta. cbn [Z.ltb Z.compare Pos.compare Pos.compare_cont orb Pos.of_succ_nat Pos.succ].
      unfold sim_elem. rewrite sim_find_name. unfold sim_parse. rewrite Ps. reflexivity.
    + destruct (name_nbs _ (term_name_ok x)) as (M1 & M2 & _).
      replace (pid_name k ++ (32 :: term_name x ++ [32]) ++ s) with (pid_name k ++ 32 :: term_name x ++ 32 :: s) by (cbn [app]; rewrite <- ?app_assoc; reflexivity).
      rewrite !words_one, words_last by assumption. cbv zeta. cbn [length Z.of_nat]. cbn [Z.ltb Z.compare Pos.compare Pos.compare_cont orb Pos.of_succ_nat Pos.succ].
      unfold sim_elem. assert (Fi : sim_find all_items (pid_name k) = None) by (destruct k; reflexivity). rewrite Fi.
      assert (Ep : (if str_eqb (pid_name k) (sim_pid true) then match find_term (term_name x) with Some t0 => Some (CPid true t0, s) | None => None end
        else if str_eqb (pid_name k) (sim_pid false) then match find_term (term_name x) with Some t0 => Some (CPid false t0, s) | None => None end else None) = Some (CPid k x, s)).
      { rewrite find_term_ok. destruct k; reflexivity. }
      rewrite Ep. unfold sim_parse. rewrite Ps. reflexivity.
Qed.
Lemma msg_segs m : smsg_ok m -> exists b S, smsg_bytes m = Some b /\ b = concat (map crlf S) /\ length S = smsg_lines m /\ Forall no13 S /\
  forall k vals err, fold_left seg_step (firstn k S) (vals, err) =
    (match m with
     | SHello => match k with Datatypes.S (Datatypes.S _) => sim_values | _ => vals end
     | SVal _ c v => match k with Datatypes.S _ => set_val vals c (v, cell_div c) | _ => vals end
     end, err).
Proof.
  destruct m as [|now c v]; cbn [smsg_ok smsg_bytes smsg_lines]; intros R.
  - exists greeting, [[]; [115; 116]]. split; [reflexivity|]. split; [reflexivity|]. split; [reflexivity|]. split; [repeat constructor; lia|].
    intros [|[|k]] vals err; [reflexivity|reflexivity|]. cbn [firstn]. rewrite firstn_nil. reflexivity.
  - destruct (value_seg now c v R) as (s & E & N & K). exists (crlf s), [s]. split; [exact E|]. split; [cbn; rewrite app_nil_r; reflexivity|]. split; [reflexivity|].
    split; [repeat constructor; exact N|]. intros [|k] vals err; [reflexivity|]. cbn [firstn]. rewrite firstn_nil. cbn [fold_left]. apply K.
Qed.
Lemma stream_segs l b : sstream l b -> exists S, b = concat (map crlf S) /\ Forall no13 S /\
  forall k vals err (d : cell -> Z), (forall c, vals c = (d c, cell_div c)) -> exists vals', fold_left seg_step (firstn k S) (vals, err) = (vals', err) /\
    forall c, vals' c = (shown k l c (d c), cell_div c).
Proof.
  induction 1 as [|m b l t R E T IH].
  - exists []. split; [reflexivity|]. split; [constructor|]. intros k vals err d H. rewrite firstn_nil. exists vals. split; [reflexivity|]. intros c. rewrite H. destruct k; reflexivity.
  - destruct IH as (S & -> & N & K). destruct (msg_segs m R) as (b' & S1 & E' & -> & L & N1 & K1). rewrite E in E'. apply Some_inj in E'. subst b.
    exists (S1 ++ S). split; [rewrite map_app, concat_app; reflexivity|]. split; [apply Forall_app; split; assumption|]. intros k vals err d H.
    rewrite firstn_app, fold_left_app, K1, L. destruct m as [|now c v]; cbn [smsg_lines shown].
    + destruct k as [|[|k]].
      * cbn [Nat.sub firstn fold_left]. exists vals. split; [reflexivity|exact H].
      * cbn [Nat.sub firstn fold_left]. exists vals. split; [reflexivity|exact H].
      * cbn [Nat.sub]. rewrite Nat.sub_0_r || idtac. apply (K k sim_values err (fun _ => 0)). intros c. reflexivity.
    + destruct k as [|k].
      * cbn [Nat.sub firstn fold_left]. exists vals. split; [reflexivity|exact H].
      * cbn [Nat.sub]. rewrite Nat.sub_0_r. apply (K k _ err (fun d0 => if cell_dec d0 c then v else d d0)). intros e. unfold set_val. destruct (cell_dec e c) as [->|]; [reflexivity|apply H].
Qed.
Lemma decoder_shows l b ch tl : sstream l b -> b = concat ch ++ tl ->
  let q := fold_left sim_handle ch sim_reset in
  (forall c, q_val q c = (shown (taken ch [] 0) l c 0, cell_div c)) /\ q_err q = 0.
Proof.
  intros T E. destruct (stream_segs l b T) as (S & Eb & N & K). cbv zeta. rewrite Eb in E.
  pose proof (chunks_follow S ch N [] 0%nat sim_reset tl (follows_start S) E) as (_ & _ & _ & F). cbn [app] in F.
  destruct (K (taken ch [] 0) sim_values 0 (fun _ => 0) (fun _ => eq_refl)) as (v' & E' & H'). rewrite E' in F. injection F as F1 F2. split; [|exact F2]. intros c. rewrite F1. apply H'.
Qed.

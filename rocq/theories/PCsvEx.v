(** * Concrete cases *)
From Coq Require Import ZArith List Bool Lia String Floats.SpecFloat.
From Verif Require Import Base PBase MConf MTimer MPid MCurr MSettings SpecSettings MState MTemp MMeas MMenu MMain MDebug SpecHost SpecSys SpecRun PDebug MTele
  PSettingsEx Trace PSysTrace SpecTele PTeleEx MCsv SpecCsv PCsv3.
Import ListNotations.
Open Scope Z_scope.
Open Scope list_scope.

(** 5 as filtered current, -321 as output of the current controller, 20107 as temperature, 1449 as output of the temperature controller *)
Definition msgs : list msg := [Hello; Value 65546 (fw_name Fc) 5; Value 171 (fw_name Cy) (-321); Value 172 (fw_name Tr) 20107; Value 173 (fw_name Ty2) 1449].
Definition nl : list Z := [13; 10].
Definition ex_text : list Z := csv_header ++
  codes "10;0.000000;0.000000;0;0.000000;0.000000;0.000000;0.000000;0;5;0;0" ++ nl ++
  codes "171;0.000000;0.000000;0;-0.501563;0.000000;0.000000;0.000000;0;5;0;0" ++ nl ++
  codes "172;0.000000;0.000000;0;-0.501563;314.171875;0.000000;0.000000;0;5;0;0" ++ nl ++
  codes "173;0.000000;0.000000;0;-0.501563;314.171875;0.000000;2.264063;0;5;0;0" ++ nl.
Lemma case_stream : exists b, stream msgs = Some b /\ csv_file (receive b) = Some ex_text /\
  exists nums, read_csv ex_text = Some (titles, nums) /\ nth 3 nums [] =
    [(173, 0); (0, 6); (0, 6); (0, 0); (-501563, 6); (314171875, 6); (0, 6); (2264063, 6); (0, 0); (5, 0); (0, 0); (0, 0)].
Proof.
  eexists. split; [vm_compute; reflexivity|]. split; [vm_compute; reflexivity|]. eexists. split; [vm_compute; reflexivity|]. reflexivity.
Qed.
(** "0: tr 1000...": 310 digits *)
Definition long_line : list Z := codes "0: tr 1" ++ repeat 48 309 ++ nl.
Lemma case_overflow : csv_file (receive long_line) = None.
Proof. vm_compute. reflexivity. Qed.

(** Executions with the values at the last greeting *)
Fixpoint grun (C : conf) (y : sys) (f : cells) (b : list Z) (g : item -> Z) (l : list event) : option (sys * cells * list Z * (item -> Z)) :=
  match l with
  | [] => Some (y, f, b, g)
  | e :: r => if ev_okb C y e then '(y', f', s) <- tstep C y f e ;;
                grun C y' f' (b ++ List.concat s) (if in_dec str_dec greeting s then fun i => f' (CItem i) else g) r else None
  end.
Lemma grun_ok C l : forall y f b g y' f' b' g', tlog C y f b g -> grun C y f b g l = Some (y', f', b', g') -> tlog C y' f' b' g'.
Proof.
  induction l as [|e l IH]; intros y f b g y' f' b' g' T E; cbn [grun] in E; [apply Some_inj in E; injection E as <- <- <- <-; exact T|].
  destruct (ev_okb C y e) eqn:O; [|discriminate E]. apply ev_okb_ok in O. apply bind_inv in E. destruct E as (((y1, f1), s1) & E1 & E).
  eapply IH; [|exact E]. eapply SpecTele.tl_step; eassumption.
Qed.
(** The same two measurements as in C79; two bytes of noise before. *)
Definition final (y : sys) (f : cells) (b : list Z) (g : item -> Z) : bool :=
  y_dbg y && ((t_feedback (y_ct y) =? 20107) && (negb (g Tr =? 20107) &&
  match csv_file (receive ([120; 58] ++ b)) with
  | Some text => match read_csv text with Some (_, nums) => match nth_error (last nums []) 5 with Some (n, k) => (n =? 314171875) && (k =? 6) | None => false end | None => false end
  | None => false
  end)).
Lemma case_firmware : exists y f b g, tlog conf_m328p y f b g /\ final y f b g = true.
Proof.
  assert (K : match tboot conf_m328p (factory_ee conf_m328p) SET_KEY with
    | Some (y, f, s) => match grun conf_m328p y f (List.concat s) (fun _ => 0) (cycles 2 310 100) with Some (y, f, b, g) => final y f b g | None => false end
    | None => false end = true) by (vm_compute; reflexivity).
  destruct (tboot _ _ _) as [((y0, f0), s0)|] eqn:B; [|discriminate K]. destruct (grun _ _ _ _ _ _) as [(((y, f), b), g)|] eqn:E; [|discriminate K].
  assert (T : tlog conf_m328p y0 f0 (List.concat s0) (fun _ => 0)) by (eapply SpecTele.tl_boot; [|exact B]; unfold SET_KEY, is_u8; lia).
  exists y, f, b, g. split; [exact (grun_ok _ _ _ _ _ _ _ _ _ _ T E)|exact K].
Qed.
Lemma case_temperature : exists y f b g text nums, tlog conf_m328p y f b g /\ y_dbg y = true /\ t_feedback (y_ct y) = 20107 /\ g Tr <> 20107 /\
  csv_file (receive ([120; 58] ++ b)) = Some text /\ read_csv text = Some (titles, nums) /\ nth_error (last nums []) 5 = Some (314171875, 6).
Proof.
  destruct case_firmware as (y & f & b & g & T & P). unfold final in P. rewrite !andb_true_iff in P. destruct P as (P0 & P1 & P2 & P3).
  destruct (csv_firmware conf_m328p y f b g [120; 58] build_m328p T P0) as (text & nums & E & R & _).
  rewrite E, R in P3. exists y, f, b, g, text, nums. split; [exact T|]. split; [exact P0|]. split; [apply Z.eqb_eq; exact P1|].
  split; [intros X; rewrite X in P2; discriminate|]. split; [exact E|]. split; [exact R|].
  destruct (nth_error (last nums []) 5) as [[n k]|]; [|discriminate P3]. apply andb_true_iff in P3. destruct P3 as [A B]. apply Z.eqb_eq in A, B. subst. reflexivity.
Qed.
Lemma msgs_ok : Forall msg_ok msgs.
Proof.
  assert (forall now i v, is_s32 v -> msg_ok (Value now (fw_name i) v)) as A by (intros now i v R; split; [apply name_item_ok|exact R]).
  unfold msgs. constructor; [exact I|]. repeat (apply Forall_cons; [apply A; unfold is_s32; lia|]). apply Forall_nil.
Qed.
Lemma case_recover : cell_shows Cy (-321) (-501563, 6) /\ recovers 640 (-321) (-501563, 6) /\ ~ recovers 640 (-320) (-501563, 6).
Proof. split; [split; [reflexivity|vm_compute; discriminate]|]. split; [split; [discriminate|reflexivity]|]. intros [_ H]. vm_compute in H. discriminate H. Qed.
Lemma noise_ends : exists b, csv_file (receive b) = None.
Proof. exists long_line. exact case_overflow. Qed.

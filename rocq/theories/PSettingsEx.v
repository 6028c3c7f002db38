(** * Concrete executions of the settings storage (examples and refutations) *)
From Coq Require Import ZArith List Bool Lia.
From Verif Require Import Base PBase MConf MTimer MSettings SpecSettings PSettings.
Import ListNotations.
Open Scope Z_scope.

Lemma ring_m88p : ring_conf conf_m88p.
Proof. unfold ring_conf. cbn. split; [reflexivity|]. split; [lia|reflexivity]. Qed.
Lemma ring_m328p : ring_conf conf_m328p.
Proof. unfold ring_conf. cbn. split; [reflexivity|]. split; [lia|reflexivity]. Qed.

Lemma build_m88p : build_conf conf_m88p. Proof. left. exact ring_m88p. Qed.
Lemma build_m328p : build_conf conf_m328p. Proof. left. exact ring_m328p. Qed.

Definition wboot (C : conf) : world :=
  match sboot C with Some w => w | None => mkW 0 (mkSst 0 false (default_settings C) 0 0 (fun _ => 0) false None) (default_settings C) None end.
Lemma wboot_eq C : ring_conf C -> sboot C = Some (wboot C).
Proof. intros H. unfold wboot. destruct (sboot_inv C H) as (w & -> & _). reflexivity. Qed.

(** A user change followed by a complete store. *)
Definition change_and_store (v : Z) : list sop :=
  SModify (set_preset0 v) :: repeat STick 1000 ++ [SWork] ++ drounds 64.
Definition round1 (n : nat) : list sop := concat (repeat [SReady; SDone] n).

Lemma drounds_ok n : Forall mod_ok (drounds n).
Proof.
  apply Forall_app. split; [apply mod_ok_concat|]; repeat (apply Forall_cons; [exact I|]); apply Forall_nil.
Qed.
Lemma round1_ok n : Forall mod_ok (round1 n).
Proof. apply mod_ok_concat. repeat (apply Forall_cons; [exact I|]). apply Forall_nil. Qed.
Lemma change_ok v : is_s24 v -> Forall mod_ok (change_and_store v).
Proof.
  intros H. apply Forall_cons; [apply set_preset0_ok; exact H|]. apply Forall_app. split; [apply mod_ok_repeat; exact I|].
  apply Forall_app. split; [repeat (apply Forall_cons; [exact I|]); apply Forall_nil|apply drounds_ok].
Qed.

(** Interrupted in the middle of a store: 20 bytes done. *)
Definition mid_store : list sop :=
  change_and_store 20000 ++ SModify (set_preset0 19200) :: repeat STick 1000 ++ [SWork] ++ round1 40 ++ [SReady].
Lemma mid_store_ok : Forall mod_ok mid_store.
Proof.
  apply Forall_app. split; [apply change_ok; unfold is_s24; lia|].
  apply Forall_cons; [apply set_preset0_ok; unfold is_s24; lia|]. apply Forall_app. split; [apply mod_ok_repeat; exact I|].
  apply Forall_app. split; [repeat (apply Forall_cons; [exact I|]); apply Forall_nil|].
  apply Forall_app. split; [apply round1_ok|repeat (apply Forall_cons; [exact I|]); apply Forall_nil].
Qed.
Definition mid_check (o : option world) : bool :=
  match o with
  | Some w => match w_inflight w, x_busy (w_x w) with
              | Some n, Some (a, d) => (hd 0 (s_preset n) =? 19200) && (hd 0 (s_preset (w_committed w)) =? 20000)
                                       && (a =? 168) && (d =? 75)
              | _, _ => false
              end
  | None => false
  end.
Lemma mid_store_reach : exists w, sreach conf_m88p true w /\ mid_check (Some w) = true.
Proof.
  destruct (okb_sreach conf_m88p true (wboot conf_m88p) mid_store) as (w & A & B).
  - apply sreach_boot. apply wboot_eq. apply ring_m88p.
  - apply mid_store_ok.
  - vm_compute. reflexivity.
  - exists w. split; [exact B|]. rewrite <- A. vm_compute. reflexivity.
Qed.
Lemma stored_reach : exists w, sreach conf_m88p true w /\ quiet (w_x w) = true /\ x_request (w_x w) = false /\
  hd 0 (s_preset (x_cache (w_x w))) = 20000 /\ x_index (w_x w) = 1.
Proof.
  destruct (okb_sreach conf_m88p true (wboot conf_m88p) (change_and_store 20000)) as (w & A & B).
  - apply sreach_boot. apply wboot_eq. apply ring_m88p.
  - apply change_ok. unfold is_s24; lia.
  - vm_compute. reflexivity.
  - exists w. split; [exact B|].
    assert (K : match sexec conf_m88p (wboot conf_m88p) (change_and_store 20000) with
                | Some w => quiet (w_x w) && negb (x_request (w_x w)) && (hd 0 (s_preset (x_cache (w_x w))) =? 20000)
                            && (x_index (w_x w) =? 1)
                | None => false end = true) by (vm_compute; reflexivity).
    rewrite A in K. apply andb_true_iff in K. destruct K as (K & K4). apply andb_true_iff in K. destruct K as (K & K3).
    apply andb_true_iff in K. destruct K as (K1 & K2). split; [exact K1|]. split; [destruct (x_request (w_x w)); [discriminate|reflexivity]|].
    split; apply Z.eqb_eq; assumption.
Qed.

(** ** C51: a change during a store is mixed into it (479 C -> 480 C gives 483 C) *)
Definition mix_pre : list sop :=
  SModify (set_preset0 30656) :: repeat STick 1000 ++ [SWork] ++ round1 40 ++
  SModify (set_preset0 30720) :: drounds 64.
Lemma mix_pre_ok : Forall mod_ok (mix_pre ++ [SPower 0]).
Proof.
  apply Forall_app. split; [|apply Forall_cons; [cbn; unfold is_u8; lia|apply Forall_nil]].
  apply Forall_cons; [apply set_preset0_ok; unfold is_s24; lia|]. apply Forall_app. split; [apply mod_ok_repeat; exact I|].
  apply Forall_app. split; [repeat (apply Forall_cons; [exact I|]); apply Forall_nil|].
  apply Forall_app. split; [apply round1_ok|]. apply Forall_cons; [apply set_preset0_ok; unfold is_s24; lia|]. apply drounds_ok.
Qed.
Lemma snapshot_refuted : exists w ops w', sboot conf_m88p = Some w /\ srun conf_m88p w (ops ++ [SPower 0]) w' /\
  hd 0 (s_preset (x_cache (w_x w'))) = 30912 /\
  (forall s, In s (caches conf_m88p w ops) -> ~ same_content (x_cache (w_x w')) s).
Proof.
  exists (wboot conf_m88p), mix_pre.
  destruct (okb_srun conf_m88p (wboot conf_m88p) (mix_pre ++ [SPower 0])) as (w' & A & B).
  - apply mix_pre_ok.
  - vm_compute. reflexivity.
  - exists w'. split; [apply wboot_eq; apply ring_m88p|]. split; [exact B|].
    assert (K : match sexec conf_m88p (wboot conf_m88p) (mix_pre ++ [SPower 0]) with
                | Some w => hd 0 (s_preset (x_cache (w_x w))) =? 30912 | None => false end = true) by (vm_compute; reflexivity).
    rewrite A in K. apply Z.eqb_eq in K. split; [exact K|].
    assert (L : forallb (fun s => negb (hd 0 (s_preset s) =? 30912)) (caches conf_m88p (wboot conf_m88p) mix_pre) = true)
      by (vm_compute; reflexivity).
    rewrite forallb_forall in L. intros s Hs (_ & _ & E & _). specialize (L s Hs). rewrite <- E, K in L. discriminate.
Qed.

(** ** C54: the scan reads behind the array *)
Definition conf_oob8 : conf := mkConf false true true true true true false true 8 (fun _ _ => 8).
Definition ee_full : Z -> Z := fun a => if a mod 64 =? 63 then a / 64 else 0.
Lemma scan_oob_refuted : exists C ee x, c_slots C = 8 /\ c_eering C = true /\
  settings_init C ee = Some x /\ c_slots C <= x_index x.
Proof.
  exists conf_oob8, ee_full. eexists. split; [reflexivity|]. split; [reflexivity|]. split; [reflexivity|]. vm_compute. discriminate.
Qed.
(** That EEPROM image (newest slot is the last one) is reached by seven stores. *)
Fixpoint many (n : nat) : list sop :=
  match n with O => [] | S m => change_and_store (Z.of_nat n) ++ many m end.
Lemma seven_stores : exists w, sreach conf_m88p true w /\ x_index (w_x w) = 7 /\ quiet (w_x w) = true.
Proof.
  destruct (okb_sreach conf_m88p true (wboot conf_m88p) (many 7)) as (w & A & B).
  - apply sreach_boot. apply wboot_eq. apply ring_m88p.
  - cbn [many]. repeat (apply Forall_app; split; [apply change_ok; unfold is_s24; cbn; lia|]). apply Forall_nil.
  - vm_compute. reflexivity.
  - exists w. split; [exact B|].
    assert (K : match sexec conf_m88p (wboot conf_m88p) (many 7) with
                | Some w => (x_index (w_x w) =? 7) && quiet (w_x w) | None => false end = true) by (vm_compute; reflexivity).
    rewrite A in K. apply andb_true_iff in K. destruct K as (K1 & K2). split; [apply Z.eqb_eq; exact K1|exact K2].
Qed.

(** ** C60: without the ring *)
Definition conf_noring : conf := mkConf false true true true false true false true 8 (oob_alias 8).
Lemma build_noring : build_conf conf_noring. Proof. right. split; [reflexivity|cbn; lia]. Qed.
Definition noring_pre : list sop :=
  SModify (set_preset0 30656) :: repeat STick 1000 ++ [SWork] ++ round1 40.
Lemma noring_ok : Forall mod_ok (noring_pre ++ [SPower 0]).
Proof.
  apply Forall_app. split; [|apply Forall_cons; [cbn; unfold is_u8; lia|apply Forall_nil]].
  apply Forall_cons; [apply set_preset0_ok; unfold is_s24; lia|]. apply Forall_app. split; [apply mod_ok_repeat; exact I|].
  apply Forall_app. split; [repeat (apply Forall_cons; [exact I|]); apply Forall_nil|]. apply round1_ok.
Qed.
Lemma noring_refuted : exists w ops w', sboot conf_noring = Some w /\ srun conf_noring w (ops ++ [SPower 0]) w' /\
  (forall s, In s (caches conf_noring w ops) -> ~ same_content (x_cache (w_x w')) s).
Proof.
  exists (wboot conf_noring), noring_pre.
  destruct (okb_srun conf_noring (wboot conf_noring) (noring_pre ++ [SPower 0])) as (w' & A & B).
  - apply noring_ok.
  - vm_compute. reflexivity.
  - exists w'. split; [reflexivity|]. split; [exact B|].
    assert (K : match sexec conf_noring (wboot conf_noring) (noring_pre ++ [SPower 0]) with
                | Some w => hd 0 (s_preset (x_cache (w_x w))) =? 19648 | None => false end = true) by (vm_compute; reflexivity).
    rewrite A in K. apply Z.eqb_eq in K.
    assert (L : forallb (fun s => negb (hd 0 (s_preset s) =? 19648)) (caches conf_noring (wboot conf_noring) noring_pre) = true)
      by (vm_compute; reflexivity).
    rewrite forallb_forall in L. intros s Hs (_ & _ & E & _). specialize (L s Hs). rewrite <- E, K in L. discriminate.
Qed.

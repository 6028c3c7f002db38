(** * Concrete executions for the storage inside the whole firmware *)
From Coq Require Import ZArith List Bool Lia ZifyBool.
From Verif Require Import Base PBase MConf MTimer MSettings SpecSettings MState MMain SpecSys SpecRun Trace MFine SpecFine PFine8 PFineEx SpecStor.
Import ListNotations.
Open Scope Z_scope.
(** The idle temperature is raised with the plus key and the store starts a second later; while it runs it is
    raised again, and EEPROM and timer interrupts happen inside that call of menu_work. *)
Definition edit : list event := press SET_KEY ++ press PLUS_KEY.
Definition started : list event := edit ++ ticks 1000 ++ [ESettings].
Definition inside : plan := repeat [IDone; IReady; ITick] 20.
Lemma stor_case1 : exists y y', freach conf_m88p y /\ fnext conf_m88p y EMenu y' /\
  x_eerie (y_set y) = true /\ x_offset (y_set y) = 0 /\ x_offset (y_set y') = 3 /\ x_request (y_set y) = false /\ x_request (y_set y') = true /\
  s_idle (x_cache (y_set y)) = 151 * 64 /\ s_idle (x_cache (y_set y')) = 152 * 64.
Proof.
  destruct (fthen_ok conf_m88p (plainly (started ++ [ETick; EButtons PLUS_KEY])) EMenu inside
    (fun y y' => x_eerie (y_set y) && (x_offset (y_set y) =? 0) && (x_offset (y_set y') =? 3) && negb (x_request (y_set y)) && x_request (y_set y') &&
      (s_idle (x_cache (y_set y)) =? 9664) && (s_idle (x_cache (y_set y')) =? 9728))) as (y & y' & R & O & E & P); [vm_compute; reflexivity|].
  exists y, y'. split; [exact R|]. split; [split; [exact O|exists inside; exact E]|].
  destruct (x_eerie (y_set y)), (x_request (y_set y)), (x_request (y_set y')); cbn [andb negb] in P; rewrite ?andb_false_r in P; try discriminate P.
  repeat split; lia.
Qed.
(** The store is finished and the power fails: the raised idle temperature is loaded. *)
Lemma stor_case2 : exists y y', freach conf_m88p y /\ fnext conf_m88p y (EPower 0 NO_KEYS) y' /\ quiet (y_set y) = true /\ x_request (y_set y) = false /\
  s_idle (x_cache (y_set y')) = 151 * 64 /\ s_idle (default_settings conf_m88p) = 150 * 64.
Proof.
  destruct (fthen_ok conf_m88p (plainly (started ++ rounds 64)) (EPower 0 NO_KEYS) []
    (fun y y' => quiet (y_set y) && negb (x_request (y_set y)) && (s_idle (x_cache (y_set y')) =? 9664))) as (y & y' & R & O & E & P); [vm_compute; reflexivity|].
  exists y, y'. split; [exact R|]. split; [split; [exact O|exists []; exact E]|].
  destruct (quiet (y_set y)), (x_request (y_set y)); try discriminate P. cbn [andb negb] in P. repeat split; lia.
Qed.
(** The idle temperature has been raised, the store is due. *)
Lemma stor_case3 : exists y, freach conf_m88p y /\ x_request (y_set y) = true /\ timer_expired (y_now y) (x_timer (y_set y)) = true.
Proof.
  destruct (fthen_ok conf_m88p (plainly (edit ++ ticks 999)) ETick []
    (fun y y' => x_request (y_set y') && timer_expired (y_now y') (x_timer (y_set y')))) as (y & y' & R & O & E & P); [vm_compute; reflexivity|].
  exists y'. split; [|apply andb_true_iff in P; exact P]. eapply freach_step; [exact R|]. split; [exact O|exists []; exact E].
Qed.
(** The first interrupt of a store writes a byte. *)
Lemma stor_case4 : exists y y', freach conf_m88p y /\ step conf_m88p y EReady = Some y' /\ x_eerie (y_set y) = true /\ x_busy (y_set y) = None /\ x_busy (y_set y') <> None.
Proof.
  destruct (fthen_ok conf_m88p (plainly started) EReady []
    (fun y y' => x_eerie (y_set y) && match x_busy (y_set y), x_busy (y_set y') with None, Some _ => true | _, _ => false end)) as (y & y' & R & O & E & P); [vm_compute; reflexivity|].
  exists y, y'. split; [exact R|]. split; [unfold fstep, lift in E; destruct (step conf_m88p y EReady); cbn [bind] in E; [exact E|discriminate E]|].
  destruct (x_eerie (y_set y)); [|discriminate P]. destruct (x_busy (y_set y)); [discriminate P|]. destruct (x_busy (y_set y')); [|discriminate P]. repeat split. discriminate.
Qed.

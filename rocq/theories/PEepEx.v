(** * Concrete executions with the EEPROM registers *)
From Coq Require Import ZArith List Bool Lia ZifyBool.
From Verif Require Import Base PBase MConf MTimer MCurr MSettings SpecSettings MState MMeas MMenu MMain SpecSys SpecRun MEep SpecEep Trace PSettingsEx PEep.
Import ListNotations.
Open Scope Z_scope.

(** The set-point is changed and the store has come to the byte that differs, in the second slot. *)
Definition until_ready : list event := hold 50 NO_KEYS ++ press PLUS_KEY ++ press PLUS_KEY ++ ticks 1100 ++ [ESettings].
Definition busy_at (a d : Z) (y : sys) : bool := match x_busy (y_set y) with Some (b, e) => (a =? b) && (d =? e) | None => false end.
Lemma case94 : (exists y r, eerun conf_m88p 2 y r /\ ready_request r = true /\ x_offset (y_set y) = 0 /\ e_cells r 64 <> 96) /\
  exists y r, eerun conf_m88p 3 y r /\ e_prog r = Some (64, 96) /\ e_rie r = true.
Proof.
  split.
  - destruct (check_some (exec conf_m88p NO_KEYS until_ready) (fun y => x_eerie (y_set y) && (match x_busy (y_set y) with None => true | _ => false end) && (x_offset (y_set y) =? 0) && negb (x_ee (y_set y) 64 =? 96)))
      as (y & E & H); [vm_compute; reflexivity|].
    assert (R : reach conf_m88p y) by (apply (exec_reach conf_m88p NO_KEYS until_ready y); [unfold is_u8, NO_KEYS; lia|exact E]).
    destruct (ee_every conf_m88p 2 y build_m88p ltac:(lia) R) as (r & D). exists y, r. destruct (ee_refines conf_m88p 2 y r build_m88p ltac:(lia) D) as (_ & W1 & W2 & W3).
    rewrite W1, W2, W3 in H. split; [exact D|]. clear - H. unfold ready_request. destruct (e_rie r); [|discriminate H]. destruct (e_prog r); [discriminate H|]. split; [reflexivity|]. lia.
  - destruct (check_some (exec conf_m88p NO_KEYS (until_ready ++ [EReady])) (fun y => x_eerie (y_set y) && busy_at 64 96 y)) as (y & E & H); [vm_compute; reflexivity|].
    assert (R : reach conf_m88p y) by (apply (exec_reach conf_m88p NO_KEYS (until_ready ++ [EReady]) y); [unfold is_u8, NO_KEYS; lia|exact E]).
    destruct (ee_every conf_m88p 3 y build_m88p ltac:(lia) R) as (r & D). exists y, r. destruct (ee_refines conf_m88p 3 y r build_m88p ltac:(lia) D) as (_ & W1 & W2 & W3).
    unfold busy_at in H. rewrite W2, W3 in H. split; [exact D|]. destruct (e_prog r) as [(a, d)|]; [|lia]. apply andb_true_iff in H. destruct H as (H1 & H2). split; [|exact H1].
    assert (a = 64) by lia. assert (d = 96) by lia. congruence.
Qed.

(** * One iteration of the main loop as compiled is one round of events *)
From Coq Require Import ZArith List Bool Lia.
From Verif Require Import Base PBase MConf MSettings SpecSettings MState MMeas MMenu MMain SpecSys SpecLive SpecLoop PLoop.
Import ListNotations.
Open Scope Z_scope.

Lemma loop_iteration S lo hi C : build_conf C -> speed_ok S -> forall ok t pins, loop S lo hi C ok t -> st_at t = AtMeasure -> is_u8 pins ->
  exists t', main_loop_once C (st_y t) pins = Some (st_y t') /\
    moves S lo hi C t [EMeasure; EMenu; EDisplay; EButtons pins; ESettings] t' /\ st_at t' = AtMeasure.
Proof.
  intros HC HS ok t pins L A P.
  assert (go : forall t e, loop S lo hi C ok t -> due (st_at t) e -> (e = EMeasure \/ e = EMenu \/ e = EDisplay \/ e = EButtons pins \/ e = ESettings) ->
    exists y', step C (st_y t) e = Some y' /\ may S C t e /\ loop S lo hi C ok (advance lo hi C t e y')).
  { intros x e D Du E. assert (M : may S C x e) by (split; [exact Du|]; decompose [or] E; subst e; first [exact P|exact Logic.I]).
    destruct (loop_defined S lo hi C HC HS ok x e D M) as (y' & G). exists y'. split; [exact G|]. split; [exact M|].
    apply loop_step; try assumption. decompose [or] E; subst e; discriminate. }
  destruct (go t EMeasure L A) as (y1 & E1 & M1 & L1); [auto|]. set (t1 := advance lo hi C t EMeasure y1) in *.
  destruct (go t1 EMenu L1 eq_refl) as (y2 & E2 & M2 & L2); [auto|]. set (t2 := advance lo hi C t1 EMenu y2) in *.
  destruct (go t2 EDisplay L2 eq_refl) as (y3 & E3 & M3 & L3); [auto|]. set (t3 := advance lo hi C t2 EDisplay y3) in *.
  destruct (go t3 (EButtons pins) L3 eq_refl) as (y4 & E4 & M4 & L4); [auto|]. set (t4 := advance lo hi C t3 (EButtons pins) y4) in *.
  destruct (go t4 ESettings L4 eq_refl) as (y5 & E5 & M5 & L5); [auto 6|]. set (t5 := advance lo hi C t4 ESettings y5) in *.
  exists t5. split; [|split; [|reflexivity]].
  - unfold main_loop_once. cbn [step] in *. change (st_y t1) with y1 in *. change (st_y t2) with y2 in *. change (st_y t3) with y3 in *.
    change (st_y t4) with y4 in *. change (st_y t5) with y5 in *.
    rewrite E1. cbn [Base.bind]. rewrite E2. cbn [Base.bind]. rewrite E3. cbn [Base.bind]. rewrite E4. cbn [Base.bind]. exact E5.
  - eapply moves_cons; [exact M1|exact E1|]. eapply moves_cons; [exact M2|exact E2|]. eapply moves_cons; [exact M3|exact E3|].
    eapply moves_cons; [exact M4|exact E4|]. eapply moves_cons; [exact M5|exact E5|]. apply moves_nil.
Qed.

(** * Concrete executions for PMix *)
From Coq Require Import ZArith List Bool Lia.
From Verif Require Import Base PBase MConf MTimer MSettings SpecSettings PSettings PSettingsEx SpecMix PMix.
Import ListNotations.
Open Scope Z_scope.

Fixpoint lexec (C : conf) (w : world) (h : list settings * option (list settings)) (ops : list sop)
  : option (world * (list settings * option (list settings))) :=
  match ops with
  | [] => Some (w, h)
  | o :: r => w' <- sstep C w o ;; lexec C w' (log_next o w' h) r
  end.
Lemma okb_logged C ops : forall w h, logged C w h -> Forall mod_ok ops -> okb C false w ops = true ->
  exists w' h', lexec C w h ops = Some (w', h') /\ logged C w' h'.
Proof.
  induction ops as [|o r IH]; intros w h R F K; [exists w, h; split; [reflexivity|exact R]|].
  inversion F as [|? ? M F']; subst. destruct (okb_head _ _ _ _ _ M K) as (A & _ & w1 & B & D).
  destruct (IH w1 (log_next o w1 h) (logged_step _ _ _ _ _ R A B) F' D) as (w' & h' & E1 & E2). exists w', h'. cbn [lexec]. rewrite B. auto.
Qed.

Definition p0 (s : settings) : Z := hd 0 (s_preset s).
Lemma mix_ex : exists w h x', logged conf_m88p w h /\ settings_init conf_m88p (ee_after_crash (w_x w) 0) = Some x' /\
  hd 0 (s_preset (x_cache x')) = 483 * 64 /\ snd h = None /\
  forallb (fun s => (p0 s =? 479 * 64) || (p0 s =? 480 * 64)) (fst h) = true.
Proof.
  assert (OK : Forall mod_ok mix_pre) by (pose proof mix_pre_ok as H; apply Forall_app in H; exact (proj1 H)).
  destruct (okb_logged conf_m88p mix_pre (wboot conf_m88p) _ (logged_boot _ _ (wboot_eq _ ring_m88p)) OK) as (w & h & A & B);
    [vm_compute; reflexivity|].
  assert (K : match lexec conf_m88p (wboot conf_m88p) ([x_cache (w_x (wboot conf_m88p))], None) mix_pre with
     | Some (w, h) => match settings_init conf_m88p (ee_after_crash (w_x w) 0) with
        | Some x => (p0 (x_cache x) =? 483 * 64) && (match snd h with None => true | _ => false end) &&
                    forallb (fun s => (p0 s =? 479 * 64) || (p0 s =? 480 * 64)) (fst h) | None => false end
     | None => false end = true) by (vm_compute; reflexivity).
  rewrite A in K. destruct (settings_init _ _) as [x'|] eqn:E; [|discriminate].
  apply andb_true_iff in K. destruct K as (K & K3). apply andb_true_iff in K. destruct K as (K1 & K2).
  exists w, h, x'. split; [exact B|]. split; [exact E|]. split; [apply Z.eqb_eq; exact K1|].
  split; [destruct (snd h); [discriminate|reflexivity]|exact K3].
Qed.
Lemma plain_ex : exists w h L x', logged conf_noring w h /\ settings_init conf_noring (ee_after_crash (w_x w) 0) = Some x' /\
  hd 0 (s_preset (x_cache x')) = 307 * 64 /\ map p0 (fst h) = [305 * 64] /\ snd h = Some L /\
  forallb (fun s => p0 s =? 479 * 64) L = true.
Proof.
  assert (OK : Forall mod_ok noring_pre) by (pose proof noring_ok as H; apply Forall_app in H; exact (proj1 H)).
  destruct (okb_logged conf_noring noring_pre (wboot conf_noring) _ (logged_boot conf_noring (wboot conf_noring) eq_refl) OK) as (w & h & A & B);
    [vm_compute; reflexivity|].
  assert (K : match lexec conf_noring (wboot conf_noring) ([x_cache (w_x (wboot conf_noring))], None) noring_pre with
     | Some (w, h) => match settings_init conf_noring (ee_after_crash (w_x w) 0), snd h with
        | Some x, Some L => (p0 (x_cache x) =? 307 * 64) && forallb (fun s => p0 s =? 479 * 64) L &&
                    match map p0 (fst h) with [a] => a =? 305 * 64 | _ => false end | _, _ => false end
     | None => false end = true) by (vm_compute; reflexivity).
  rewrite A in K. destruct (settings_init _ _) as [x'|] eqn:E; [|discriminate]. destruct (snd h) as [L|] eqn:F; [|discriminate].
  apply andb_true_iff in K. destruct K as (K & K3). apply andb_true_iff in K. destruct K as (K1 & K2).
  exists w, h, L, x'. split; [exact B|]. split; [exact E|]. split; [apply Z.eqb_eq; exact K1|].
  split; [|split; [exact F|exact K2]]. destruct (map p0 (fst h)) as [|a [|b l]]; [discriminate K3| |discriminate K3].
  apply Z.eqb_eq in K3. rewrite K3. reflexivity.
Qed.

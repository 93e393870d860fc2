(** * KeepRun: keepRunning() *)
From Coq Require Import ZArith Bool List Lia.
From Verif Require Import Base RampCalc RampGen RampRun RampMove.
Import ListNotations.
Open Scope Z_scope.
Ltac Zify.zify_post_hook ::= idtac.

Section WithArch.
Variable A : arch.

(** ** One call *)
Lemma choose_some M C P R o s R' pl : 0 < R -> gnc_choose A M C P R true o = (s, R', pl) -> R' <> 0.
Proof.
  intros HR E. assert (R' = R \/ R' = P /\ R < P) as [->| ]; [|lia|lia]. unfold gnc_choose in E. cbn [negb] in E.
  destruct (R =? P); [injection E as _ <- _; auto|].
  destruct (Z.ltb_spec R P); [injection E as _ <- _; auto|]. left.
  destruct (M <? C).
  - destruct (C <? 2 * MIN_CMD_TICKS A); [injection E as _ <- _; auto|].
    destruct (R - P <? 2 * o); [destruct (negb _)|]; injection E as _ <- _; auto.
  - destruct (M >? C); [injection E as _ <- _; auto|].
    destruct (R - P <? 2 * o); [destruct (_ && _)|]; injection E as _ <- _; auto.
Qed.
Lemma keeps_dir ro rw qe old n up : keep_running (parameters (ro_config ro)) = true ->
  keep_running_count_up (parameters (ro_config ro)) = up -> qe_up qe = up ->
  rw_state rw <> RAMP_STATE_IDLE ->
  getNextCommand_ A ro rw qe old = Some n -> c_up (n_cmd n) = up /\ rw_state (n_rw n) <> RAMP_STATE_IDLE.
Proof.
  intros Hk Hu Hq Hs. unfold getNextCommand_.
  destruct (gnc_pause rw qe) as [m|] eqn:EP.
  { intros E. injection E as <-. unfold gnc_pause in EP. destruct (rw_pause_left rw >? 0); [|discriminate].
    injection EP as <-. cbn [n_cmd n_rw c_up rw_state]. auto. }
  unfold gnc_delta. rewrite Hk, Hu, Hq.
  replace (if rw_prus rw =? 0 then up else up) with up by (destruct (rw_prus rw =? 0); reflexivity).
  cbn [Z.eqb andb]. destruct (gnc_planning A (rw_curr_ticks rw)) as [orig|]; [|discriminate].
  rewrite Bool.eqb_reflx.
  destruct (gnc_choose _ _ _ _ _ _ _) as [[s R] pl] eqn:EC.
  assert (HR : R <> 0).
  { eapply choose_some; [|exact EC]. reflexivity. }
  destruct (Z.eqb_spec R 0) as [K|_]; [contradiction|].
  destruct (gnc_new_ticks _ _ _ _ _ _ _ _) as [d pl']. destruct (gnc_min_cmd _ _ _ _ _ _) as [[[s' d'] pl2]|]; [|discriminate].
  destruct (gnc_split _ _ _) as [[steps t] pause]. destruct (gnc_prus _ _ _ _ _ _) as [P' nx].
  intros E. injection E as <-. cbn [n_cmd n_rw c_up rw_state]. split; [reflexivity|]. destruct s', up; discriminate.
Qed.

(** ** A run *)
Definition kept (up : bool) (g : rampgen) (qe : queue_end) : Prop :=
  apply (rg_params g) = false /\ ro_force_stop (rg_ro g) = false /\ ro_force_immediate (rg_ro g) = false /\
  keep_running (parameters (ro_config (rg_ro g))) = true /\ keep_running_count_up (parameters (ro_config (rg_ro g))) = up /\
  qe_up qe = up.
Lemma adjust_ro g : let g1 := rg_adjust_prus A g in
  ro_force_stop (rg_ro g1) = ro_force_stop (rg_ro g) /\ ro_force_immediate (rg_ro g1) = ro_force_immediate (rg_ro g)
  /\ keep_running (parameters (ro_config (rg_ro g1))) = keep_running (parameters (ro_config (rg_ro g)))
  /\ keep_running_count_up (parameters (ro_config (rg_ro g1))) = keep_running_count_up (parameters (ro_config (rg_ro g)))
  /\ rg_params g1 = rg_params g /\ rw_state (rg_rw g1) = rw_state (rg_rw g).
Proof.
  unfold rg_adjust_prus. cbv zeta.
  repeat match goal with |- context [if ?b then _ else _] => destruct b end; repeat split; reflexivity.
Qed.
Lemma kept_step strict old up g qe cs g' qe' : kept up g qe -> isRampGeneratorActive g = true ->
  ramp_step A strict old g qe = Some (cs, g', qe') ->
  Forall (fun c => c_up c = up) cs /\ kept up g' qe' /\ (strict = false -> isRampGeneratorActive g' = true).
Proof.
  intros (H1 & H2 & H3 & H4 & H5 & H6) Hact. unfold ramp_step, rg_getNextCommand, rg_take_parameters. rewrite H1. cbv zeta.
  destruct (adjust_ro g) as (Ra & Rb & Rc & Rd & R2 & R3). set (g1 := rg_adjust_prus A g) in *.
  set (ro := rg_new_target _ _ _ _).
  assert (RO : ro_force_stop ro = false /\ ro_force_immediate ro = false /\ keep_running (parameters (ro_config ro)) = true
    /\ keep_running_count_up (parameters (ro_config ro)) = up).
  { subst ro. unfold rg_new_target. rewrite Ra, H2. rewrite H2 in Ra. rewrite H3 in Rb. rewrite H4 in Rc. rewrite H5 in Rd.
    destruct (any_change (parameters (ro_config (rg_ro g1)))); [|cbn; auto]. rewrite Rc. cbn. auto. }
  destruct RO as (O1 & O2 & O3 & O4). rewrite O2.
  change (rg_rw (with_ro ro g1)) with (rg_rw g1).
  destruct (getNextCommand_ A ro (rg_rw g1) qe old) as [n|] eqn:EG; [|discriminate].
  assert (Hs : rw_state (rg_rw g1) <> RAMP_STATE_IDLE).
  { rewrite R3. unfold isRampGeneratorActive in Hact. intros K. rewrite K in Hact. discriminate. }
  destruct (keeps_dir _ _ _ _ _ up O3 O4 H6 Hs EG) as [U S].
  assert (Act : forall g2, isRampGeneratorActive (rg_afterCommandEnqueued n g2) = true).
  { intros g2. unfold isRampGeneratorActive, rg_afterCommandEnqueued. cbn. apply Bool.negb_true_iff, Z.eqb_neq. exact S. }
  assert (K : forall w q, qe_up q = up -> kept up (with_rw w (with_ro ro g1)) q).
  { intros w q Hq. unfold kept. cbn. rewrite R2. auto 10. }
  destruct (c_ticks (n_cmd n) =? 0); [|destruct (strict && _) eqn:ES]; intros E; injection E as <- <- <-.
  - split; [constructor|]. split; [apply K; exact H6|]. intros _. apply Act.
  - split; [constructor|]. split; [apply K; exact H6|]. intros ->. discriminate ES.
  - split; [constructor; [exact U|constructor]|]. split; [|intros _; apply Act]. apply K. unfold enqueue. cbn. exact U.
Qed.
Lemma kept_run strict up : forall n olds g qe cs g' qe', kept up g qe -> ramp_run A strict olds n g qe = Some (cs, g', qe') ->
  Forall (fun c => c_up c = up) cs /\ kept up g' qe'
  /\ (strict = false -> isRampGeneratorActive g = true -> isRampGeneratorActive g' = true).
Proof.
  induction n as [|n IH]; intros olds g qe cs g' qe' H E; cbn [ramp_run] in E.
  { injection E as <- <- <-. auto. }
  destruct (isRampGeneratorActive g) eqn:Ha; [|injection E as <- <- <-; rewrite Ha; auto].
  destruct (ramp_step A strict (olds O) g qe) as [[[c1 g1] q1]|] eqn:E1; [|discriminate].
  destruct (kept_step strict _ up _ _ _ _ _ H Ha E1) as (S1 & S2 & S3).
  destruct (ramp_run A strict _ n g1 q1) as [[[c2 g2] q2]|] eqn:E2; [|discriminate]. injection E as <- <- <-.
  destruct (IH _ _ _ _ _ _ S2 E2) as (T1 & T2 & T3).
  split; [apply Forall_app; auto|]. split; [exact T2|]. intros K _. apply T3; auto.
Qed.
Lemma keep_running_on strict n olds g qe cs g' qe' :
  apply (rg_params g) = false -> ro_force_stop (rg_ro g) = false -> ro_force_immediate (rg_ro g) = false ->
  keep_running_count_up (parameters (ro_config (rg_ro g))) = qe_up qe ->
  ramp_run A strict olds n (rg_setKeepRunning g) qe = Some (cs, g', qe') ->
  Forall (fun c => c_up c = qe_up qe) cs /\ qe_up qe' = qe_up qe /\ rg_isRunningContinuously g' = true
  /\ (strict = false -> isRampGeneratorActive g = true -> isRampGeneratorActive g' = true).
Proof.
  intros H1 H2 H3 H4 E.
  destruct (kept_run strict (qe_up qe) n olds (rg_setKeepRunning g) qe cs g' qe') as (T1 & T2 & T3); [|exact E|].
  - unfold kept. cbn. auto 10.
  - destruct T2 as (_ & _ & _ & T4 & _ & T5). auto.
Qed.
End WithArch.

(** * UserRamp: single calls of the ramp generator *)
From Coq Require Import ZArith Bool List Lia ZifyBool.
From Verif Require Import Base Pmf PmfFacts RampCalc RampCalcFacts RampGen RampStep.
Import ListNotations.
Open Scope Z_scope.
Ltac Zify.zify_post_hook ::= idtac.
Ltac splits := repeat match goal with |- _ /\ _ => split end.

(** ** Refused calls *)
Lemma refused_run up g : checkValidConfig (rg_params g) <> MOVE_OK ->
  rg_startRun up g = (g, checkValidConfig (rg_params g)).
Proof. intros H. unfold rg_startRun. destruct (Z.eqb_spec (checkValidConfig (rg_params g)) MOVE_OK); [contradiction|reflexivity]. Qed.
Lemma refused_moveTo pos qe g : checkValidConfig (rg_params g) <> MOVE_OK ->
  rg_moveTo pos qe g = (g, checkValidConfig (rg_params g)).
Proof. intros H. unfold rg_moveTo. destruct (Z.eqb_spec (checkValidConfig (rg_params g)) MOVE_OK); [contradiction|reflexivity]. Qed.
Lemma refused_move d g : checkValidConfig (rg_params g) <> MOVE_OK ->
  rg_move d g = (g, checkValidConfig (rg_params g)).
Proof. intros H. unfold rg_move. destruct (Z.eqb_spec (checkValidConfig (rg_params g)) MOVE_OK); [contradiction|reflexivity]. Qed.
Lemma refused_calls g : let code := if valid_speed (rg_params g) then -3 else -2 in
  valid_speed (rg_params g) && valid_acceleration (rg_params g) = false ->
  (forall up, rg_startRun up g = (g, code)) /\ (forall pos qe, rg_moveTo pos qe g = (g, code))
  /\ (forall d, rg_move d g = (g, code)) /\ (forall a, a <= 0 -> rg_setAcceleration a g = (g, -1)).
Proof.
  intros code H.
  assert (C : checkValidConfig (rg_params g) = code).
  { unfold checkValidConfig, code. destruct (valid_speed _); [|reflexivity]. cbn in H. rewrite H. reflexivity. }
  assert (N : checkValidConfig (rg_params g) <> MOVE_OK).
  { rewrite C. unfold code. destruct (valid_speed _); discriminate. }
  splits; intros; rewrite <- ?C.
  - now apply refused_run.
  - now apply refused_moveTo.
  - now apply refused_move.
  - unfold rg_setAcceleration. destruct (Z.leb_spec a 0); [reflexivity|lia].
Qed.

(** ** Accepted calls *)
Lemma started_while_active rw : rw_state rw <> RAMP_STATE_IDLE -> startRampIfNotRunning rw = rw.
Proof. intros H. unfold startRampIfNotRunning. destruct (Z.eqb_spec (rw_state rw) RAMP_STATE_IDLE); [contradiction|reflexivity]. Qed.
Lemma started_active rw : rw_state (startRampIfNotRunning rw) <> RAMP_STATE_IDLE.
Proof. unfold startRampIfNotRunning. destruct (Z.eqb_spec (rw_state rw) RAMP_STATE_IDLE); [discriminate|assumption]. Qed.
Lemma active_iff g : isRampGeneratorActive g = true <-> rw_state (rg_rw g) <> RAMP_STATE_IDLE.
Proof. unfold isRampGeneratorActive. destruct (Z.eqb_spec (rw_state (rg_rw g)) RAMP_STATE_IDLE); cbn; split; congruence. Qed.

Definition accepted_call (g : rampgen) (r : rampgen * Z) : Prop :=
  snd r = MOVE_OK
  /\ rg_isStopping (fst r) = false
  /\ (isRampGeneratorActive g = true -> rg_rw (fst r) = rg_rw g)
  /\ ro_config (rg_ro (fst r)) = ro_config (rg_ro g)
  /\ ro_target_pos (rg_ro (fst r)) = ro_target_pos (rg_ro g).
Lemma valid_check g : valid_speed (rg_params g) = true -> valid_acceleration (rg_params g) = true ->
  checkValidConfig (rg_params g) =? MOVE_OK = true.
Proof. intros V1 V2. unfold checkValidConfig. rewrite V1, V2. reflexivity. Qed.
Lemma accepted_calls g : valid_speed (rg_params g) = true -> valid_acceleration (rg_params g) = true ->
  (forall up, let r := rg_startRun up g in accepted_call g r /\ isRampGeneratorActive (fst r) = true)
  /\ (forall pos qe, let r := rg_moveTo pos qe g in
       let target := if isRampGeneratorActive g && negb (rg_isRunningContinuously g)
                     then rg_targetPosition g else qe_pos qe in
       accepted_call g r
       /\ isRampGeneratorActive (fst r) = isRampGeneratorActive g || negb (pos =? target))
  /\ (forall d, let r := rg_move d g in accepted_call g r
       /\ isRampGeneratorActive (fst r) = isRampGeneratorActive g || negb (d =? 0)).
Proof.
  intros V1 V2. pose proof (valid_check g V1 V2) as C. unfold accepted_call.
  assert (ST : forall p ro acc, ro_force_stop ro = false ->
     rg_isStopping (mkRg p ro (startRampIfNotRunning (rg_rw g)) acc) = false).
  { intros p ro acc H. unfold rg_isStopping. cbn. rewrite H. reflexivity. }
  assert (AC : forall p ro acc, isRampGeneratorActive (mkRg p ro (startRampIfNotRunning (rg_rw g)) acc) = true).
  { intros. apply active_iff. apply started_active. }
  splits.
  - intros up. unfold rg_startRun. rewrite C. cbn [negb fst snd]. cbv zeta. splits; auto.
    intros H. apply started_while_active. now apply active_iff.
  - intros pos qe. unfold rg_moveTo. rewrite C. cbn [negb]. cbv zeta. cbn [fst snd].
    unfold rg_isRunningContinuously, rg_targetPosition.
    set (tg := if _ && _ then _ else _). rewrite (Z.eqb_sym pos tg).
    unfold rg_startMove. destruct (Z.eqb_spec tg pos) as [E|E]; cbn [negb with_params with_ro with_rw rg_params rg_ro rg_rw].
    + splits; auto. rewrite orb_false_r. reflexivity.
    + splits; auto; [|rewrite orb_true_r; apply AC]. intros H. apply started_while_active. now apply active_iff.
  - intros d. unfold rg_move. rewrite C. cbn [negb]. cbv zeta. cbn [fst snd].
    unfold rg_startMove. destruct (Z.eqb_spec d 0) as [E|E]; cbn [negb with_params with_ro with_rw rg_params rg_ro rg_rw].
    + splits; auto. rewrite orb_false_r. reflexivity.
    + splits; auto; [|rewrite orb_true_r; apply AC]. intros H. apply started_while_active. now apply active_iff.
Qed.
Lemma i32_u32 z : i32 (u32 z) = i32 z.
Proof. unfold i32, u32. rewrite Zplus_mod_idemp_l. reflexivity. Qed.

Lemma i32_add x d : i32 (i32 x + d) = i32 (x + d).
Proof.
  unfold i32. replace ((x + 2147483648) mod 4294967296 - 2147483648 + d + 2147483648)
    with ((x + 2147483648) mod 4294967296 + d) by lia.
  rewrite Zplus_mod_idemp_l. f_equal. f_equal. lia.
Qed.

Section WithArch.
Variable A : arch.

(** ** The target after the next round of the background task *)
Definition round_target (qe : queue_end) (old : next_command) (g : rampgen) : option Z :=
  match rg_getNextCommand A qe old g with Some (g', _) => Some (rg_targetPosition g') | None => None end.
Lemma round_target_eq qe old g g' n : rg_getNextCommand A qe old g = Some (g', n) ->
  let a := rg_adjust_prus A (rg_take_parameters A g) in
  let ro := rg_new_target (keep_running (parameters (ro_config (rg_ro g)))) qe (rg_ro a) (rw_prus (rg_rw a)) in
  rg_ro g' = if ro_force_immediate ro then set_target (u32 (qe_pos qe)) (set_immediate false ro) else ro.
Proof.
  unfold rg_getNextCommand. set (a := rg_adjust_prus A (rg_take_parameters A g)). clearbody a. cbv zeta.
  set (r := rg_new_target _ _ _ _). clearbody r. destruct (ro_force_immediate r).
  - intros H. injection H as <- _. reflexivity.
  - cbn [with_ro rg_rw]. destruct (getNextCommand_ _ _ _ _ _); [|discriminate]. intros H. injection H as <- _. reflexivity.
Qed.
Lemma adjust_ro g : rg_ro (rg_adjust_prus A g) = rg_ro g
  \/ rg_ro (rg_adjust_prus A g) = map_parameters (set_recalc false) (rg_ro g).
Proof.
  unfold rg_adjust_prus. cbv zeta. destruct (rw_curr_ticks (rg_rw g) =? TICKS_FOR_STOPPED_MOTOR).
  - right. destruct (recalc_ramp_steps _); reflexivity.
  - left. destruct (recalc_ramp_steps _); reflexivity.
Qed.
Lemma update_params c : parameters (update A c) = parameters c.
Proof. unfold update. cbv zeta. destruct (_ >? 0); reflexivity. Qed.

(** parameters are pending: move_value [v], absolute or relative *)
Lemma round_params qe old g g' n : rg_getNextCommand A qe old g = Some (g', n) ->
  apply (rg_params g) = true -> any_change (rg_params g) = true -> keep_running (rg_params g) = false ->
  ro_force_stop (rg_ro g) = false -> ro_force_immediate (rg_ro g) = false ->
  rg_targetPosition g' =
    i32 (if move_absolute (rg_params g) then move_value (rg_params g)
         else (if rg_isRunningContinuously g then qe_pos qe else ro_target_pos (rg_ro g)) + move_value (rg_params g)).
Proof.
  intros E Hap Hch Hk Hs Hi. pose proof (round_target_eq _ _ _ _ _ E) as R. cbv zeta in R.
  unfold rg_targetPosition. rewrite R. clear R E.
  unfold rg_isRunningContinuously.
  set (g1 := rg_take_parameters A g).
  assert (F : parameters (ro_config (rg_ro g1)) = rg_params g /\ ro_target_pos (rg_ro g1) = ro_target_pos (rg_ro g)
    /\ ro_force_stop (rg_ro g1) = false /\ ro_force_immediate (rg_ro g1) = false).
  { unfold g1, rg_take_parameters. rewrite Hap. cbn [set_config ro_force_immediate rg_ro]. rewrite Hi.
    cbn [set_config rg_ro ro_config ro_target_pos ro_force_stop ro_force_immediate]. rewrite update_params. auto. }
  clearbody g1. destruct F as (F1 & F2 & F3 & F4).
  set (a := rg_adjust_prus A g1).
  assert (G : keep_running (parameters (ro_config (rg_ro a))) = false
    /\ any_change (parameters (ro_config (rg_ro a))) = true
    /\ move_absolute (parameters (ro_config (rg_ro a))) = move_absolute (rg_params g)
    /\ move_value (parameters (ro_config (rg_ro a))) = move_value (rg_params g)
    /\ ro_target_pos (rg_ro a) = ro_target_pos (rg_ro g)
    /\ ro_force_stop (rg_ro a) = false /\ ro_force_immediate (rg_ro a) = false).
  { destruct (adjust_ro g1) as [H|H]; fold a in H; rewrite H; cbn [map_parameters set_config set_parameters ro_config parameters set_recalc
      keep_running any_change move_absolute move_value ro_target_pos ro_force_stop ro_force_immediate]; rewrite F1; auto 10. }
  clearbody a. destruct G as (G1 & G2 & G3 & G4 & G5 & G6 & G7).
  unfold rg_new_target. rewrite G6, G2, G1, G3, G4. cbv zeta.
  destruct (move_absolute (rg_params g)); cbn; rewrite G7; cbn; rewrite ?i32_u32; [reflexivity|].
  destruct (keep_running (parameters (ro_config (rg_ro g)))); cbn; rewrite ?G5.
  - unfold i32, u32. rewrite <- (Z.add_assoc (_ mod _)), Zplus_mod_idemp_l, Z.add_assoc. reflexivity.
  - reflexivity.
Qed.

Lemma move_target d qe old g g' n : valid_speed (rg_params g) = true -> valid_acceleration (rg_params g) = true ->
  any_change (rg_params g) = false -> ro_force_immediate (rg_ro g) = false ->
  rg_getNextCommand A qe old (fst (rg_move d g)) = Some (g', n) ->
  rg_targetPosition g' = i32 ((if rg_isRunningContinuously g then qe_pos qe else rg_targetPosition g) + d).
Proof.
  intros V1 V2 Hc Hi E. pose proof (valid_check g V1 V2) as C.
  unfold rg_move in E. rewrite C in E. cbn [negb fst] in E.
  set (h := rg_startMove _ _) in E.
  assert (F : rg_params h = p_setTargetRelativePosition d (rg_params g) /\ ro_force_stop (rg_ro h) = false
    /\ ro_force_immediate (rg_ro h) = false /\ ro_target_pos (rg_ro h) = ro_target_pos (rg_ro g)
    /\ rg_isRunningContinuously h = rg_isRunningContinuously g).
  { unfold h, rg_startMove. destruct (negb _); cbn; auto. }
  clearbody h. destruct F as (F1 & F2 & F3 & F4 & F5).
  rewrite (round_params _ _ _ _ _ E); rewrite ?F1, ?F2, ?F3, ?F4, ?F5; auto.
  cbn. rewrite Hc. cbn [andb negb]. destruct (rg_isRunningContinuously g); [reflexivity|].
  unfold rg_targetPosition. symmetry. apply i32_add.
Qed.
Lemma moveTo_target pos qe qe' old g g' n : valid_speed (rg_params g) = true -> valid_acceleration (rg_params g) = true ->
  ro_force_immediate (rg_ro g) = false ->
  rg_getNextCommand A qe' old (fst (rg_moveTo pos qe g)) = Some (g', n) ->
  rg_targetPosition g' = i32 pos.
Proof.
  intros V1 V2 Hi E. pose proof (valid_check g V1 V2) as C.
  unfold rg_moveTo in E. rewrite C in E. cbn [negb fst] in E.
  set (h := rg_startMove _ _) in E.
  assert (F : rg_params h = p_setTargetPosition pos (rg_params g) /\ ro_force_stop (rg_ro h) = false
    /\ ro_force_immediate (rg_ro h) = false).
  { unfold h, rg_startMove. destruct (negb _); cbn; auto. }
  clearbody h. destruct F as (F1 & F2 & F3).
  rewrite (round_params _ _ _ _ _ E); rewrite ?F1, ?F2, ?F3; auto.
Qed.

(** ** Several calls before the next round *)
Lemma move_params d g : valid_speed (rg_params g) = true -> valid_acceleration (rg_params g) = true ->
  let h := fst (rg_move d g) in
  rg_params h = p_setTargetRelativePosition d (rg_params g) /\ ro_force_stop (rg_ro h) = false
    /\ ro_force_immediate (rg_ro h) = ro_force_immediate (rg_ro g) /\ ro_target_pos (rg_ro h) = ro_target_pos (rg_ro g)
    /\ rg_isRunningContinuously h = rg_isRunningContinuously g.
Proof.
  intros V1 V2. unfold rg_move. rewrite (valid_check g V1 V2). cbn [negb fst].
  unfold rg_startMove. destruct (negb (d =? 0)); cbn; auto.
Qed.
Definition moves (ds : list Z) (g : rampgen) : rampgen := fold_left (fun g d => fst (rg_move d g)) ds g.
Lemma moves_value : forall ds g, valid_speed (rg_params g) = true -> valid_acceleration (rg_params g) = true ->
  any_change (rg_params g) = true -> move_absolute (rg_params g) = false -> apply (rg_params g) = true ->
  keep_running (rg_params g) = false -> ro_force_stop (rg_ro g) = false ->
  let h := moves ds g in
  any_change (rg_params h) = true /\ move_absolute (rg_params h) = false /\ apply (rg_params h) = true
  /\ keep_running (rg_params h) = false /\ ro_force_stop (rg_ro h) = false
  /\ i32 (move_value (rg_params h)) = i32 (move_value (rg_params g) + fold_right Z.add 0 ds)
  /\ ro_force_immediate (rg_ro h) = ro_force_immediate (rg_ro g) /\ ro_target_pos (rg_ro h) = ro_target_pos (rg_ro g)
  /\ rg_isRunningContinuously h = rg_isRunningContinuously g.
Proof.
  induction ds as [|d ds IH]; intros g V1 V2 Hc Hm Ha Hk Hs; unfold moves; cbn [fold_left fold_right].
  - splits; auto. now rewrite Z.add_0_r.
  - fold (moves ds (fst (rg_move d g))). destruct (move_params d g V1 V2) as (F1 & F2 & F3 & F4 & F5).
    assert (G : move_value (rg_params (fst (rg_move d g))) = i32 (move_value (rg_params g) + d)).
    { rewrite F1. unfold p_setTargetRelativePosition. rewrite Hc, Hm. reflexivity. }
    set (h := fst (rg_move d g)) in *. clearbody h.
    destruct (IH h) as (I1 & I2 & I3 & I4 & I5 & I6 & I7 & I8 & I9); auto; try (rewrite F1; auto; reflexivity).
    splits; auto; try congruence. rewrite I6, G, i32_add. f_equal. lia.
Qed.
Lemma moves_target ds qe old g g' n : ds <> [] -> valid_speed (rg_params g) = true -> valid_acceleration (rg_params g) = true ->
  any_change (rg_params g) = false -> ro_force_immediate (rg_ro g) = false ->
  rg_getNextCommand A qe old (moves ds g) = Some (g', n) ->
  rg_targetPosition g' = i32 ((if rg_isRunningContinuously g then qe_pos qe else rg_targetPosition g) + fold_right Z.add 0 ds).
Proof.
  destruct ds as [|d ds]; [contradiction|]. intros _ V1 V2 Hc Hi E. unfold moves in E. cbn [fold_left fold_right] in *. fold (moves ds (fst (rg_move d g))) in E.
  destruct (move_params d g V1 V2) as (F1 & F2 & F3 & F4 & F5).
  assert (G : move_value (rg_params (fst (rg_move d g))) = d).
  { rewrite F1. unfold p_setTargetRelativePosition. rewrite Hc. reflexivity. }
  set (h := fst (rg_move d g)) in *. clearbody h.
  destruct (moves_value ds h) as (I1 & I2 & I3 & I4 & I5 & I6 & I7 & I8 & I9); auto; try (rewrite F1; auto; reflexivity).
  rewrite (round_params _ _ _ _ _ E); auto; [|congruence].
  rewrite I2, I8, I9, F4, F5, Z.add_comm, <- i32_add, I6, i32_add, G.
  destruct (rg_isRunningContinuously g).
  - f_equal. lia.
  - unfold rg_targetPosition. rewrite i32_add. f_equal. lia.
Qed.

(** ** A new acceleration during the motion *)
Lemma ramp_steps_ext c c' t : s_h (parameters c') = s_h (parameters c) -> pmfl_accel (parameters c') = pmfl_accel (parameters c) ->
  pmfl_ticks_h c' = pmfl_ticks_h c -> cubic c' = cubic c -> calculate_ramp_steps A c' t = calculate_ramp_steps A c t.
Proof. intros E1 E2 E3 E4. unfold calculate_ramp_steps. rewrite E1, E2, E3, E4. reflexivity. Qed.

(** The parameters are taken over: the ramp steps belong to the new acceleration *)
Lemma take_accel a g h : s_h (rg_params g) = 0 -> 1 <= a < 2147483648 ->
  valid_acceleration (rg_params g) = false \/ pmfl_accel (rg_params g) <> pmfl_from_u32 a ->
  rg_params h = set_apply true (p_setAcceleration a (rg_params g)) ->
  ro_config (rg_ro h) = ro_config (rg_ro g) ->
  ro_force_immediate (rg_ro h) = false ->
  rw_curr_ticks (rg_rw h) <> TICKS_FOR_STOPPED_MOTOR ->
  rw_prus (rg_rw (rg_adjust_prus A (rg_take_parameters A h)))
    = calculate_ramp_steps A (const_accel A a (set_parameters (rg_params g) (ro_config (rg_ro g)))) (rw_curr_ticks (rg_rw h)).
Proof.
  intros Hs Ha Hd Hp Hc Hi Hcurr.
  assert (R : recalc_ramp_steps (p_setAcceleration a (rg_params g)) = true).
  { unfold p_setAcceleration. replace (u32 a) with a by (unfold u32; rewrite Z.mod_small; lia).
    destruct Hd as [Hd|Hd]; [rewrite Hd; reflexivity|].
    destruct (Z.eqb_spec (pmfl_accel (rg_params g)) (pmfl_from_u32 a)); [contradiction|].
    rewrite orb_true_r. reflexivity. }
  set (k := rg_take_parameters A h).
  assert (F : ro_config (rg_ro k) = update A (set_parameters (set_apply true (p_setAcceleration a (rg_params g))) (ro_config (rg_ro g)))
    /\ rg_rw k = rg_rw h).
  { unfold k, rg_take_parameters. rewrite Hp. cbn [set_apply apply].
    cbn [set_config ro_force_immediate]. rewrite Hi. cbn. rewrite Hc. split; reflexivity. }
  clearbody k. destruct F as [F1 F2].
  unfold rg_adjust_prus. rewrite F2. destruct (Z.eqb_spec (rw_curr_ticks (rg_rw h)) TICKS_FOR_STOPPED_MOTOR); [contradiction|].
  cbv zeta. rewrite F1, update_params. cbn [set_parameters parameters].
  replace (recalc_ramp_steps (set_apply true (p_setAcceleration a (rg_params g)))) with true by (symmetry; exact R).
  cbn [with_rw rg_rw rw_prus].
  apply ramp_steps_ext; unfold const_accel; rewrite ?update_params; try reflexivity.
  all: unfold update; cbv zeta; cbn [set_parameters parameters];
    set (p := p_setAcceleration a (rg_params g)); change (s_h (set_apply true p)) with (s_h p);
    destruct (s_h p >? 0); reflexivity.
Qed.
Definition new_accel (a : Z) (g : rampgen) : rampgen := rg_applySpeedAcceleration (fst (rg_setAcceleration a g)).
Lemma accel_stop a g qe old g' n : s_h (rg_params g) = 0 -> 1 <= a < 2147483648 ->
  valid_acceleration (rg_params g) = false \/ pmfl_accel (rg_params g) <> pmfl_from_u32 a ->
  ro_force_immediate (rg_ro g) = false -> rw_curr_ticks (rg_rw g) <> TICKS_FOR_STOPPED_MOTOR ->
  rg_getNextCommand A qe old (rg_initiateStop (new_accel a g)) = Some (g', n) ->
  let steps := calculate_ramp_steps A (const_accel A a (set_parameters (rg_params g) (ro_config (rg_ro g)))) (rw_curr_ticks (rg_rw g)) in
  rg_targetPosition g' = i32 (if qe_up qe then qe_pos qe + steps else qe_pos qe - steps).
Proof.
  intros Hs Ha Hd Hi Hc E steps. set (h := rg_initiateStop (new_accel a g)) in *.
  assert (PA : any_change (p_setAcceleration a (rg_params g)) = true).
  { unfold p_setAcceleration. replace (u32 a) with a by (unfold u32; rewrite Z.mod_small; lia).
    destruct Hd as [Hd|Hd]; [rewrite Hd; reflexivity|].
    destruct (Z.eqb_spec (pmfl_accel (rg_params g)) (pmfl_from_u32 a)); [contradiction|].
    rewrite orb_true_r. reflexivity. }
  assert (F : rg_params h = set_apply true (p_setAcceleration a (rg_params g))
    /\ ro_config (rg_ro h) = ro_config (rg_ro g) /\ ro_force_immediate (rg_ro h) = false
    /\ ro_force_stop (rg_ro h) = true /\ rg_rw h = rg_rw g).
  { unfold h, new_accel, rg_setAcceleration, rg_applySpeedAcceleration. destruct (Z.leb_spec a 0); [lia|].
    cbn [fst rg_ro]. rewrite Hi. cbn. unfold applyParameters. rewrite PA. auto. }
  clearbody h. destruct F as (F1 & F2 & F3 & F4 & F5).
  pose proof (take_accel a g h Hs Ha Hd F1 F2 F3) as T. rewrite F5 in T. specialize (T Hc).
  set (b := rg_adjust_prus A (rg_take_parameters A h)) in *.
  assert (G : ro_force_stop (rg_ro b) = true /\ ro_force_immediate (rg_ro b) = false
    /\ rw_pause_left (rg_rw b) = rw_pause_left (rg_rw g)).
  { unfold b. set (k := rg_take_parameters A h).
    assert (K : ro_force_stop (rg_ro k) = true /\ ro_force_immediate (rg_ro k) = false /\ rg_rw k = rg_rw g).
    { unfold k, rg_take_parameters. rewrite F1. cbn [set_apply apply set_config ro_force_immediate]. rewrite F3.
      cbn. rewrite F4. auto. }
    clearbody k. destruct K as (K1 & K2 & K3). splits.
    - destruct (adjust_ro k) as [->| ->]; [exact K1|exact K1].
    - destruct (adjust_ro k) as [->| ->]; [exact K2|exact K2].
    - unfold rg_adjust_prus. cbv zeta. rewrite <- K3. destruct (rw_curr_ticks (rg_rw k) =? TICKS_FOR_STOPPED_MOTOR);
        cbn [rg_ro]; destruct (recalc_ramp_steps _); reflexivity. }
  destruct G as (G1 & G2 & G3).
  pose proof (round_target_eq _ _ _ _ _ E) as R. cbv zeta in R. fold b in R. clearbody b. clear E.
  - unfold rg_targetPosition. rewrite R. unfold rg_new_target. rewrite G1. cbn. rewrite G2. cbn. rewrite T. fold steps.
    destruct (qe_up qe); rewrite i32_u32; unfold i32, u32.
    + rewrite <- (Z.add_assoc (_ mod _)), Zplus_mod_idemp_l, Z.add_assoc. reflexivity.
    + replace (qe_pos qe mod 4294967296 - steps + 2147483648) with (qe_pos qe mod 4294967296 + (2147483648 - steps)) by lia.
      rewrite Zplus_mod_idemp_l. f_equal. f_equal. lia.
Qed.

(** ** The sign of the reported acceleration *)
Lemma u32_id x : 0 <= x < 4294967296 -> u32 x = x.
Proof. intros. unfold u32. apply Z.mod_small. lia. Qed.
Lemma min_cmd_cases s d P R planning s' d' pl' : gnc_min_cmd A s d P R planning = Some (s', d', pl') ->
  s' = DEC \/ s' = s /\ d' = d.
Proof.
  unfold gnc_min_cmd. destruct (_ && _); [|intros H; injection H as <- <- <-; auto].
  destruct (d =? 0); [discriminate|]. cbv zeta.
  destruct (_ >=? R).
  - destruct (_ >=? R); intros H; injection H as <- <- <-; [auto|]. destruct (R <? _); auto.
  - destruct (_ >=? R); intros H; injection H as <- <- <-; [auto|]. destruct (R <? _); auto.
Qed.
Lemma round_cases qe old g g' n : rg_getNextCommand A qe old g = Some (g', n) ->
  let b := rg_adjust_prus A (rg_take_parameters A g) in
  c_ticks (n_cmd n) = 0 \/
  exists ro, getNextCommand_ A ro (rg_rw b) qe old = Some n /\ g' = with_ro ro b /\ ro_config ro = ro_config (rg_ro g').
Proof.
  intros E b. unfold rg_getNextCommand in E. cbv zeta in E. fold b in E. clearbody b.
  set (ro := rg_new_target _ _ _ _) in E. clearbody ro. cbn [with_ro rg_rw] in E.
  destruct (ro_force_immediate ro).
  - injection E as _ <-. left. reflexivity.
  - destruct (getNextCommand_ A ro (rg_rw b) qe old) as [m|] eqn:K; [|discriminate].
    injection E as <- <-. right. exists ro. auto.
Qed.
Lemma adjust_rw g : let b := rg_adjust_prus A (rg_take_parameters A g) in
  rw_curr_ticks (rg_rw b) = rw_curr_ticks (rg_rw g) /\ rg_acceleration b = rg_acceleration g
  /\ rw_pause_left (rg_rw b) = rw_pause_left (rg_rw g).
Proof.
  intros b. unfold b. set (k := rg_take_parameters A g).
  assert (K : rg_rw k = rg_rw g /\ rg_acceleration k = rg_acceleration g).
  { unfold k, rg_take_parameters. destruct (apply (rg_params g)); auto. }
  clearbody k. destruct K as [K1 K2]. rewrite <- K1, <- K2.
  unfold rg_adjust_prus. cbv zeta. destruct (rw_curr_ticks (rg_rw k) =? TICKS_FOR_STOPPED_MOTOR);
    cbn [rg_ro]; destruct (recalc_ramp_steps _); auto.
Qed.
Lemma split_sum next R planning steps t pause :
  gnc_split next R planning = (steps, t, pause) -> 0 <= next -> pause < 2147483648 -> u32 (pause + t) = next /\ 0 <= pause.
Proof.
  unfold gnc_split. destruct (Z.gtb_spec next 65535); intros E H0; injection E as <- <- <-.
  - rewrite Z.shiftr_div_pow2 by lia. change (2 ^ 1) with 2. rewrite fas_min_spec.
    pose proof (Z.div_mod next 2 ltac:(lia)). pose proof (Z.mod_pos_bound next 2 ltac:(lia)).
    intros Hb. split; [rewrite u32_id; lia|lia].
  - intros Hb. split; [rewrite u32_id; lia|lia].
Qed.

Definition sign_ok (s : rstate) (T0 M T1 : Z) : Prop :=
  match s with
  | COAST => T1 = T0
  | ACC => T1 <= T0
  | DEC | REV => Z.min T0 M <= T1
  end.
Lemma sign_step c s d curr P R pl steps t pause P' t' : curr <> TICKS_FOR_STOPPED_MOTOR -> 0 <= curr ->
  let M := min_travel_ticks (parameters c) in 0 <= M <= 2147483648 -> pause < 2147483648 ->
  match s with COAST => d = curr | ACC => 0 <= d | _ => True end ->
  gnc_split (gnc_clip s d curr) R pl = (steps, t, pause) -> gnc_prus c s P R steps t = (P', t') ->
  sign_ok s curr M (u32 (pause + t')).
Proof.
  intros Hc H0 M HM Hb Hs ES EP. unfold gnc_clip in ES.
  destruct (Z.eqb_spec curr TICKS_FOR_STOPPED_MOTOR); [contradiction|]. cbn [negb] in ES.
  assert (D : decelerating s = true -> Z.min curr M <= u32 (pause + t')).
  { intros D. replace (accelerating s) with false in ES by (destruct s; discriminate || reflexivity).
    rewrite D, fas_max_spec in ES. destruct (split_sum _ _ _ _ _ _ ES ltac:(lia) Hb) as [S1 S2].
    assert (t' = t \/ t' = M) as [->| ->].
    { revert EP. unfold gnc_prus. fold M. rewrite D. replace (accelerating s) with false by (destruct s; discriminate || reflexivity).
      cbv zeta. destruct (P <? steps); [intros EP; injection EP as _ <-; auto|].
      destruct (P >? max_ramp_up_steps c); [intros EP; injection EP as _ <-; auto|].
      destruct ((P >=? max_ramp_up_steps c) && (u32 (max_ramp_up_steps c + steps) <=? R) && (P - steps <? max_ramp_up_steps c));
        [intros EP; injection EP as _ <-; auto|].
      destruct (R >? P); intros EP; injection EP as _ <-; auto. }
    - lia.
    - rewrite u32_id; lia. }
  destruct s; cbn [accelerating decelerating sign_ok] in *; try (apply D; reflexivity).
  - subst d. cbn in EP. injection EP as _ <-. apply (split_sum _ _ _ _ _ _ ES H0 Hb).
  - cbn in EP. injection EP as _ <-. rewrite fas_min_spec in ES.
    destruct (split_sum _ _ _ _ _ _ ES ltac:(lia) Hb) as [S1 S2]. lia.
Qed.
Lemma gnc_sign ro rw qe old n : getNextCommand_ A ro rw qe old = Some n ->
  let M := min_travel_ticks (parameters (ro_config ro)) in
  c_ticks (n_cmd n) <> 0 -> rw_pause_left rw = 0 -> rw_curr_ticks rw <> TICKS_FOR_STOPPED_MOTOR ->
  0 <= rw_curr_ticks rw -> 0 <= M <= 2147483648 -> rw_pause_left (n_rw n) < 2147483648 ->
  exists s, rw_state (n_rw n) = Z.lor (rstate_byte s) (if c_up (n_cmd n) then RAMP_DIRECTION_COUNT_UP else RAMP_DIRECTION_COUNT_DOWN)
    /\ sign_ok s (rw_curr_ticks rw) M (rw_curr_ticks (n_rw n)).
Proof.
  intros E M Hn Hp Hc H0 HM Hb. unfold getNextCommand_, gnc_pause in E. rewrite Hp in E. cbn [Z.gtb Z.compare] in E.
  cbv zeta in E. fold M in E.
  destruct (gnc_delta ro qe) as [[need R]|]; [|discriminate].
  set (curr := rw_curr_ticks rw) in *. set (P := rw_prus rw) in *. clearbody curr P.
  destruct ((R =? 0) && (P <=? 1)); [injection E as <-; elim Hn; reflexivity|].
  destruct (gnc_planning A curr) as [orig|]; [|discriminate].
  set (up := if P =? 0 then need else qe_up qe) in *. clearbody up.
  destruct (gnc_choose _ _ _ _ _ _ _) as [[s R'] pl]. clear R. rename R' into R.
  destruct (R =? 0); [injection E as <-; elim Hn; reflexivity|].
  destruct (gnc_new_ticks A (ro_config ro) s curr P R pl orig) as [d pl'] eqn:ET.
  destruct (gnc_min_cmd A s d P R pl') as [[[s' d'] pl'']|] eqn:EM; [|discriminate].
  destruct (gnc_split (gnc_clip s' d' curr) R pl'') as [[steps t] pause] eqn:ES.
  destruct (gnc_prus (ro_config ro) s' P R steps t) as [P' t'] eqn:EP.
  injection E as <-. exists s'. split; [reflexivity|]. cbn [n_rw rw_pause_left rw_curr_ticks] in *.
  apply (sign_step _ _ _ _ _ _ _ _ _ _ _ _ Hc H0 HM Hb) with (2 := ES) (3 := EP).
  destruct (min_cmd_cases _ _ _ _ _ _ _ _ EM) as [->|[-> ->]]; [exact I|].
  destruct s; try exact I; unfold gnc_new_ticks in ET; cbn [accelerating decelerating] in ET; cbv zeta in ET; injection ET as <- _.
  - reflexivity.
  - fold M. rewrite fas_max_spec. lia.
Qed.
Lemma sign_lemma qe old g g' n : rg_getNextCommand A qe old g = Some (g', n) ->
  let M := min_travel_ticks (parameters (ro_config (rg_ro g'))) in
  let h := rg_afterCommandEnqueued n g' in let T0 := rw_curr_ticks (rg_rw g) in let T1 := rw_curr_ticks (rg_rw h) in
  let acc := rg_getCurrentAcceleration h in
  c_ticks (n_cmd n) <> 0 -> rw_pause_left (rg_rw g) = 0 -> T0 <> TICKS_FOR_STOPPED_MOTOR -> 0 <= T0 ->
  0 <= M <= 2147483648 -> rw_pause_left (rg_rw h) < 2147483648 -> 0 < rg_acceleration g < 2147483648 ->
  (acc = 0 -> T1 = T0)
  /\ (acc > 0 -> if c_up (n_cmd n) then T1 <= T0 else Z.min T0 M <= T1)
  /\ (acc < 0 -> if c_up (n_cmd n) then Z.min T0 M <= T1 else T1 <= T0)
  /\ Z.abs acc <= rg_acceleration g.
Proof.
  intros E M h T0 T1 acc Hn Hp Hc H0 HM Hb HA.
  destruct (adjust_rw g) as (B1 & B2 & B3).
  destruct (round_cases _ _ _ _ _ E) as [K|(ro & K & Eg & Ec)]; [contradiction|].
  set (b := rg_adjust_prus A (rg_take_parameters A g)) in *. clearbody b.
  assert (F : rg_rw h = n_rw n /\ rg_acceleration h = rg_acceleration g).
  { unfold h, rg_afterCommandEnqueued. subst g'. cbn. rewrite B2. auto. }
  destruct F as [F1 F2]. unfold T1, acc. unfold T1 in *. clear acc. rewrite F1 in *. clearbody h.
  unfold T0 in *. rewrite <- B1 in Hc, H0 |- *. unfold M in HM. rewrite <- Ec in HM. rewrite <- B3 in Hp.
  destruct (gnc_sign _ _ _ _ _ K Hn Hp Hc H0 HM Hb) as (s & S1 & S2). rewrite Ec in S2. fold M in S2.
  unfold rg_getCurrentAcceleration. rewrite F1, F2, S1.
  assert (I1 : i32 (rg_acceleration g) = rg_acceleration g) by (apply i32_id; lia).
  assert (I2 : i32 (- rg_acceleration g) = - rg_acceleration g) by (apply i32_id; lia).
  destruct s, (c_up (n_cmd n)); cbn -[Z.min i32]; rewrite ?I1, ?I2; cbn [sign_ok] in S2; splits; intros; lia.
Qed.
End WithArch.

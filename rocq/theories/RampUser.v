(** * RampUser: moves as requested through the interface of the ramp generator *)
From Coq Require Import ZArith Bool List Lia ZifyBool.
From Verif Require Import Base Pmf PmfFacts RampCalc RampCalcFacts RampGen RampStep RampRun RampMove RampSafe RampAcc.
Import ListNotations.
Open Scope Z_scope.
Ltac Zify.zify_post_hook ::= idtac.

Section WithArch.
Variable A : arch.
(** does the queue refuse commands below its minimum duration *)
Variable strict : bool.
Hypothesis HA : In A all_archs.

(** The configuration has been set with setAcceleration(a) and
    setSpeedInTicks(M), and any setLinearAcceleration(); no jump start. *)
Definition configured (g : rampgen) (a M : Z) : Prop :=
  checkValidConfig (rg_params g) = MOVE_OK /\
  pmfl_accel (rg_params g) = pmfl_from_u32 a /\ min_travel_ticks (rg_params g) = M /\
  s_jump (rg_params g) = 0 /\ 0 <= s_h (rg_params g) < 4294967294.

(** The runtime fields of the ramp generator have sensible values: idle, or
    running with a period [C] of at most 2^31 ticks and [P] ramp steps. *)
Definition sane (g : rampgen) : Prop :=
  0 <= rw_prus (rg_rw g) /\ 1 <= rw_curr_ticks (rg_rw g) /\
  0 <= rw_pause_left (rg_rw g) < 4294967296 /\
  (rw_curr_ticks (rg_rw g) = TICKS_FOR_STOPPED_MOTOR /\ rw_pause_left (rg_rw g) = 0 \/
   rw_curr_ticks (rg_rw g) <= 2147483648) /\
  ro_force_immediate (rg_ro g) = false.

(** standstill: the ramp generator is idle *)
Definition idle (g : rampgen) : Prop :=
  isRampGeneratorActive g = false /\ rw_pause_left (rg_rw g) = 0 /\
  ro_force_immediate (rg_ro g) = false.

(** ramp steps performed, as seen by the next command: the number is recalculated
    if the acceleration has been changed *)
Definition ramp_steps (g : rampgen) : Z :=
  if isRampGeneratorActive g
  then start_prus A (rg_params g) (update A (set_parameters (rg_params g) (ro_config (rg_ro g)))) (rg_rw g)
  else 0.

(** period, with which the motor currently runs *)
Definition period (g : rampgen) : Z :=
  if isRampGeneratorActive g then rw_curr_ticks (rg_rw g) else TICKS_FOR_STOPPED_MOTOR.

(** target of move(), while a move is in progress, at standstill or while running *)
Definition base_target (g : rampgen) (qe : queue_end) : Z :=
  if rg_isRunningContinuously g then qe_pos qe else rg_targetPosition g.

Lemma steps_irrel p c v abs kr up ap ac t :
  calculate_ramp_steps A (update A (set_parameters
    (set_apply ap (set_any_change ac (set_keep kr up (set_move v abs p)))) c)) t =
  calculate_ramp_steps A (update A (set_parameters p c)) t.
Proof.
  unfold calculate_ramp_steps, update. cbn. destruct (s_h p >? 0); reflexivity.
Qed.

(** state after move() or moveTo() *)
Lemma started_rw changed g :
  rg_rw (rg_startMove changed g) =
  if changed then startRampIfNotRunning (rg_rw g) else rg_rw g.
Proof. destruct changed; reflexivity. Qed.
Lemma started_ro changed g : rg_ro (rg_startMove changed g) = set_force_stop false (rg_ro g).
Proof. destruct changed; reflexivity. Qed.
Lemma started_params changed g : rg_params (rg_startMove changed g) = rg_params g.
Proof. destruct changed; reflexivity. Qed.

Lemma start_curr changed g : isRampGeneratorActive g = true \/ changed = true ->
  let rw' := (if changed : bool then startRampIfNotRunning (rg_rw g) else rg_rw g) in
  rw_curr_ticks rw' = period g /\ rw_pause_left rw' = rw_pause_left (rg_rw g) /\
  rw_prus rw' = rw_prus (rg_rw g) /\ negb (rw_state rw' =? RAMP_STATE_IDLE) = true.
Proof.
  intros H. unfold period, startRampIfNotRunning, isRampGeneratorActive in *.
  destruct changed; destruct (rw_state (rg_rw g) =? RAMP_STATE_IDLE) eqn:E; cbn;
    rewrite ?E; cbn; repeat split; destruct H; try discriminate.
Qed.

Lemma sane_period g : sane g -> (isRampGeneratorActive g = false -> rw_pause_left (rg_rw g) = 0) ->
  1 <= period g /\
  (period g = TICKS_FOR_STOPPED_MOTOR /\ rw_pause_left (rg_rw g) = 0 \/ period g <= 2147483648).
Proof.
  intros (H1 & H2 & H3 & H4 & H5) H. unfold period. destruct (isRampGeneratorActive g).
  - split; [assumption|]. intuition.
  - split; [unfold TICKS_FOR_STOPPED_MOTOR; lia|]. left. auto.
Qed.

Section Pending.
Variables (g : rampgen) (qe : queue_end) (olds : nat -> next_command).
Variables (a M v : Z) (abs changed : bool).
Hypothesis Hcfg : configured g a M.
Hypothesis Hsane : sane g.
Hypothesis Hidle : isRampGeneratorActive g = false -> rw_pause_left (rg_rw g) = 0.
Hypothesis Hch : isRampGeneratorActive g = true \/ changed = true.
Hypothesis Ha : 1 <= a < 2147483648.
Hypothesis Hqe : -2147483648 <= qe_pos qe < 2147483648.
Let p := set_apply true (set_any_change true (set_keep false true (set_move v abs (rg_params g)))).
Let g' := rg_startMove changed (with_params p g).
Let t := target_of p (rg_isRunningContinuously g) (ro_target_pos (rg_ro g)) (qe_pos qe).
Let d := i32 (t - qe_pos qe).
Hypothesis HB : Z.abs d + ramp_steps g < 1073741824.
Hypothesis Hab : a * Z.max (Z.abs d + ramp_steps g) 42000 <= 100000000000000.

Lemma pending_prus :
  start_prus A (rg_params g') (update A (set_parameters (rg_params g') (ro_config (rg_ro g')))) (rg_rw g')
  = ramp_steps g.
Proof.
  unfold g'. rewrite started_params, started_ro, started_rw.
  cbn [rg_params with_params rg_rw rg_ro set_force_stop ro_config].
  destruct (start_curr changed g Hch) as (E1 & E2 & E3 & E4). cbv zeta in *.
  unfold start_prus, ramp_steps. rewrite E1, E3. unfold p. cbn [s_jump recalc_ramp_steps set_apply set_any_change set_keep set_move].
  rewrite steps_irrel. destruct Hcfg as (_ & _ & _ & Ej & _). rewrite Ej.
  unfold period, start_prus. rewrite Ej. destruct (isRampGeneratorActive g); [reflexivity|].
  rewrite Z.eqb_refl. reflexivity.
Qed.

Ltac hyps :=
  destruct (start_curr changed g Hch) as (E1 & E2 & E3 & E4); cbv zeta in E1, E2, E3, E4;
  destruct Hcfg as (V & C1 & C2 & C3 & C4);
  pose proof (sane_period g Hsane Hidle) as (P1 & P2);
  destruct Hsane as (S1 & S2 & S3 & S4 & S5);
  pose proof pending_prus as EP.

Lemma pending_ends : 2 <= M <= 1073741824 -> (u16 M <> 0 \/ M <= period g) ->
  ends_at A false olds g' qe (fun _ _ qe' => qe_pos qe' = i32 t).
Proof.
  intros HM HuM. hyps.
  assert (Et : target_of (rg_params g') (keep_running (parameters (ro_config (rg_ro g'))))
                 (ro_target_pos (rg_ro g')) (qe_pos qe) = t).
  { unfold g'. rewrite started_params, started_ro. reflexivity. }
  rewrite <- Et.
  apply move_ends with (a := a); rewrite ?Et, ?EP; fold d; try assumption;
    unfold g', isRampGeneratorActive; rewrite ?started_params, ?started_ro, ?started_rw;
    cbn [rg_params with_params rg_rw rg_ro set_force_stop ro_config ro_force_stop ro_force_immediate];
    rewrite ?E1, ?E2, ?E3, ?E4; try assumption; try reflexivity;
    unfold p; cbn [min_travel_ticks set_apply set_any_change set_keep set_move]; rewrite C2; assumption.
Qed.

Lemma pending_accepted : MIN_CMD_TICKS A <= M <= 1073741824 -> (M <= 65535 \/ M <= period g) ->
  MIN_CMD_TICKS A <= period g ->
  (rw_pause_left (rg_rw g) = 0 \/ 32767 <= rw_pause_left (rg_rw g)) ->
  ends_at A strict olds g' qe (fun cs _ qe' => qe_pos qe' = i32 t /\
    Forall (valid_cmd A) cs /\ pauses cs = rw_pause_left (rg_rw g) /\ speed_ok (Z.min M (period g)) cs).
Proof.
  intros HM HuM HC Hpa. hyps.
  assert (Et : target_of (rg_params g') (keep_running (parameters (ro_config (rg_ro g'))))
                 (ro_target_pos (rg_ro g')) (qe_pos qe) = t).
  { unfold g'. rewrite started_params, started_ro. reflexivity. }
  rewrite <- Et.
  assert (EM : min_travel_ticks (rg_params g') = M).
  { unfold g'. rewrite started_params. exact C2. }
  assert (EC : rw_curr_ticks (rg_rw g') = period g).
  { unfold g'. rewrite started_rw. exact E1. }
  assert (El : rw_pause_left (rg_rw g') = rw_pause_left (rg_rw g)).
  { unfold g'. rewrite started_rw. exact E2. }
  rewrite <- EM, <- EC, <- El.
  apply move_accepted with (a := a); rewrite ?Et, ?EP, ?EM, ?EC, ?El; fold d; try assumption;
    unfold g', isRampGeneratorActive; rewrite ?started_params, ?started_ro, ?started_rw;
    cbn [rg_params with_params rg_rw rg_ro set_force_stop ro_config ro_force_stop ro_force_immediate];
    rewrite ?E1, ?E2, ?E3, ?E4; try assumption; try reflexivity.
  clear - Hpa S3. lia.
Qed.

Lemma pending_standstill : MIN_CMD_TICKS A <= M <= 1073741824 -> isRampGeneratorActive g = false ->
  ends_soon A strict olds g' qe (fun cs _ qe' => qe_pos qe' = i32 t /\
    total_steps cs = Z.abs d /\ Forall (valid_cmd A) cs /\ Forall (moves_only (0 <? d)) cs /\
    speed_ok M cs /\ Forall (at_least M) cs).
Proof.
  intros HM Hna. hyps.
  assert (Et : target_of (rg_params g') (keep_running (parameters (ro_config (rg_ro g'))))
                 (ro_target_pos (rg_ro g')) (qe_pos qe) = t).
  { unfold g'. rewrite started_params, started_ro. reflexivity. }
  rewrite <- Et.
  assert (EM : min_travel_ticks (rg_params g') = M).
  { unfold g'. rewrite started_params. exact C2. }
  assert (EC : rw_curr_ticks (rg_rw g') = period g).
  { unfold g'. rewrite started_rw. exact E1. }
  assert (El : rw_pause_left (rg_rw g') = rw_pause_left (rg_rw g)).
  { unfold g'. rewrite started_rw. exact E2. }
  rewrite <- EM. 
  assert (ramp_steps g = 0) as HR by (unfold ramp_steps; rewrite Hna; reflexivity).
  apply standstill_move with (a := a); rewrite ?Et, ?EM, ?EC, ?El; fold d; try assumption;
    unfold g', isRampGeneratorActive; rewrite ?started_params, ?started_ro, ?started_rw;
    cbn [rg_params with_params rg_rw rg_ro set_force_stop ro_config ro_force_stop ro_force_immediate];
    rewrite ?E1, ?E2, ?E3, ?E4; try assumption; try reflexivity.
  - unfold period. rewrite Hna. reflexivity.
  - auto.
  - rewrite HR in HB. clear - HB. lia.
  - rewrite HR in Hab. rewrite Z.add_0_r in Hab. exact Hab.
Qed.
End Pending.

(** ** moveTo *)
Section MoveTo.
Variables (g : rampgen) (qe : queue_end) (olds : nat -> next_command) (a M pos : Z).
Hypothesis Hcfg : configured g a M.
Hypothesis Hsane : sane g.
Hypothesis Hidle : isRampGeneratorActive g = false -> rw_pause_left (rg_rw g) = 0.
Hypothesis Ha : 1 <= a < 2147483648.
Hypothesis Hqe : -2147483648 <= qe_pos qe < 2147483648.
Hypothesis Hpos : -2147483648 <= pos < 2147483648.
Let d := i32 (pos - qe_pos qe).
Hypothesis HB : Z.abs d + ramp_steps g < 1073741824.
Hypothesis Hab : a * Z.max (Z.abs d + ramp_steps g) 42000 <= 100000000000000.

Lemma moveTo_shape : exists changed, rg_moveTo pos qe g =
  (rg_startMove changed (with_params (set_apply true (set_any_change true
     (set_keep false true (set_move pos true (rg_params g))))) g), MOVE_OK) /\
  (isRampGeneratorActive g = true \/ changed = true \/ changed = false /\
     isRampGeneratorActive g = false /\ qe_pos qe = pos).
Proof.
  unfold rg_moveTo. destruct Hcfg as (V & _). rewrite V. cbn [negb Z.eqb MOVE_OK].
  eexists. split; [reflexivity|].
  destruct (isRampGeneratorActive g); [left; reflexivity|right]. cbn [andb].
  destruct (Z.eqb_spec (qe_pos qe) pos); [right|left]; auto.
Qed.

Lemma moveTo_target : i32 (u32 pos) = pos /\ i32 (u32 pos - qe_pos qe) = d.
Proof.
  split; [|apply i32_u32_sub].
  rewrite i32_u32. apply i32_id. lia.
Qed.

Lemma moveTo_ends : 2 <= M <= 1073741824 -> (u16 M <> 0 \/ M <= period g) ->
  exists g', rg_moveTo pos qe g = (g', MOVE_OK) /\
    ends_at A false olds g' qe (fun _ _ qe' => qe_pos qe' = pos).
Proof.
  intros HM HuM. destruct moveTo_shape as (ch & E & H). rewrite E. eexists. split; [reflexivity|].
  destruct moveTo_target as (T1 & T2).
  assert (H' : isRampGeneratorActive g = true \/ ch = true \/ ch = false /\
     isRampGeneratorActive g = false /\ qe_pos qe = pos) by exact H.
  destruct H' as [H'|[H'|(H1 & H2 & H3)]].
  1,2: eapply ends_weaken; [|apply pending_ends with (a := a) (M := M); try assumption; auto];
    unfold target_of; cbn [move_absolute move_value set_apply set_any_change set_keep set_move];
    rewrite ?T1, ?T2; auto.
  apply ends_idle; [|exact H3]. rewrite H1. exact H2.
Qed.

Lemma moveTo_accepted : MIN_CMD_TICKS A <= M <= 1073741824 -> (M <= 65535 \/ M <= period g) ->
  MIN_CMD_TICKS A <= period g ->
  (rw_pause_left (rg_rw g) = 0 \/ 32767 <= rw_pause_left (rg_rw g)) ->
  exists g', rg_moveTo pos qe g = (g', MOVE_OK) /\
    ends_at A strict olds g' qe (fun cs _ qe' => qe_pos qe' = pos /\
      Forall (valid_cmd A) cs /\ pauses cs = rw_pause_left (rg_rw g) /\
      speed_ok (Z.min M (period g)) cs).
Proof.
  intros HM HuM HC Hpa. destruct moveTo_shape as (ch & E & H). rewrite E. eexists. split; [reflexivity|].
  destruct moveTo_target as (T1 & T2).
  destruct H as [H'|[H'|(H1 & H2 & H3)]].
  1,2: eapply ends_weaken; [|apply pending_accepted with (a := a) (M := M); try assumption; auto];
    unfold target_of; cbn [move_absolute move_value set_apply set_any_change set_keep set_move];
    rewrite ?T1, ?T2; auto.
  apply ends_idle; [rewrite H1; exact H2|]. cbn. repeat split; auto. symmetry. auto.
Qed.

Lemma moveTo_soon : MIN_CMD_TICKS A <= M <= 1073741824 -> isRampGeneratorActive g = false ->
  exists g', rg_moveTo pos qe g = (g', MOVE_OK) /\
    ends_soon A strict olds g' qe (fun cs _ qe' => qe_pos qe' = pos /\
      total_steps cs = Z.abs d /\ Forall (valid_cmd A) cs /\ Forall (moves_only (0 <? d)) cs /\
      speed_ok M cs /\ Forall (at_least M) cs).
Proof.
  intros HM Hna. destruct moveTo_shape as (ch & E & H). rewrite E. eexists. split; [reflexivity|].
  destruct moveTo_target as (T1 & T2).
  destruct H as [H'|[H'|(H1 & H2 & H3)]].
  1,2: eapply soon_weaken; [|apply pending_standstill with (a := a) (M := M); try assumption; auto];
    unfold target_of; cbn [move_absolute move_value set_apply set_any_change set_keep set_move];
    rewrite ?T1, ?T2; auto.
  apply soon_idle; [rewrite H1; exact H2|]. unfold d. rewrite H3, Z.sub_diag. cbn. repeat split; auto.
Qed.
Lemma moveTo_standstill : MIN_CMD_TICKS A <= M <= 1073741824 -> isRampGeneratorActive g = false ->
  exists g', rg_moveTo pos qe g = (g', MOVE_OK) /\
    ends_at A strict olds g' qe (fun cs _ qe' => qe_pos qe' = pos /\
      total_steps cs = Z.abs d /\ Forall (valid_cmd A) cs /\ Forall (moves_only (0 <? d)) cs /\
      speed_ok M cs /\ Forall (at_least M) cs).
Proof.
  intros HM Hna. destruct (moveTo_soon HM Hna) as (g' & E & H). exists g'. split; [exact E|]. now apply ends_soon_at.
Qed.
End MoveTo.

(** ** move *)
(** relative moves requested, but not yet seen by the background task *)
Definition pending_move (g : rampgen) : Z :=
  if any_change (rg_params g) && negb (move_absolute (rg_params g))
  then move_value (rg_params g) else 0.

Section Move.
Variables (g : rampgen) (qe : queue_end) (olds : nat -> next_command) (a M delta : Z).
Hypothesis Hcfg : configured g a M.
Hypothesis Hsane : sane g.
Hypothesis Hidle : isRampGeneratorActive g = false -> rw_pause_left (rg_rw g) = 0.
Hypothesis Ha : 1 <= a < 2147483648.
Hypothesis Hqe : -2147483648 <= qe_pos qe < 2147483648.
Hypothesis Hdelta : isRampGeneratorActive g = true \/ delta <> 0.
Hypothesis Hdr : -2147483648 <= delta < 2147483648.
Let target := i32 (base_target g qe + pending_move g + delta).
Let d := i32 (target - qe_pos qe).
Hypothesis HB : Z.abs d + ramp_steps g < 1073741824.
Hypothesis Hab : a * Z.max (Z.abs d + ramp_steps g) 42000 <= 100000000000000.

Definition move_v : Z :=
  if any_change (rg_params g) && negb (move_absolute (rg_params g))
  then i32 (move_value (rg_params g) + delta) else delta.

Lemma move_shape : exists changed, rg_move delta g =
  (rg_startMove changed (with_params (set_apply true (set_any_change true
     (set_keep false true (set_move move_v false (rg_params g))))) g), MOVE_OK) /\
  (isRampGeneratorActive g = true \/ changed = true).
Proof.
  unfold rg_move. destruct Hcfg as (V & _). rewrite V. cbn [negb Z.eqb MOVE_OK].
  eexists. split; [reflexivity|].
  destruct Hdelta as [H|H]; [left; exact H|right]. destruct (Z.eqb_spec delta 0); auto.
Qed.

Lemma move_target (b : Z) :
  b = (if rg_isRunningContinuously g then u32 (qe_pos qe) else ro_target_pos (rg_ro g)) ->
  i32 (u32 (b + move_v)) = target /\ i32 (u32 (b + move_v) - qe_pos qe) = d.
Proof.
  intros Hb.
  assert (E : i32 (u32 (b + move_v)) = target).
  { rewrite i32_u32. unfold target. apply i32_eq_iff. unfold move_v, pending_move, base_target, rg_targetPosition.
    subst b. destruct (any_change _ && _); destruct (rg_isRunningContinuously g); cbn [andb];
      unfold i32, u32; rewrite ?Z.add_0_r; (clear; Z.div_mod_to_equations; lia). }
  split; [exact E|].
  unfold d. rewrite <- E. rewrite i32_u32. apply i32_eq_iff.
  unfold i32, u32. (clear; Z.div_mod_to_equations; lia).
Qed.

Lemma move_ends_at : 2 <= M <= 1073741824 -> (u16 M <> 0 \/ M <= period g) ->
  exists g', rg_move delta g = (g', MOVE_OK) /\
    ends_at A false olds g' qe (fun _ _ qe' => qe_pos qe' = target).
Proof.
  intros HM HuM. destruct move_shape as (ch & E & H). rewrite E. eexists. split; [reflexivity|].
  destruct (move_target _ eq_refl) as (T1 & T2).
  eapply ends_weaken; [|apply pending_ends with (a := a) (M := M); try assumption; auto];
    unfold target_of; cbn [move_absolute move_value set_apply set_any_change set_keep set_move];
    rewrite ?T1, ?T2; auto.
Qed.

Lemma move_accepted_at : MIN_CMD_TICKS A <= M <= 1073741824 -> (M <= 65535 \/ M <= period g) ->
  MIN_CMD_TICKS A <= period g ->
  (rw_pause_left (rg_rw g) = 0 \/ 32767 <= rw_pause_left (rg_rw g)) ->
  exists g', rg_move delta g = (g', MOVE_OK) /\
    ends_at A strict olds g' qe (fun cs _ qe' => qe_pos qe' = target /\
      Forall (valid_cmd A) cs /\ pauses cs = rw_pause_left (rg_rw g) /\
      speed_ok (Z.min M (period g)) cs).
Proof.
  intros HM HuM HC Hpa. destruct move_shape as (ch & E & H). rewrite E. eexists. split; [reflexivity|].
  destruct (move_target _ eq_refl) as (T1 & T2).
  eapply ends_weaken; [|apply pending_accepted with (a := a) (M := M); try assumption; auto];
    unfold target_of; cbn [move_absolute move_value set_apply set_any_change set_keep set_move];
    rewrite ?T1, ?T2; auto.
Qed.

Lemma move_soon : MIN_CMD_TICKS A <= M <= 1073741824 -> isRampGeneratorActive g = false ->
  exists g', rg_move delta g = (g', MOVE_OK) /\
    ends_soon A strict olds g' qe (fun cs _ qe' => qe_pos qe' = target /\
      total_steps cs = Z.abs d /\ Forall (valid_cmd A) cs /\ Forall (moves_only (0 <? d)) cs /\
      speed_ok M cs /\ Forall (at_least M) cs).
Proof.
  intros HM Hna. destruct move_shape as (ch & E & H). rewrite E. eexists. split; [reflexivity|].
  destruct (move_target _ eq_refl) as (T1 & T2).
  eapply soon_weaken; [|apply pending_standstill with (a := a) (M := M); try assumption; auto];
    unfold target_of; cbn [move_absolute move_value set_apply set_any_change set_keep set_move];
    rewrite ?T1, ?T2; auto.
Qed.
Lemma move_standstill : MIN_CMD_TICKS A <= M <= 1073741824 -> isRampGeneratorActive g = false ->
  exists g', rg_move delta g = (g', MOVE_OK) /\
    ends_at A strict olds g' qe (fun cs _ qe' => qe_pos qe' = target /\
      total_steps cs = Z.abs d /\ Forall (valid_cmd A) cs /\ Forall (moves_only (0 <? d)) cs /\
      speed_ok M cs /\ Forall (at_least M) cs).
Proof.
  intros HM Hna. destruct (move_soon HM Hna) as (g' & E & H). exists g'. split; [exact E|]. now apply ends_soon_at.
Qed.
End Move.
End WithArch.

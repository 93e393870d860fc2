(** * P_Ramp: properties C31-C40, the ramp generator *)
From Coq Require Import ZArith Bool List Lia.
From Verif Require Import Base Pmf RampCalc RampGen RampStep RampRun RampMove RampSafe RampAcc RampUser
  RampStop RampKeep RampMisc RampProp.
Import ListNotations.
Open Scope Z_scope.
Ltac Zify.zify_post_hook ::= idtac.

(** ** Concrete objects for the examples and counterexamples *)
(** a new ramp generator after setAcceleration(a), setSpeedInTicks(M) *)
Definition started (a M : Z) : rampgen :=
  rg_setSpeedInTicks M (fst (rg_setAcceleration a (rg_init 0))).
Definition at_zero : queue_end := mkQueueEnd 0 true true.
(** contents of the uninitialised local variable of the task *)
Definition old0 : nat -> next_command := fun _ => mkNext (mkCommand 0 0 true) stopped_rw.
Definition end_pos (r : option (list command * rampgen * queue_end)) : option (Z * bool) :=
  match r with Some (_, g, q) => Some (qe_pos q, isRampGeneratorActive g) | None => None end.
Definition cmds (r : option (list command * rampgen * queue_end)) : list command :=
  match r with Some (cs, _, _) => cs | None => [] end.
Definition state (r : option (list command * rampgen * queue_end)) : rampgen :=
  match r with Some (_, g, _) => g | None => rg_init 0 end.
Definition qend (r : option (list command * rampgen * queue_end)) : queue_end :=
  match r with Some (_, _, q) => q | None => at_zero end.

(** ** C31: a move ends exactly at its target

    [ramp_run A strict ...] executes the background task of [fill_queue]. With
    [strict = false] the queue accepts every command, with [strict = true] it
    refuses commands shorter than MIN_CMD_TICKS and the move is aborted (as the code
    does). [olds] is the contents of an uninitialised variable. *)
(** any ramp state, any speed up to half the representable range; the queue accepts *)
Theorem C31_moveTo_ends_at_target : forall A g qe olds a M pos,
  In A all_archs -> configured g a M -> sane g ->
  (isRampGeneratorActive g = false -> rw_pause_left (rg_rw g) = 0) ->
  1 <= a < 2147483648 -> -2147483648 <= qe_pos qe < 2147483648 -> -2147483648 <= pos < 2147483648 ->
  Z.abs (i32 (pos - qe_pos qe)) + ramp_steps A g < 1073741824 ->
  a * Z.max (Z.abs (i32 (pos - qe_pos qe)) + ramp_steps A g) 42000 <= 100000000000000 ->
  2 <= M <= 1073741824 -> (u16 M <> 0 \/ M <= period g) ->
  exists g', rg_moveTo pos qe g = (g', MOVE_OK) /\
    ends_at A false olds g' qe (fun _ _ qe' => qe_pos qe' = pos).
Proof. exact (fun A g qe olds a M pos HA Hc Hs Hi Ha Hq Hp HB Hab => moveTo_ends A HA g qe olds a M pos Hc Hs Hi Ha Hq Hp HB Hab). Qed.
Theorem C31_move_ends_at_target : forall A g qe olds a M delta,
  In A all_archs -> configured g a M -> sane g ->
  (isRampGeneratorActive g = false -> rw_pause_left (rg_rw g) = 0) ->
  1 <= a < 2147483648 -> -2147483648 <= qe_pos qe < 2147483648 ->
  (isRampGeneratorActive g = true \/ delta <> 0) ->
  let target := i32 (base_target g qe + pending_move g + delta) in
  let d := i32 (target - qe_pos qe) in
  Z.abs d + ramp_steps A g < 1073741824 ->
  a * Z.max (Z.abs d + ramp_steps A g) 42000 <= 100000000000000 ->
  2 <= M <= 1073741824 -> (u16 M <> 0 \/ M <= period g) ->
  exists g', rg_move delta g = (g', MOVE_OK) /\
    ends_at A false olds g' qe (fun _ _ qe' => qe_pos qe' = target).
Proof. exact (fun A g qe olds a M delta HA Hc Hs Hi Ha Hq Hp HB Hab => move_ends_at A HA g qe olds a M delta Hc Hs Hi Ha Hq Hp HB Hab). Qed.
(** any ramp state; the queue refuses short commands; speeds of at most one step
    per MIN_CMD_TICKS *)
Theorem C31_moveTo_ends_strict_partial : forall A g qe olds a M pos,
  In A all_archs -> configured g a M -> sane g ->
  (isRampGeneratorActive g = false -> rw_pause_left (rg_rw g) = 0) ->
  1 <= a < 2147483648 -> -2147483648 <= qe_pos qe < 2147483648 -> -2147483648 <= pos < 2147483648 ->
  Z.abs (i32 (pos - qe_pos qe)) + ramp_steps A g < 1073741824 ->
  a * Z.max (Z.abs (i32 (pos - qe_pos qe)) + ramp_steps A g) 42000 <= 100000000000000 ->
  MIN_CMD_TICKS A <= M <= 1073741824 -> (M <= 65535 \/ M <= period g) ->
  MIN_CMD_TICKS A <= period g ->
  (rw_pause_left (rg_rw g) = 0 \/ 32767 <= rw_pause_left (rg_rw g)) ->
  exists g', rg_moveTo pos qe g = (g', MOVE_OK) /\
    ends_at A true olds g' qe (fun cs _ qe' => qe_pos qe' = pos /\
      Forall (valid_cmd A) cs /\ pauses cs = rw_pause_left (rg_rw g) /\
      speed_ok (Z.min M (period g)) cs).
Proof. exact (fun A g qe olds a M pos HA Hc Hs Hi Ha Hq Hp HB Hab => moveTo_accepted A true HA g qe olds a M pos Hc Hs Hi Ha Hq Hp HB Hab). Qed.
Theorem C31_move_ends_strict_partial : forall A g qe olds a M delta,
  In A all_archs -> configured g a M -> sane g ->
  (isRampGeneratorActive g = false -> rw_pause_left (rg_rw g) = 0) ->
  1 <= a < 2147483648 -> -2147483648 <= qe_pos qe < 2147483648 ->
  (isRampGeneratorActive g = true \/ delta <> 0) ->
  let target := i32 (base_target g qe + pending_move g + delta) in
  let d := i32 (target - qe_pos qe) in
  Z.abs d + ramp_steps A g < 1073741824 ->
  a * Z.max (Z.abs d + ramp_steps A g) 42000 <= 100000000000000 ->
  MIN_CMD_TICKS A <= M <= 1073741824 -> (M <= 65535 \/ M <= period g) ->
  MIN_CMD_TICKS A <= period g ->
  (rw_pause_left (rg_rw g) = 0 \/ 32767 <= rw_pause_left (rg_rw g)) ->
  exists g', rg_move delta g = (g', MOVE_OK) /\
    ends_at A true olds g' qe (fun cs _ qe' => qe_pos qe' = target /\
      Forall (valid_cmd A) cs /\ pauses cs = rw_pause_left (rg_rw g) /\
      speed_ok (Z.min M (period g)) cs).
Proof. exact (fun A g qe olds a M delta HA Hc Hs Hi Ha Hq Hp HB Hab => move_accepted_at A true HA g qe olds a M delta Hc Hs Hi Ha Hq Hp HB Hab). Qed.
(** Above one step per MIN_CMD_TICKS the move may be aborted: ESP32, acceleration
    100000, one step every 3180 ticks (5031 steps/s), move by 261: the ramp generator
    issues a command of one step with 3180 < MIN_CMD_TICKS ticks at position 134, the
    queue refuses it and the move ends there, at full speed. *)
Theorem C31_ends_at_target_refuted : exists A a M pos n,
  In A all_archs /\ configured (started a M) a M /\ idle (started a M) /\
  exists g', rg_moveTo pos at_zero (started a M) = (g', MOVE_OK) /\
  exists p, end_pos (ramp_run A true old0 n g' at_zero) = Some (p, false) /\ p <> pos.
Proof.
  exists arch_esp32, 100000, 3180, 261, 40%nat.
  split; [cbn; auto|]. split; [repeat split; discriminate|]. split; [repeat split|].
  eexists. split; [reflexivity|]. exists 134. split; [vm_compute; reflexivity|discriminate].
Qed.
(** A distance of -2147483648: accepted, but its absolute value does not exist (undefined behaviour in the first call of
    getNextCommand). *)
Theorem C31_distance_refuted : exists A a M pos,
  In A all_archs /\ configured (started a M) a M /\ idle (started a M) /\ -2147483648 <= pos < 2147483648 /\
  exists g', rg_moveTo pos at_zero (started a M) = (g', MOVE_OK) /\ isRampGeneratorActive g' = true /\
  forall old, rg_getNextCommand A at_zero old g' = None.
Proof.
  exists arch_esp32, 1000, 8000, (-2147483648).
  split; [cbn; auto|]. split; [repeat split; discriminate|]. split; [repeat split|]. split; [lia|].
  eexists. split; [reflexivity|]. split; [reflexivity|]. intros old. vm_compute. reflexivity.
Qed.
Example C31_example : exists g', 
  rg_moveTo (-10) at_zero (started 10000 8000) = (g', MOVE_OK) /\
  ends_at arch_avr true old0 g' at_zero (fun cs _ qe' => qe_pos qe' = -10 /\
      Forall (valid_cmd arch_avr) cs /\ pauses cs = 0 /\ speed_ok 8000 cs).
Proof.
  apply C31_moveTo_ends_strict_partial with (a := 10000) (M := 8000); try (cbn; unfold TICKS_FOR_STOPPED_MOTOR; lia);
    try (vm_compute; intuition congruence).
Qed.

(** ** C32: no overshoot from standstill *)
Theorem C32_moveTo_monotone_partial : forall A g qe olds a M pos,
  In A all_archs -> configured g a M -> sane g ->
  (isRampGeneratorActive g = false -> rw_pause_left (rg_rw g) = 0) ->
  1 <= a < 2147483648 -> -2147483648 <= qe_pos qe < 2147483648 -> -2147483648 <= pos < 2147483648 ->
  let d := i32 (pos - qe_pos qe) in
  Z.abs d + ramp_steps A g < 1073741824 ->
  a * Z.max (Z.abs d + ramp_steps A g) 42000 <= 100000000000000 ->
  MIN_CMD_TICKS A <= M <= 1073741824 -> isRampGeneratorActive g = false ->
  exists g', rg_moveTo pos qe g = (g', MOVE_OK) /\
    ends_at A true olds g' qe (fun cs _ qe' => qe_pos qe' = pos /\
      total_steps cs = Z.abs d /\ Forall (valid_cmd A) cs /\ Forall (moves_only (0 <? d)) cs /\
      speed_ok M cs /\ Forall (at_least M) cs).
Proof. exact (fun A g qe olds a M pos HA Hc Hs Hi Ha Hq Hp HB Hab => moveTo_standstill A true HA g qe olds a M pos Hc Hs Hi Ha Hq Hp HB Hab). Qed.
Theorem C32_move_monotone_partial : forall A g qe olds a M delta,
  In A all_archs -> configured g a M -> sane g ->
  (isRampGeneratorActive g = false -> rw_pause_left (rg_rw g) = 0) ->
  1 <= a < 2147483648 -> -2147483648 <= qe_pos qe < 2147483648 ->
  (isRampGeneratorActive g = true \/ delta <> 0) ->
  let target := i32 (base_target g qe + pending_move g + delta) in
  let d := i32 (target - qe_pos qe) in
  Z.abs d + ramp_steps A g < 1073741824 ->
  a * Z.max (Z.abs d + ramp_steps A g) 42000 <= 100000000000000 ->
  MIN_CMD_TICKS A <= M <= 1073741824 -> isRampGeneratorActive g = false ->
  exists g', rg_move delta g = (g', MOVE_OK) /\
    ends_at A true olds g' qe (fun cs _ qe' => qe_pos qe' = target /\
      total_steps cs = Z.abs d /\ Forall (valid_cmd A) cs /\ Forall (moves_only (0 <? d)) cs /\
      speed_ok M cs /\ Forall (at_least M) cs).
Proof. exact (fun A g qe olds a M delta HA Hc Hs Hi Ha Hq Hp HB Hab => move_standstill A true HA g qe olds a M delta Hc Hs Hi Ha Hq Hp HB Hab). Qed.
(** At speeds above one step per MIN_CMD_TICKS a move from standstill can pass its
    target: acceleration 200935779, one step every 139 ticks, move from 0 to 50
    reaches 52 (and stays there, as the command to go back is refused). *)
Theorem C32_monotone_refuted : exists A a M pos n,
  In A all_archs /\ configured (started a M) a M /\ idle (started a M) /\ 0 < pos /\
  exists g', rg_moveTo pos at_zero (started a M) = (g', MOVE_OK) /\
  exists p, end_pos (ramp_run A true old0 n g' at_zero) = Some (p, false) /\ pos < p.
Proof.
  exists arch_pc, 200935779, 139, 50, 40%nat.
  split; [cbn; auto|]. split; [repeat split; discriminate|]. split; [repeat split|]. split; [reflexivity|].
  eexists. split; [reflexivity|]. exists 52. split; [vm_compute; reflexivity|reflexivity].
Qed.
Example C32_example : exists g', 
  rg_moveTo 20 at_zero (started 10000 70000) = (g', MOVE_OK) /\
  ends_at arch_sam true old0 g' at_zero (fun cs _ qe' => qe_pos qe' = 20 /\
      total_steps cs = 20 /\ Forall (valid_cmd arch_sam) cs /\ Forall (moves_only true) cs /\ speed_ok 70000 cs /\ Forall (at_least 70000) cs).
Proof.
  apply C32_moveTo_monotone_partial with (a := 10000) (M := 70000); try (cbn; unfold TICKS_FOR_STOPPED_MOTOR; lia);
    try (vm_compute; intuition congruence).
Qed.

(** ** C33: the configured speed is never exceeded

    The complete runs of C31 and C32 contain [speed_ok (Z.min M (period g))]. For a
    single command in any ramp state of a running motor: *)
Theorem C33_speed_limit_partial : forall A g a M qe old n,
  In A all_archs -> running A g a M ->
  keep_running (parameters (ro_config (rg_ro g))) = false ->
  Z.abs (i32 (ro_target_pos (rg_ro g) - qe_pos qe)) + rw_prus (rg_rw g) < 1073741824 ->
  M <= 65535 \/ M <= rw_curr_ticks (rg_rw g) ->
  getNextCommand_ A (rg_ro g) (rg_rw g) qe old = Some n ->
  c_ticks (n_cmd n) <> 0 -> c_steps (n_cmd n) <> 0 ->
  rw_pause_left (rg_rw g) = 0 /\
  Z.min M (rw_curr_ticks (rg_rw g)) <= c_ticks (n_cmd n) + rw_pause_left (n_rw n) /\
  (2 <= c_steps (n_cmd n) -> rw_pause_left (n_rw n) = 0).
Proof. exact (fun A g a M qe old n HA => speed_lemma A HA g a M qe old n). Qed.
(** A short move from standstill exceeds the configured speed: two steps with 1600
    ticks although 1774 are configured. *)
Theorem C33_speed_limit_short_move_refuted : exists A a M pos n,
  In A all_archs /\ configured (started a M) a M /\ idle (started a M) /\
  exists g', rg_moveTo pos at_zero (started a M) = (g', MOVE_OK) /\
  exists c, In c (cmds (ramp_run A true old0 n g' at_zero)) /\ 2 <= c_steps c /\ c_ticks c < M.
Proof.
  exists arch_esp32, 12525832, 1774, 2, 10%nat.
  split; [cbn; auto|]. split; [repeat split; discriminate|]. split; [repeat split|].
  eexists. split; [reflexivity|].
  exists (mkCommand 1600 2 true). vm_compute. intuition congruence.
Qed.
(** Reducing a slow speed from 357888 to 400000 ticks per step: the 16 bit field of the
    command truncates the period of one step, which takes 341249 ticks only. *)
Definition slow_run1 := ramp_run arch_pc true old0 7 (fst (rg_moveTo 10 at_zero (started 1000 357888))) at_zero.
Definition slower (M : Z) := rg_applySpeedAcceleration (rg_setSpeedInTicks M (state slow_run1)).
Theorem C33_speed_limit_slow_refuted : exists cs,
  cmds (ramp_run arch_pc true old0 13 (slower 400000) (qend slow_run1)) = cs /\
  ~ speed_ok 357888 cs.
Proof.
  eexists. split; [vm_compute; reflexivity|]. intros H. vm_compute in H.
  repeat match goal with H : _ /\ _ |- _ => destruct H end.
  match goal with H : _ -> Gt = Gt -> False |- _ => apply H; [discriminate|reflexivity] end.
Qed.

(** ** C34: direction reverses only at the end of a deceleration ramp *)
Theorem C34_reverses_only_at_ramp_end : forall A ro rw qe old n,
  0 <= rw_pause_left rw ->
  getNextCommand_ A ro rw qe old = Some n -> c_ticks (n_cmd n) <> 0 ->
  c_up (n_cmd n) <> qe_up qe -> rw_prus rw = 0 /\ rw_pause_left rw = 0.
Proof. exact dir_change. Qed.
(** If the target lies behind, the complete deceleration ramp is run first: [n]
    iterations of the task issue exactly stepsToStop() steps in the old direction,
    none of them faster than the current speed. *)
Theorem C34_decelerates_completely : forall A g a M qe olds,
  In A all_archs -> running A g a M ->
  keep_running (parameters (ro_config (rg_ro g))) = false -> ro_force_stop (rg_ro g) = false ->
  let d := i32 (ro_target_pos (rg_ro g) - qe_pos qe) in
  (if qe_up qe then d else - d) < 0 ->
  Z.abs d + rw_prus (rg_rw g) < 1073741824 ->
  a * Z.max (Z.abs d + rw_prus (rg_rw g)) 42000 <= 100000000000000 ->
  exists n cs g' qe', ramp_run A false olds n g qe = Some (cs, g', qe') /\
    total_steps cs = rg_stepsToStop g /\ Forall (moves_only (qe_up qe)) cs /\
    rg_stepsToStop g' = 0 /\ rw_pause_left (rg_rw g') = 0 /\
    pauses cs = rw_pause_left (rg_rw g) /\ speed_ok (rw_curr_ticks (rg_rw g)) cs /\
    isRampGeneratorActive g' = true.
Proof. exact (fun A g a M qe olds HA => reversal_lemma A HA g a M qe olds). Qed.
(** running upwards with 2 ramp steps, target behind *)
Definition behind : rampgen :=
  rg_setTargetPosition (-4)
    (state (ramp_run arch_pc true old0 4 (fst (rg_moveTo 100 at_zero (started 10000 8000))) at_zero)).
Example C34_example : running arch_pc behind 10000 8000 /\ rg_stepsToStop behind = 2.
Proof. split; [split; vm_compute; intuition congruence|vm_compute; reflexivity]. Qed.

(** ** C35: slow speeds keep the exact period *)
(** A period beyond 16 bits is split into one step and a pause; the sum is exact. *)
Theorem C35_split_exact : forall next R planning,
  1 <= next < 2 ^ 32 -> 1 <= R -> 0 <= planning <= 65535 ->
  exists steps t pause, gnc_split next R planning = (steps, t, pause) /\ 1 <= steps <= 255 /\
    1 <= t <= 65535 /\ t + pause = next /\ 0 <= pause /\
    (65535 < next -> steps = 1 /\ 32767 <= t /\ 32767 <= pause).
Proof. exact long_period. Qed.
(** The pause is issued completely by the following commands, in pieces of 16 bits. *)
Theorem C35_pause_exact : forall A ro rw qe old, 0 <= rw_pause_left rw < 2 ^ 32 ->
  exists n cs, pause_run A n ro rw qe old =
      Some (cs, mkRw (rw_state rw) (rw_prus rw) 0 (rw_curr_ticks rw)) /\
    pauses cs = rw_pause_left rw /\
    Forall (fun c => c_steps c = 0 /\ c_up c = qe_up qe /\
                     Z.min 32768 (rw_pause_left rw) <= c_ticks c <= 65535) cs.
Proof. exact (fun A ro rw qe old H => pause_run_spec A (rw_pause_left rw) ro rw qe old (conj (proj1 H) (Z.le_refl _)) (proj2 H)). Qed.
Example C35_example : exists cs,
  pause_run arch_pc 10 (rg_ro (rg_init 0)) (mkRw 1 5 200000 300000) at_zero (old0 O) =
    Some (cs, mkRw 1 5 0 300000) /\ map c_ticks cs = [65535; 65535; 34465; 34465].
Proof. eexists. split; vm_compute; reflexivity. Qed.
(** The exception: on reducing the speed beyond 16 bits the step command is truncated,
    the period is wrong by 65535 - 6784 ticks. *)
Theorem C35_exact_period_refuted : exists M c rest,
  skipn 5 (cmds (ramp_run arch_pc true old0 12 (slower M) (qend slow_run1))) = c :: rest /\
  c_steps c = 1 /\ Forall (fun c => c_steps c = 0) rest /\
  c_ticks c + pauses rest = 341249 /\ M = 400000.
Proof.
  exists 400000. eexists _, _. split; [vm_compute; reflexivity|].
  repeat split; repeat constructor.
Qed.

(** ** C36: every command of the ramp generator is accepted by the queue

    C31_..._strict_partial and C32_... contain [Forall (valid_cmd A)] for all moves with
    at least MIN_CMD_TICKS ticks per step; C40 for continuous running with any
    speed. Faster moves can issue a command which is too short: *)
Theorem C36_accepted_partial : forall A g qe olds a M pos,
  In A all_archs -> configured g a M -> sane g ->
  (isRampGeneratorActive g = false -> rw_pause_left (rg_rw g) = 0) ->
  1 <= a < 2147483648 -> -2147483648 <= qe_pos qe < 2147483648 -> -2147483648 <= pos < 2147483648 ->
  Z.abs (i32 (pos - qe_pos qe)) + ramp_steps A g < 1073741824 ->
  a * Z.max (Z.abs (i32 (pos - qe_pos qe)) + ramp_steps A g) 42000 <= 100000000000000 ->
  MIN_CMD_TICKS A <= M <= 1073741824 -> (M <= 65535 \/ M <= period g) ->
  MIN_CMD_TICKS A <= period g ->
  (rw_pause_left (rg_rw g) = 0 \/ 32767 <= rw_pause_left (rg_rw g)) ->
  exists g', rg_moveTo pos qe g = (g', MOVE_OK) /\
    ends_at A true olds g' qe (fun cs _ qe' => qe_pos qe' = pos /\
      Forall (valid_cmd A) cs /\ pauses cs = rw_pause_left (rg_rw g) /\
      speed_ok (Z.min M (period g)) cs).
Proof. exact (fun A g qe olds a M pos HA Hc Hs Hi Ha Hq Hp HB Hab => moveTo_accepted A true HA g qe olds a M pos Hc Hs Hi Ha Hq Hp HB Hab). Qed.
Theorem C36_accepted_refuted : exists A a M pos n c,
  In A all_archs /\ configured (started a M) a M /\ idle (started a M) /\
  exists g', rg_moveTo pos at_zero (started a M) = (g', MOVE_OK) /\
  In c (cmds (ramp_run A false old0 n g' at_zero)) /\
  0 < c_ticks c /\ 0 < c_steps c /\ c_ticks c * c_steps c < MIN_CMD_TICKS A.
Proof.
  exists arch_pc, 1934899, 2123, 25, 10%nat, (mkCommand 2456 1 true).
  split; [cbn; auto|]. split; [repeat split; discriminate|]. split; [repeat split|].
  eexists. split; [reflexivity|]. vm_compute. intuition congruence.
Qed.
(** Reducing the speed to 393316 ticks per step issues a step of 100 ticks. *)
Theorem C36_accepted_slow_refuted : exists c,
  In c (cmds (ramp_run arch_pc false old0 6 (slower 393316) (qend slow_run1))) /\
  c_steps c = 1 /\ c_ticks c < MIN_CMD_TICKS arch_pc.
Proof. exists (mkCommand 100 1 true). vm_compute. intuition congruence. Qed.

(** ** C37: stopMove() *)
(** The motor stops after exactly stepsToStop() steps, does not reverse, does not
    become faster - in every ramp state; the queue accepts. *)
Theorem C37_stop : forall A g a M qe olds,
  In A all_archs -> running A g a M ->
  ends_at A false olds (rg_initiateStop g) qe (fun cs g' qe' =>
    total_steps cs = rg_stepsToStop g /\ Forall (moves_only (qe_up qe)) cs /\
    i32 (qe_pos qe') = i32 (if qe_up qe then qe_pos qe + rg_stepsToStop g else qe_pos qe - rg_stepsToStop g) /\
    pauses cs = rw_pause_left (rg_rw g) /\ speed_ok (rw_curr_ticks (rg_rw g)) cs).
Proof. exact (fun A g a M qe olds HA Hr => stop_lemma A HA false g a M qe olds Hr (fun E => False_ind _ (diff_false_true E))). Qed.
(** the same with a queue refusing commands, which are too short *)
Theorem C37_stop_strict : forall A g a M qe olds,
  In A all_archs -> running A g a M ->
  MIN_CMD_TICKS A <= rw_curr_ticks (rg_rw g) ->
  rw_pause_left (rg_rw g) = 0 \/ 32767 <= rw_pause_left (rg_rw g) ->
  ends_at A true olds (rg_initiateStop g) qe (fun cs g' qe' =>
    total_steps cs = rg_stepsToStop g /\ Forall (moves_only (qe_up qe)) cs /\
    i32 (qe_pos qe') = i32 (if qe_up qe then qe_pos qe + rg_stepsToStop g else qe_pos qe - rg_stepsToStop g) /\
    pauses cs = rw_pause_left (rg_rw g) /\ speed_ok (rw_curr_ticks (rg_rw g)) cs).
Proof. exact (fun A g a M qe olds HA Hr H1 H2 => stop_lemma A HA true g a M qe olds Hr (fun _ => conj H1 H2)). Qed.
(** ... and for a motor faster than that, with an extreme acceleration: the last command is refused, the
    motor stops a step earlier, out of its speed *)
Theorem C37_stop_strict_refuted : exists A a M n,
  In A all_archs /\
  let r := ramp_run A true old0 n (fst (rg_moveTo 1000000 at_zero (started a M))) at_zero in
  running A (state r) a M /\ rw_curr_ticks (rg_rw (state r)) < MIN_CMD_TICKS A /\ rg_stepsToStop (state r) = 12 /\
  let r' := ramp_run A true old0 10 (rg_initiateStop (state r)) (qend r) in
  isRampGeneratorActive (state r') = false /\ total_steps (cmds r') = 11.
Proof.
  exists arch_esp32, 13000000, 2720, 2%nat. split; [cbn; auto 10|]. intros r.
  split; [split; vm_compute; intuition congruence|]. vm_compute. repeat split.
Qed.
Definition moving : rampgen :=
  state (ramp_run arch_pc true old0 4 (fst (rg_moveTo 100 at_zero (started 10000 8000))) at_zero).
Example C37_example : running arch_pc moving 10000 8000 /\ rg_stepsToStop moving = 2 /\
  MIN_CMD_TICKS arch_pc <= rw_curr_ticks (rg_rw moving).
Proof.
  split; [split; vm_compute; intuition congruence|].
  split; [vm_compute; reflexivity|vm_compute; congruence].
Qed.

(** ** C38: consecutive moves *)
(** move(a); move(b): the target does not depend on the task running in between *)
Theorem C38_move_move : forall A strict n olds g qe cs g1 g2 qe' a b,
  checkValidConfig (rg_params g) = MOVE_OK -> ro_force_immediate (rg_ro g) = false ->
  rg_move a g = (g1, MOVE_OK) -> isRampGeneratorActive g1 = true ->
  ramp_run A strict olds (S n) g1 qe = Some (cs, g2, qe') ->
  i32 (base_target g2 qe' + pending_move g2 + b) = i32 (base_target g qe + pending_move g + a + b) /\
  i32 (base_target g1 qe + pending_move g1 + b) = i32 (base_target g qe + pending_move g + a + b).
Proof. exact (fun A => move_move A). Qed.
(** moveTo(a); moveTo(b) without the task in between: same state as moveTo(b) alone,
    except that the generator may have been started by the first call *)
Theorem C38_moveTo_moveTo : forall a b qe g g1 r1 g2 r2,
  rg_moveTo a qe g = (g1, r1) -> rg_moveTo b qe g1 = (g2, r2) -> r1 = MOVE_OK ->
  exists g2', rg_moveTo b qe g = (g2', r2) /\ r2 = MOVE_OK /\
    rg_params g2 = rg_params g2' /\ rg_ro g2 = rg_ro g2' /\
    (isRampGeneratorActive g = true -> g2 = g2').
Proof. exact moveTo_moveTo. Qed.
Theorem C38_moveTo_move_refuted : exists a b n,
  let g1 := fst (rg_moveTo a at_zero (started 10000 8000)) in
  let g2 := fst (rg_move b g1) in
  snd (rg_move b g1) = MOVE_OK /\
  (exists p, end_pos (ramp_run arch_pc true old0 n g2 at_zero) = Some (p, false) /\ p <> a + b) /\
  (* with one run of the task in between *)
  let r := ramp_run arch_pc true old0 1 g1 at_zero in
  let g3 := fst (rg_move b (state r)) in
  end_pos (ramp_run arch_pc true old0 n g3 (qend r)) = Some (a + b, false).
Proof.
  exists 2, 1, 20%nat. split; [reflexivity|]. split.
  - exists 1. split; [vm_compute; reflexivity|discriminate].
  - vm_compute. reflexivity.
Qed.

(** ** C39: forceStop() *)
(** Without pending parameters, the next iteration of the task stops the ramp at the
    end of the queue and clears the request. *)
Theorem C39_force_stop : forall A strict old g qe, apply (rg_params g) = false ->
  exists g1, ramp_step A strict old (rg_forceStop g) qe = Some ([], g1, qe) /\
    isRampGeneratorActive g1 = false /\ rg_targetPosition g1 = i32 (qe_pos qe) /\
    ro_force_immediate (rg_ro g1) = false /\ rg_params g1 = rg_params g /\ rg_rw g1 = stopped_rw.
Proof. exact forceStop_step. Qed.
(** moveTo(x); forceStop() before the task runs: the stop is lost, the move is executed. *)
Theorem C39_stop_lost_refuted : exists x n,
  let g := rg_forceStop (fst (rg_moveTo x at_zero (started 10000 8000))) in
  x <> 0 /\ end_pos (ramp_run arch_pc true old0 n g at_zero) = Some (x, false).
Proof. exists 2, 10%nat. split; [discriminate|vm_compute; reflexivity]. Qed.
(** forceStop() at standstill, then runForward(): MOVE_OK, but the motor does not move *)
Theorem C39_run_lost_refuted : exists n,
  let r := rg_startRun true (rg_forceStop (started 10000 8000)) in
  snd r = MOVE_OK /\ end_pos (ramp_run arch_pc true old0 n (fst r) at_zero) = Some (0, false) /\
  cmds (ramp_run arch_pc true old0 n (fst r) at_zero) = [].
Proof. exists 3%nat. vm_compute. auto. Qed.
(** ... and a moveTo() to the target of the last move, after the position has been
    changed with setCurrentPosition() *)
Theorem C39_move_lost_refuted : exists x n qe,
  let r := ramp_run arch_pc true old0 n (fst (rg_moveTo x at_zero (started 10000 8000))) at_zero in
  let m := rg_moveTo x qe (rg_forceStop (state r)) in
  end_pos r = Some (x, false) /\ qe_pos qe = 0 /\
  snd m = MOVE_OK /\ x <> 0 /\ end_pos (ramp_run arch_pc true old0 n (fst m) qe) = Some (0, false).
Proof.
  exists 2, 10%nat, at_zero. vm_compute. repeat split; discriminate.
Qed.

(** ** C40: runForward(), runBackward() *)
(** any number [n] of iterations: no stop, requested direction, accepted commands,
    configured speed *)
Theorem C40_keeps_running : forall A up n g qe olds a M,
  In A all_archs -> idle g -> configured g a M -> s_h (rg_params g) <= 50000000 ->
  1 <= a < 2147483648 -> 17 <= M <= 1073741824 -> 1000000 <= a * (M * M) ->
  exists g1, rg_startRun up g = (g1, MOVE_OK) /\
  exists cs g' qe', ramp_run A true olds n g1 qe = Some (cs, g', qe') /\ length cs = n /\
    isRampGeneratorActive g' = true /\ Forall (queue_cmd A) cs /\ Forall (fun c => c_up c = up) cs /\
    speed_ok_prefix M cs.
Proof. exact (fun A up n g qe olds a M HA => run_const_lemma A HA up n g qe olds a M). Qed.
(** with linear acceleration phase: any configuration, which reaches its speed within
    268334455 steps *)
Theorem C40_keeps_running_linear : forall A N up n g qe olds,
  In A all_archs -> idle g -> checkValidConfig (rg_params g) = MOVE_OK -> s_jump (rg_params g) = 0 ->
  let c := update A (set_parameters (rg_params g) (ro_config (rg_ro g))) in
  let M := min_travel_ticks (rg_params g) in
  17 <= M <= 1073741824 -> 0 <= N <= 268435455 - 101000 ->
  (forall s, N <= s < 268435455 -> calculate_ticks A c s <= M) ->
  (forall s, 1 <= s < 4294967296 -> calculate_ticks A c s <= 1073741824) ->
  exists g1, rg_startRun up g = (g1, MOVE_OK) /\
  exists cs g' qe', ramp_run A true olds n g1 qe = Some (cs, g', qe') /\ length cs = n /\
    isRampGeneratorActive g' = true /\ Forall (queue_cmd A) cs /\ Forall (fun c => c_up c = up) cs /\
    speed_ok_prefix M cs.
Proof. exact (fun A N up n g qe olds HA => run_lemma A HA N up n g qe olds). Qed.
Example C40_example : forall n, exists g1, rg_startRun false (started 10000 80) = (g1, MOVE_OK) /\
  exists cs g' qe', ramp_run arch_esp32 true old0 n g1 at_zero = Some (cs, g', qe') /\ length cs = n /\
    isRampGeneratorActive g' = true /\ Forall (queue_cmd arch_esp32) cs /\ Forall (fun c => c_up c = false) cs /\
    speed_ok_prefix 80 cs.
Proof.
  intros n. apply C40_keeps_running with (a := 10000); try (cbn; lia);
    try (vm_compute; intuition congruence).
Qed.

Print Assumptions C31_moveTo_ends_at_target.
Print Assumptions C31_move_ends_at_target.
Print Assumptions C31_moveTo_ends_strict_partial.
Print Assumptions C31_move_ends_strict_partial.
Print Assumptions C31_ends_at_target_refuted.
Print Assumptions C31_distance_refuted.
Print Assumptions C32_moveTo_monotone_partial.
Print Assumptions C32_move_monotone_partial.
Print Assumptions C32_monotone_refuted.
Print Assumptions C33_speed_limit_partial.
Print Assumptions C33_speed_limit_short_move_refuted.
Print Assumptions C33_speed_limit_slow_refuted.
Print Assumptions C34_reverses_only_at_ramp_end.
Print Assumptions C34_decelerates_completely.
Print Assumptions C35_split_exact.
Print Assumptions C35_pause_exact.
Print Assumptions C35_exact_period_refuted.
Print Assumptions C36_accepted_partial.
Print Assumptions C36_accepted_refuted.
Print Assumptions C36_accepted_slow_refuted.
Print Assumptions C37_stop.
Print Assumptions C37_stop_strict.
Print Assumptions C37_stop_strict_refuted.
Print Assumptions C38_move_move.
Print Assumptions C38_moveTo_moveTo.
Print Assumptions C38_moveTo_move_refuted.
Print Assumptions C39_force_stop.
Print Assumptions C39_stop_lost_refuted.
Print Assumptions C39_run_lost_refuted.
Print Assumptions C39_move_lost_refuted.
Print Assumptions C40_keeps_running.
Print Assumptions C40_keeps_running_linear.

(** * RampGen: the ramp generator
    (src/RampConstAcceleration.h/.cpp, src/RampGenerator.h/.cpp) *)
From Coq Require Import ZArith Bool List Lia.
From Verif Require Import Base Pmf RampCalc.
Import ListNotations.
Open Scope Z_scope.

(** RAMP_STATE_* / RAMP_DIRECTION_*: src/FastAccelStepper.h:203-217 *)
Definition RAMP_STATE_IDLE : Z := 0.
Definition RAMP_STATE_COAST : Z := 1.
Definition RAMP_STATE_ACCELERATE : Z := 2.
Definition RAMP_STATE_DECELERATE : Z := 4.
Definition RAMP_STATE_REVERSE : Z := 12.
Definition RAMP_DIRECTION_COUNT_UP : Z := 32.
Definition RAMP_DIRECTION_COUNT_DOWN : Z := 64.

(** The local variable [this_state] of [_getNextCommand] takes only these four
    values; [accelerating]/[decelerating] are the tests of the flag bits
    RAMP_STATE_ACCELERATING_FLAG (2) and RAMP_STATE_DECELERATING_FLAG (4). *)
Inductive rstate := COAST | ACC | DEC | REV.
Definition rstate_byte (s : rstate) : Z :=
  match s with
  | COAST => RAMP_STATE_COAST
  | ACC => RAMP_STATE_ACCELERATE
  | DEC => RAMP_STATE_DECELERATE
  | REV => RAMP_STATE_REVERSE
  end.
Definition accelerating (s : rstate) : bool := match s with ACC => true | _ => false end.
Definition decelerating (s : rstate) : bool :=
  match s with DEC => true | REV => true | _ => false end.

(** struct ramp_ro_s: src/RampConstAcceleration.h:6-29
    ([incomplete_immediate_stop] is never used and is omitted) *)
Record ramp_ro := mkRo {
  ro_config : config;
  ro_target_pos : Z;      (* uint32_t *)
  ro_force_stop : bool;
  ro_force_immediate : bool
}.

(** struct ramp_rw_s: src/RampConstAcceleration.h:31-41 *)
Record ramp_rw := mkRw {
  rw_state : Z;           (* uint8_t *)
  rw_prus : Z;            (* performed_ramp_up_steps, uint32_t *)
  rw_pause_left : Z;      (* uint32_t *)
  rw_curr_ticks : Z       (* uint32_t *)
}.

(** [stopRamp]: src/RampConstAcceleration.h:42-50 *)
Definition stopped_rw : ramp_rw := mkRw RAMP_STATE_IDLE 0 0 TICKS_FOR_STOPPED_MOTOR.

(** [startRampIfNotRunning]: src/RampConstAcceleration.h:56-67 *)
Definition startRampIfNotRunning (rw : ramp_rw) : ramp_rw :=
  if rw_state rw =? RAMP_STATE_IDLE
  then mkRw RAMP_STATE_ACCELERATE (rw_prus rw) (rw_pause_left rw) TICKS_FOR_STOPPED_MOTOR
  else rw.

(** class NextCommand: src/RampConstAcceleration.h:70-74 *)
Record next_command := mkNext { n_cmd : command; n_rw : ramp_rw }.

Section WithArch.
Variable A : arch.

(** ** [_getNextCommand]: src/RampConstAcceleration.cpp:61-529

    It is cut into the functions below, one per block of the source, in order.
    [None] stands for undefined behaviour: division by zero (lines 150 and 350)
    or the negation of INT32_MIN (line 104). *)

(** lines 64-83: [None] if there is no pause left *)
Definition gnc_pause (rw : ramp_rw) (qe : queue_end) : option next_command :=
  let p := rw_pause_left rw in
  if p >? 0 then
    let p := if p >? 65535 then fas_min (Z.shiftr p 1) 65535 else p in
    Some (mkNext (mkCommand (u16 p) 0 (qe_up qe))
                 (mkRw (rw_state rw) (rw_prus rw) (u32 (rw_pause_left rw - p))
                       (rw_curr_ticks rw)))
  else None.

(** lines 85-105: wanted direction and distance *)
Definition gnc_delta (ro : ramp_ro) (qe : queue_end) : option (bool * Z) :=
  let p := parameters (ro_config ro) in
  if keep_running p then Some (keep_running_count_up p, 268435455)
  else
    let delta := i32 (ro_target_pos ro - qe_pos qe) in
    if delta =? -2147483648 then None
    else
      let need := if delta =? 0 then negb (qe_up qe) else delta >? 0 in
      Some (need, Z.abs delta).

(** lines 146-155: forward planning; [None] = division by zero *)
Definition gnc_planning (curr_ticks : Z) : option Z :=
  if curr_ticks <? TICKS_PER_S A / 1000 then
    if u16 curr_ticks =? 0 then None
    else Some (u16 (TICKS_PER_S A / 500) / u16 curr_ticks)
  else Some 1.

(** lines 157-227: choose the state. Result: state, remaining steps, planning
    steps. *)
Definition gnc_choose (M curr P R : Z) (same_dir : bool) (planning : Z)
  : rstate * Z * Z :=
  if negb same_dir then (REV, P, planning)
  else if R =? P then (DEC, R, planning)
  else if R <? P then (REV, P, planning)
  else if M <? curr then
    if curr <? 2 * MIN_CMD_TICKS A then
      let possible := Z.shiftr (R - P) 2 in
      let s := if (possible >? 0) && (u32 (possible * curr) <? 2 * MIN_CMD_TICKS A)
               then COAST else ACC in
      let s := if planning >? R - P then DEC else s in
      (s, R, planning)
    else if R - P <? 2 * planning then
      if negb (curr =? TICKS_FOR_STOPPED_MOTOR)
      then (COAST, R, u16 (R - P))
      else (ACC, R, planning)
    else (ACC, R, planning)
  else if M >? curr then
    (DEC, R, if P <=? planning then (if P >? 0 then u16 P else 1) else planning)
  else
    let possible := R - P in
    if possible <? 2 * planning then
      let planning := u16 possible in
      if (curr <? MIN_CMD_TICKS A) && (u32 (curr * planning) <? MIN_CMD_TICKS A)
      then (DEC, R, planning) else (COAST, R, planning)
    else (COAST, R, planning).

(** lines 258-340: new period and planning steps *)
Definition gnc_new_ticks (c : config) (s : rstate) (curr P R planning orig : Z)
  : Z * Z :=
  let M := min_travel_ticks (parameters c) in
  if accelerating s then
    let dec_steps := u32 (R - P) in
    let planning :=
      if dec_steps <? 512 then
        let half := dec_steps / 2 in
        if half <? orig then (if half =? 0 then 1 else half) else planning
      else planning in
    let rs := u32 (P + planning) in
    (fas_max M (calculate_ticks A c rs), planning)
  else if decelerating s then
    if P =? 1 then (M, planning)
    else
      let rs := if P <=? planning then planning else P - planning in
      let d := calculate_ticks A c rs in
      ((if (rs =? 1) && (M >? d) then M else d), planning)
  else
    let coast := u32 (R - P) in
    (curr,
     if (coast <? 256) && (coast <? 2 * orig) then coast else planning).

(** lines 342-389: avoid commands, which are too short; [None] = division by
    zero in line 350 *)
Definition gnc_min_cmd (s : rstate) (d P R planning : Z) : option (rstate * Z * Z) :=
  if (d <? MIN_CMD_TICKS A) && (u32 (d * planning) <? MIN_CMD_TICKS A) then
    if d =? 0 then None
    else
      let steps := u16 (MIN_CMD_TICKS A + d - 1) / d in
      let '(s, planning) := if steps >=? R then (DEC, u16 R) else (s, planning) in
      let steps := fas_max planning steps in
      if 2 * steps >=? R then
        Some (DEC, u32 (MIN_CMD_TICKS A + R - 1) / R, u16 R)
      else
        Some ((if R <? u32 (P + steps) then DEC else s), d, steps)
  else Some (s, d, planning).

(** lines 391-406: clipping with the current period *)
Definition gnc_clip (s : rstate) (d curr : Z) : Z :=
  if negb (curr =? TICKS_FOR_STOPPED_MOTOR) then
    if accelerating s then fas_min d curr
    else if decelerating s then fas_max d curr else d
  else d.

(** lines 423-440: steps, period of the first command and remaining pause *)
Definition gnc_split (next_ticks R planning : Z) : Z * Z * Z :=
  let steps := fas_min 255 (fas_max (u16 (fas_min planning R)) 1) in
  if next_ticks >? 65535 then
    let t := fas_min (Z.shiftr next_ticks 1) 65535 in
    (1, t, next_ticks - t)
  else (steps, next_ticks, 0).

(** lines 442-493: new performed_ramp_up_steps and (line 475) period *)
Definition gnc_prus (c : config) (s : rstate) (P R steps next_ticks : Z) : Z * Z :=
  let X := max_ramp_up_steps c in
  if accelerating s then (u32 (P + steps), next_ticks)
  else if decelerating s then
    if P <? steps then (0, next_ticks)
    else if P >? X then (P - steps, next_ticks)
    else if (P >=? X) && (u32 (X + steps) <=? R) && (P - steps <? X)
    then (X, min_travel_ticks (parameters c))
    else if R >? P then
      ((if R - P <? steps then R - steps else P), next_ticks)
    else (P - steps, next_ticks)
  else (P, next_ticks).

(** the whole function. [old] is the content of [*command] before the call: the
    fields, which the "ramp complete" path (lines 133-142, 228-237) leaves
    unassigned, keep their previous (possibly uninitialised) value. *)
Definition ramp_complete (old : next_command) : next_command :=
  mkNext (mkCommand 0 (c_steps (n_cmd old)) (c_up (n_cmd old)))
         (mkRw RAMP_STATE_IDLE (rw_prus (n_rw old)) 0 TICKS_FOR_STOPPED_MOTOR).

Definition getNextCommand_ (ro : ramp_ro) (rw : ramp_rw) (qe : queue_end)
  (old : next_command) : option next_command :=
  match gnc_pause rw qe with
  | Some n => Some n
  | None =>
    let c := ro_config ro in
    let M := min_travel_ticks (parameters c) in
    match gnc_delta ro qe with
    | None => None
    | Some (need_up, R) =>
      let P := rw_prus rw in
      let up := if P =? 0 then need_up else qe_up qe in
      if (R =? 0) && (P <=? 1) then Some (ramp_complete old)
      else
        let curr := rw_curr_ticks rw in
        match gnc_planning curr with
        | None => None
        | Some orig =>
          let '(s, R, planning) := gnc_choose M curr P R (Bool.eqb up need_up) orig in
          if R =? 0 then Some (ramp_complete old)
          else
            let '(d, planning) := gnc_new_ticks c s curr P R planning orig in
            match gnc_min_cmd s d P R planning with
            | None => None
            | Some (s, d, planning) =>
              let next := gnc_clip s d curr in
              let '(steps, next, pause) := gnc_split next R planning in
              let '(P', next) := gnc_prus c s P R steps next in
              Some (mkNext
                (mkCommand (u16 next) (u8 steps) up)
                (mkRw (Z.lor (rstate_byte s)
                         (if up then RAMP_DIRECTION_COUNT_UP
                          else RAMP_DIRECTION_COUNT_DOWN))
                      P' pause (u32 (pause + next))))
            end
        end
    end
  end.

(** ** class RampGenerator: src/RampGenerator.h:17-116, RampGenerator.cpp *)
Record rampgen := mkRg {
  rg_params : params;          (* _parameters *)
  rg_ro : ramp_ro;             (* _ro *)
  rg_rw : ramp_rw;             (* _rw *)
  rg_acceleration : Z          (* acceleration, uint32_t *)
}.
Definition with_params p g := mkRg p (rg_ro g) (rg_rw g) (rg_acceleration g).
Definition with_ro r g := mkRg (rg_params g) r (rg_rw g) (rg_acceleration g).
Definition with_rw r g := mkRg (rg_params g) (rg_ro g) r (rg_acceleration g).

Definition set_force_stop b ro :=
  mkRo (ro_config ro) (ro_target_pos ro) b (ro_force_immediate ro).
Definition set_immediate b ro :=
  mkRo (ro_config ro) (ro_target_pos ro) (ro_force_stop ro) b.
Definition set_target t ro :=
  mkRo (ro_config ro) t (ro_force_stop ro) (ro_force_immediate ro).
Definition set_config c ro :=
  mkRo c (ro_target_pos ro) (ro_force_stop ro) (ro_force_immediate ro).
Definition map_parameters (f : params -> params) ro :=
  set_config (set_parameters (f (parameters (ro_config ro))) (ro_config ro)) ro.

(** [isRampGeneratorActive]: RampGenerator.h:84 *)
Definition isRampGeneratorActive (g : rampgen) : bool :=
  negb (rw_state (rg_rw g) =? RAMP_STATE_IDLE).

(** [init]: RampGenerator.cpp:13-18, RampConstAcceleration.h:12-16. The object
    is zero initialised storage ([malloc]-free global) except for what [init]
    writes; [g] stands for the indeterminate bytes of [pmfl_accel], the derived
    configuration fields and [acceleration]. *)
Definition rg_init (g : Z) : rampgen :=
  mkRg (params_init g) (mkRo (mkConfig (params_init g) g g g) 0 false false)
       stopped_rw g.

(** [setAcceleration]: RampGenerator.cpp:19-26 *)
Definition rg_setAcceleration (accel : Z) (g : rampgen) : rampgen * Z :=
  if accel <=? 0 then (g, -1)
  else (mkRg (p_setAcceleration accel (rg_params g)) (rg_ro g) (rg_rw g) (u32 accel), 0).

(** [setSpeedInTicks], [setLinearAcceleration], [setJumpStart]:
    RampGenerator.h:34-36, 65-70 *)
Definition rg_setSpeedInTicks (t : Z) (g : rampgen) : rampgen :=
  with_params (p_setSpeedInTicks t (rg_params g)) g.
Definition rg_setLinearAcceleration (s : Z) (g : rampgen) : rampgen :=
  with_params (p_setCubicAccelerationSteps s (rg_params g)) g.
Definition rg_setJumpStart (s : Z) (g : rampgen) : rampgen :=
  with_params (p_setJumpStart s (rg_params g)) g.

(** [applySpeedAcceleration]: RampGenerator.cpp:27-31 *)
Definition rg_applySpeedAcceleration (g : rampgen) : rampgen :=
  if ro_force_immediate (rg_ro g) then g
  else with_params (applyParameters (rg_params g)) g.

(** [startRun]: RampGenerator.cpp:32-47. [res] passes through uint8_t; the
    conversion back to int8_t restores the value. *)
Definition rg_startRun (count_up : bool) (g : rampgen) : rampgen * Z :=
  let res := checkValidConfig (rg_params g) in
  if negb (res =? MOVE_OK) then (g, res)
  else
    (mkRg (p_setRunning count_up (rg_params g)) (set_force_stop false (rg_ro g))
          (startRampIfNotRunning (rg_rw g)) (rg_acceleration g), MOVE_OK).

(** [_startMove]: RampGenerator.cpp:49-73 *)
Definition rg_startMove (changed : bool) (g : rampgen) : rampgen :=
  let g := with_ro (set_force_stop false (rg_ro g)) g in
  if changed then with_rw (startRampIfNotRunning (rg_rw g)) g else g.

(** [moveTo]: RampGenerator.cpp:75-92 *)
Definition rg_moveTo (position : Z) (qe : queue_end) (g : rampgen) : rampgen * Z :=
  let res := checkValidConfig (rg_params g) in
  if negb (res =? MOVE_OK) then (g, res)
  else
    let curr_target :=
      if isRampGeneratorActive g && negb (keep_running (parameters (ro_config (rg_ro g))))
      then i32 (ro_target_pos (rg_ro g)) else qe_pos qe in
    let g := with_params (p_setTargetPosition position (rg_params g)) g in
    (rg_startMove (negb (curr_target =? position)) g, MOVE_OK).

(** [move]: RampGenerator.cpp:93-101 *)
Definition rg_move (move : Z) (g : rampgen) : rampgen * Z :=
  let res := checkValidConfig (rg_params g) in
  if negb (res =? MOVE_OK) then (g, res)
  else
    let g := with_params (p_setTargetRelativePosition move (rg_params g)) g in
    (rg_startMove (negb (move =? 0)) g, MOVE_OK).

(** [advanceTargetPosition]: RampGenerator.cpp:102-106 *)
Definition rg_advanceTargetPosition (delta : Z) (g : rampgen) : rampgen :=
  with_ro (set_target (u32 (ro_target_pos (rg_ro g) + delta)) (rg_ro g)) g.
(** [setTargetPosition]: RampGenerator.h:32 *)
Definition rg_setTargetPosition (pos : Z) (g : rampgen) : rampgen :=
  with_ro (set_target (u32 pos) (rg_ro g)) g.
(** [targetPosition]: RampGenerator.h:31 *)
Definition rg_targetPosition (g : rampgen) : Z := i32 (ro_target_pos (rg_ro g)).
(** [forceStop], [initiateStop], [stopRamp], [setKeepRunning]:
    RampGenerator.h:79-80, 91-92 *)
Definition rg_forceStop (g : rampgen) : rampgen := with_ro (set_immediate true (rg_ro g)) g.
Definition rg_initiateStop (g : rampgen) : rampgen := with_ro (set_force_stop true (rg_ro g)) g.
Definition rg_stopRamp (g : rampgen) : rampgen := with_rw stopped_rw g.
Definition rg_setKeepRunning (g : rampgen) : rampgen :=
  with_ro (map_parameters
    (fun p => set_keep true (keep_running_count_up p) p) (rg_ro g)) g.
(** [isStopping]: RampGenerator.h:81-83; [isRunningContinuously]: :93 *)
Definition rg_isStopping (g : rampgen) : bool :=
  ro_force_stop (rg_ro g) && isRampGeneratorActive g.
Definition rg_isRunningContinuously (g : rampgen) : bool :=
  keep_running (parameters (ro_config (rg_ro g))).
(** [stepsToStop]: RampGenerator.h:85-90 *)
Definition rg_stepsToStop (g : rampgen) : Z := rw_prus (rg_rw g).

(** [getCurrentAcceleration]: RampGenerator.cpp:262-274 *)
Definition rg_getCurrentAcceleration (g : rampgen) : Z :=
  let k := Z.land (rw_state (rg_rw g)) (2 + 4 + 96) in
  if (k =? 2 + 32) || (k =? 4 + 64) then i32 (rg_acceleration g)
  else if (k =? 4 + 32) || (k =? 2 + 64) then i32 (- rg_acceleration g)
  else 0.

(** [divForMilliHz], [divForHz], [getSpeedInMilliHz], [getSpeedInUs]:
    RampGenerator.h:37-62; [None] = division by zero *)
Definition divForMilliHz (f : Z) : option Z :=
  if f =? 0 then None
  else
    let base := u32 (250 * TICKS_PER_S A) in
    let res := base / f in
    let base := u32 (base - u32 (res * f)) in
    let base := u32 (Z.shiftl base 2) in
    let res := u32 (Z.shiftl res 2) in
    let base := u32 (base + f / 2) in
    Some (u32 (res + base / f)).
Definition divForHz (f : Z) : option Z :=
  if f =? 0 then None
  else Some (u32 (TICKS_PER_S A + f / 2) / f).
Definition rg_getSpeedInMilliHz (g : rampgen) : option Z :=
  let t := min_travel_ticks (rg_params g) in
  if t =? 0 then Some 0 else divForMilliHz t.
Definition rg_getSpeedInUs (g : rampgen) : Z :=
  min_travel_ticks (rg_params g) / (TICKS_PER_S A / 1000000).

(** ** [getNextCommand]: RampGenerator.cpp:118-261, in four pieces *)

(** lines 124-164: take over new parameters *)
Definition rg_take_parameters (g : rampgen) : rampgen :=
  let p := rg_params g in
  if apply p then
    let c := update A (set_parameters p (ro_config (rg_ro g))) in
    let p' := set_apply false (set_any_change false
                (set_move 0 false (set_recalc false p))) in
    let ro := set_config c (rg_ro g) in
    let ro :=
      if ro_force_immediate ro then
        if move_absolute p then
          if negb (ro_target_pos ro =? u32 (move_value p))
          then set_immediate false ro else ro
        else if negb (move_value p =? 0) then set_immediate false ro else ro
      else ro in
    mkRg p' ro (rg_rw g) (rg_acceleration g)
  else g.

(** lines 170-205: jump start and recalculation of the ramp steps *)
Definition rg_adjust_prus (g : rampgen) : rampgen :=
  let curr := rw_curr_ticks (rg_rw g) in
  let c := ro_config (rg_ro g) in
  let g :=
    if curr =? TICKS_FOR_STOPPED_MOTOR then
      let s := s_jump (parameters c) in
      let s :=
        if negb (s =? 0) && (calculate_ticks A c s <? min_travel_ticks (parameters c))
        then calculate_ramp_steps A c (min_travel_ticks (parameters c)) else s in
      mkRg (rg_params g) (map_parameters (set_recalc false) (rg_ro g))
           (mkRw (rw_state (rg_rw g)) s (rw_pause_left (rg_rw g)) curr)
           (rg_acceleration g)
    else g in
  if recalc_ramp_steps (parameters (ro_config (rg_ro g))) then
    with_rw (mkRw (rw_state (rg_rw g)) (calculate_ramp_steps A c curr)
                  (rw_pause_left (rg_rw g)) curr) g
  else g.

(** lines 207-250: new target position *)
Definition rg_new_target (was_keep : bool) (qe : queue_end) (ro : ramp_ro) (prus : Z)
  : ramp_ro :=
  let p := parameters (ro_config ro) in
  let ro :=
    if ro_force_stop ro then
      let t := if qe_up qe then u32 (u32 (qe_pos qe) + prus)
               else u32 (u32 (qe_pos qe) - prus) in
      set_target t (map_parameters (fun p => set_keep false (keep_running_count_up p) p) ro)
    else if any_change p then
      let ro' := map_parameters (set_any_change false) ro in
      if keep_running p then ro'
      else if move_absolute p then set_target (u32 (move_value p)) ro'
      else
        let t := if was_keep then u32 (qe_pos qe) else ro_target_pos ro in
        set_target (u32 (t + move_value p)) ro'
    else ro in
  map_parameters (set_recalc false) ro.

(** the whole function: new generator state and the command *)
Definition rg_getNextCommand (qe : queue_end) (old : next_command) (g : rampgen)
  : option (rampgen * next_command) :=
  let was_keep := keep_running (parameters (ro_config (rg_ro g))) in
  let g := rg_take_parameters g in
  let g := rg_adjust_prus g in
  let ro := rg_new_target was_keep qe (rg_ro g) (rw_prus (rg_rw g)) in
  let g := with_ro ro g in
  if ro_force_immediate ro then
    Some (with_ro (set_target (u32 (qe_pos qe)) (set_immediate false ro)) g,
          mkNext (mkCommand 0 (c_steps (n_cmd old)) (c_up (n_cmd old))) stopped_rw)
  else
    match getNextCommand_ ro (rg_rw g) qe old with
    | None => None
    | Some n => Some (g, n)
    end.

(** [afterCommandEnqueued]: RampGenerator.cpp:108-117 *)
Definition rg_afterCommandEnqueued (n : next_command) (g : rampgen) : rampgen :=
  with_rw (n_rw n) g.

End WithArch.

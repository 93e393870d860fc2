(** * RampCalc: ramp parameters and ramp configuration (src/RampCalculator.h) *)
From Coq Require Import ZArith Bool List Lia.
From Verif Require Import Base Pmf.
Import ListNotations.
Open Scope Z_scope.

(** MOVE_* results: src/fas_arch/common.h:6-9 *)
Definition MOVE_OK : Z := 0.
Definition MOVE_ERR_NO_DIRECTION_PIN : Z := -1.
Definition MOVE_ERR_SPEED_IS_UNDEFINED : Z := -2.
Definition MOVE_ERR_ACCELERATION_IS_UNDEFINED : Z := -3.

(** ** struct ramp_parameters_s: src/RampCalculator.h:47-60 *)
Record params := mkParams {
  move_value : Z;               (* int32_t *)
  min_travel_ticks : Z;         (* uint32_t *)
  s_h : Z;                      (* uint32_t *)
  s_jump : Z;                   (* uint32_t *)
  pmfl_accel : Z;               (* int16_t *)
  apply : bool;
  any_change : bool;
  recalc_ramp_steps : bool;
  valid_acceleration : bool;
  valid_speed : bool;
  move_absolute : bool;
  keep_running : bool;
  keep_running_count_up : bool
}.

(** field updates *)
Definition set_apply b p := mkParams (move_value p) (min_travel_ticks p) (s_h p) (s_jump p)
  (pmfl_accel p) b (any_change p) (recalc_ramp_steps p) (valid_acceleration p)
  (valid_speed p) (move_absolute p) (keep_running p) (keep_running_count_up p).
Definition set_any_change b p := mkParams (move_value p) (min_travel_ticks p) (s_h p) (s_jump p)
  (pmfl_accel p) (apply p) b (recalc_ramp_steps p) (valid_acceleration p)
  (valid_speed p) (move_absolute p) (keep_running p) (keep_running_count_up p).
Definition set_recalc b p := mkParams (move_value p) (min_travel_ticks p) (s_h p) (s_jump p)
  (pmfl_accel p) (apply p) (any_change p) b (valid_acceleration p)
  (valid_speed p) (move_absolute p) (keep_running p) (keep_running_count_up p).
Definition set_move v abs p := mkParams v (min_travel_ticks p) (s_h p) (s_jump p)
  (pmfl_accel p) (apply p) (any_change p) (recalc_ramp_steps p) (valid_acceleration p)
  (valid_speed p) abs (keep_running p) (keep_running_count_up p).
Definition set_keep kr up p := mkParams (move_value p) (min_travel_ticks p) (s_h p) (s_jump p)
  (pmfl_accel p) (apply p) (any_change p) (recalc_ramp_steps p) (valid_acceleration p)
  (valid_speed p) (move_absolute p) kr up.
Definition set_travel t p := mkParams (move_value p) t (s_h p) (s_jump p)
  (pmfl_accel p) (apply p) (any_change p) (recalc_ramp_steps p) (valid_acceleration p)
  true (move_absolute p) (keep_running p) (keep_running_count_up p).
Definition set_s_h s p := mkParams (move_value p) (min_travel_ticks p) s (s_jump p)
  (pmfl_accel p) (apply p) (any_change p) (recalc_ramp_steps p) (valid_acceleration p)
  (valid_speed p) (move_absolute p) (keep_running p) (keep_running_count_up p).
Definition set_accel a p := mkParams (move_value p) (min_travel_ticks p) (s_h p) (s_jump p)
  a (apply p) (any_change p) (recalc_ramp_steps p) true
  (valid_speed p) (move_absolute p) (keep_running p) (keep_running_count_up p).

(** [init]: src/RampCalculator.h:62-75. [pmfl_accel] is not initialised by the
    code; the argument [g] stands for its indeterminate value. It is never read
    before [valid_acceleration] is set (see [checkValidConfig]). *)
Definition params_init (g : Z) : params :=
  mkParams 0 0 0 0 g false false false false false true false true.

(** [applyParameters]: src/RampCalculator.h:76-82 *)
Definition applyParameters (p : params) : params :=
  if any_change p then set_apply true p else p.

(** [setRunning]: src/RampCalculator.h:83-90 *)
Definition p_setRunning (count_up : bool) (p : params) : params :=
  set_apply true (set_any_change true (set_keep true count_up p)).

(** [setTargetPosition]: src/RampCalculator.h:91-100 *)
Definition p_setTargetPosition (pos : Z) (p : params) : params :=
  set_apply true (set_any_change true (set_keep false true (set_move pos true p))).

(** [setTargetRelativePosition]: src/RampCalculator.h:101-114. The signed sum
    [move_value += move] is modelled with wrap-around (signed overflow is UB in
    C++; all supported targets wrap). *)
Definition p_setTargetRelativePosition (move : Z) (p : params) : params :=
  let v := if any_change p && negb (move_absolute p)
           then i32 (move_value p + move) else move in
  set_apply true (set_any_change true (set_keep false true (set_move v false p))).

(** [setCubicAccelerationSteps]: src/RampCalculator.h:115-123 *)
Definition p_setCubicAccelerationSteps (s : Z) (p : params) : params :=
  if s_h p =? s then p
  else set_any_change true (set_recalc true (set_s_h s p)).

(** [setSpeedInTicks]: src/RampCalculator.h:124-132 *)
Definition p_setSpeedInTicks (t : Z) (p : params) : params :=
  if negb (valid_speed p) || negb (min_travel_ticks p =? t)
  then set_any_change true (set_travel t p)
  else p.

(** [setAcceleration]: src/RampCalculator.h:133-143 *)
Definition p_setAcceleration (accel : Z) (p : params) : params :=
  let n := pmfl_from_u32 (u32 accel) in
  if negb (valid_acceleration p) || negb (pmfl_accel p =? n)
  then set_recalc true (set_any_change true (set_accel n p))
  else p.

(** [setJumpStart]: src/RampCalculator.h:144 *)
Definition p_setJumpStart (s : Z) (p : params) : params :=
  mkParams (move_value p) (min_travel_ticks p) (s_h p) s
  (pmfl_accel p) (apply p) (any_change p) (recalc_ramp_steps p) (valid_acceleration p)
  (valid_speed p) (move_absolute p) (keep_running p) (keep_running_count_up p).

(** [checkValidConfig]: src/RampCalculator.h:145-153 *)
Definition checkValidConfig (p : params) : Z :=
  if negb (valid_speed p) then MOVE_ERR_SPEED_IS_UNDEFINED
  else if negb (valid_acceleration p) then MOVE_ERR_ACCELERATION_IS_UNDEFINED
  else MOVE_OK.

(** ** struct ramp_config_s: src/RampCalculator.h:156-162 *)
Record config := mkConfig {
  parameters : params;
  max_ramp_up_steps : Z;       (* uint32_t *)
  pmfl_ticks_h : Z;            (* int16_t *)
  cubic : Z                    (* int16_t *)
}.
Definition set_parameters p c :=
  mkConfig p (max_ramp_up_steps c) (pmfl_ticks_h c) (cubic c).

Section WithArch.
Variable A : arch.

(** [calculate_ticks]: src/RampCalculator.h:190-212 *)
Definition calculate_ticks (c : config) (steps : Z) : Z :=
  let p := parameters c in
  if steps >=? s_h p then
    let steps := u32 (steps - Z.shiftr (u32 (s_h p + 2)) 2) in
    let pmfl_steps := pmfl_from_u32 steps in
    let pmfl_steps_mul_accel := i16 (pmfl_multiply pmfl_steps (pmfl_accel p)) in
    let pmfl_sqrt_steps_mul_accel := i16 (pmfl_sqrt pmfl_steps_mul_accel) in
    let pmfl_res :=
      i16 (pmfl_divide (PMF_TICKS_PER_S_DIV_SQRT_OF_2 A) pmfl_sqrt_steps_mul_accel) in
    pmfl_to_u32 pmfl_res
  else
    let pmfl_steps := pmfl_from_u32 steps in
    let pmfl_res := i16 (pmfl_divide (cubic c) (pmfl_pow_2_div_3 pmfl_steps)) in
    pmfl_to_u32 pmfl_res.

(** [calculate_ramp_steps]: src/RampCalculator.h:213-233 *)
Definition calculate_ramp_steps (c : config) (ticks : Z) : Z :=
  let p := parameters c in
  let pmfl_ticks := pmfl_from_u32 ticks in
  if pmfl_ticks <=? pmfl_ticks_h c then
    let pmfl_inv_accel2 := i16 (pmfl_divide (PMF_ACCEL_FACTOR A) (pmfl_accel p)) in
    let steps := pmfl_to_u32 (i16 (pmfl_divide pmfl_inv_accel2 (pmfl_square pmfl_ticks))) in
    u32 (steps + Z.shiftr (u32 (s_h p + 2)) 2)
  else
    let pmfl_res := i16 (pmfl_divide (cubic c) pmfl_ticks) in
    let pmfl_res := i16 (pmfl_pow_3_div_2 pmfl_res) in
    pmfl_to_u32 pmfl_res.

(** [update]: src/RampCalculator.h:165-188 *)
Definition update (c : config) : config :=
  let p := parameters c in
  let c :=
    if s_h p >? 0 then
      let pmfl_s_h := pmfl_from_u32 (s_h p) in
      let cu := i16 (pmfl_multiply PMF_CONST_3_DIV_2 (pmfl_accel p)) in
      let cu := i16 (pmfl_sqrt (pmfl_divide (pmfl_pow_div_3 pmfl_s_h) cu)) in
      let cu := i16 (pmfl_multiply (PMF_TICKS_PER_S A) cu) in
      let th := i16 (pmfl_divide cu (pmfl_pow_2_div_3 pmfl_s_h)) in
      mkConfig p (max_ramp_up_steps c) th cu
    else mkConfig p (max_ramp_up_steps c) PMF_CONST_MAX (cubic c) in
  let m := calculate_ramp_steps c (min_travel_ticks p) in
  let m := if m =? 0 then 1 else m in
  mkConfig p m (pmfl_ticks_h c) (cubic c).

End WithArch.

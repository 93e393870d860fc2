(** * Stepper: the front end of one stepper
    Model of class FastAccelStepper: src/FastAccelStepper.h, src/FastAccelStepper.cpp.

    The queue ([Queue.v]) and the ramp generator ([RampGen.v]) belong to the same
    stepper; the levels of all pins are a function. A pin number above 127 is an external
    pin, which is operated by a user supplied function [ext]: it gets the pin and the
    wanted level and returns the level the pin has afterwards. [None] stands for a NULL
    pointer. *)
From Coq Require Import ZArith Bool List Lia.
From Verif Require Import Base RampCalc RampGen Queue.
Import ListNotations.
Open Scope Z_scope.

(** Private variables of class FastAccelStepper: src/FastAccelStepper.h:815-830.
    [_queue_num], [_engine] and the pulse counter are left out here. *)
Record stepper := mkStepper {
  s_rg : rampgen;          (* _rg *)
  s_steppin : Z;           (* _stepPin *)
  s_dirpin : Z;            (* _dirPin *)
  s_hcu : bool;            (* _dirHighCountsUp *)
  s_auto : bool;           (* _autoEnable *)
  s_low : Z;               (* _enablePinLowActive *)
  s_high : Z;              (* _enablePinHighActive *)
  s_dirdelay : Z;          (* _dir_change_delay_ticks, uint16_t *)
  s_ondelay : Z;           (* _on_delay_ticks, uint32_t *)
  s_off : Z;               (* _off_delay_count, uint16_t *)
  s_cnt : Z;               (* _auto_disable_delay_counter, uint16_t *)
  s_plan : Z               (* _forward_planning_in_ticks, uint32_t *)
}.
Definition st_rg g s := mkStepper g (s_steppin s) (s_dirpin s) (s_hcu s) (s_auto s) (s_low s)
  (s_high s) (s_dirdelay s) (s_ondelay s) (s_off s) (s_cnt s) (s_plan s).
Definition st_dir pin hcu d s := mkStepper (s_rg s) (s_steppin s) pin hcu (s_auto s) (s_low s)
  (s_high s) d (s_ondelay s) (s_off s) (s_cnt s) (s_plan s).
Definition st_auto b off s := mkStepper (s_rg s) (s_steppin s) (s_dirpin s) (s_hcu s) b (s_low s)
  (s_high s) (s_dirdelay s) (s_ondelay s) off (s_cnt s) (s_plan s).
Definition st_enpins low high s := mkStepper (s_rg s) (s_steppin s) (s_dirpin s) (s_hcu s)
  (s_auto s) low high (s_dirdelay s) (s_ondelay s) (s_off s) (s_cnt s) (s_plan s).
Definition st_ondelay d s := mkStepper (s_rg s) (s_steppin s) (s_dirpin s) (s_hcu s) (s_auto s)
  (s_low s) (s_high s) (s_dirdelay s) d (s_off s) (s_cnt s) (s_plan s).
Definition st_off d s := mkStepper (s_rg s) (s_steppin s) (s_dirpin s) (s_hcu s) (s_auto s)
  (s_low s) (s_high s) (s_dirdelay s) (s_ondelay s) d (s_cnt s) (s_plan s).
Definition st_cnt n s := mkStepper (s_rg s) (s_steppin s) (s_dirpin s) (s_hcu s) (s_auto s)
  (s_low s) (s_high s) (s_dirdelay s) (s_ondelay s) (s_off s) n (s_plan s).
Definition st_plan n s := mkStepper (s_rg s) (s_steppin s) (s_dirpin s) (s_hcu s) (s_auto s)
  (s_low s) (s_high s) (s_dirdelay s) (s_ondelay s) (s_off s) (s_cnt s) n.

(** src/FastAccelStepper.h:326-328 *)
Definition DELAY_OK : Z := 0.
Definition DELAY_TOO_LOW : Z := -1.
Definition DELAY_TOO_HIGH : Z := -2.

(** Type of [_engine->_externalCallForPin] *)
Definition extcall := option (Z -> bool -> bool).

(** One pin is set to [level]: the new levels, and [false] if the external function
    reports another level. This pattern is common to src/FastAccelStepper.cpp:695-704,
    705-714 (disableOutputs), 722-731, 732-741 (enableOutputs). *)
Definition set_pin (ext : extcall) (pin : Z) (level : bool) (p : pins) : pins * bool :=
  if pin =? PIN_UNDEFINED then (p, true)
  else if is_external pin then
    match ext with
    | Some f => (upd p pin (f pin level), Bool.eqb (f pin level) level)
    | None => (p, true)
    end
  else (upd p pin level, true).

(** src/FastAccelStepper.cpp:720-743 *)
Definition enableOutputs (ext : extcall) (s : stepper) (p : pins) : pins * bool :=
  let '(p, a) := set_pin ext (s_low s) false p in
  let '(p, b) := set_pin ext (s_high s) true p in
  (p, a && b).

(** isRunning(): src/FastAccelStepper.cpp:888-891 *)
Definition s_isRunning (s : stepper) (q : queue) : bool :=
  q_running q || isRampGeneratorActive (s_rg s) || negb (isQueueEmpty q).

(** disableOutputs(): src/FastAccelStepper.cpp:690-719, cut into the test of line 691 and
    the rest *)
Definition disable_allowed (s : stepper) (q : queue) : bool :=
  negb (s_isRunning s q && s_auto s).
Definition disable_pins (ext : extcall) (s : stepper) (p : pins) : stepper * pins * bool :=
  let '(p, a) := set_pin ext (s_low s) true p in
  let '(p, b) := set_pin ext (s_high s) false p in
  ((if a && b then st_cnt 0 s else s), p, a && b).
Definition disableOutputs (ext : extcall) (s : stepper) (q : queue) (p : pins)
  : stepper * pins * bool :=
  if disable_allowed s q then disable_pins ext s p else (s, p, false).

Section WithArch.
Variable A : arch.
Variable EXT : bool.

(** US_TO_TICKS, TICKS_TO_US: src/RampCalculator.h:13-14, 19-20, on uint32_t *)
Definition US_TO_TICKS (us : Z) : Z := u32 (us * TICKS_PER_US A).
Definition TICKS_TO_US (t : Z) : Z := t / TICKS_PER_US A.
(** src/FastAccelStepper.h:254 *)
Definition MAX_ON_DELAY_TICKS : Z := u32 (65535 * (QUEUE_LEN A - 1)).

(** init(): src/FastAccelStepper.cpp:499-528; [g] as in [rg_init] *)
Definition s_init (g : Z) (step_pin : Z) : stepper :=
  mkStepper (rg_init g) step_pin PIN_UNDEFINED true false PIN_UNDEFINED PIN_UNDEFINED 0 0 1 0
    (TICKS_PER_S A / 50).

(** ** Configuration *)

(** setDirectionPin(): src/FastAccelStepper.cpp:529-554. The product of line 550 is
    computed in (at least) 16 bit unsigned arithmetic and stored in a uint16_t. *)
Definition dir_delay_ticks (us : Z) : Z :=
  if negb (us =? 0) then
    let us := if us >? MAX_DIR_DELAY_US A then MAX_DIR_DELAY_US A else us in
    let us := if us <? MIN_DIR_DELAY_US A then MIN_DIR_DELAY_US A else us in
    u16 (us * TICKS_PER_US A)
  else 0.
Definition setDirectionPin (ext : extcall) (pin : Z) (hcu : bool) (us : Z)
  (s : stepper) (q : queue) (p : pins) : stepper * queue * pins :=
  (st_dir pin hcu (dir_delay_ticks us) s, set_dir pin hcu q, fst (set_pin ext pin hcu p)).

(** setEnablePin(): src/FastAccelStepper.cpp:555-586 *)
Definition setEnablePin (ext : extcall) (pin : Z) (low_active : bool) (s : stepper) (p : pins)
  : stepper * pins :=
  let clash other :=
    if negb (pin =? PIN_UNDEFINED) && negb (is_external pin) && (other =? pin)
    then PIN_UNDEFINED else other in
  ((if low_active then st_enpins pin (clash (s_high s)) s
    else st_enpins (clash (s_low s)) pin s),
   fst (set_pin ext pin low_active p)).

(** setAutoEnable(): src/FastAccelStepper.cpp:587-592 *)
Definition setAutoEnable (b : bool) (s : stepper) : stepper :=
  st_auto b (if b && (s_off s =? 0) then 1 else s_off s) s.

(** setDelayToEnable(): src/FastAccelStepper.cpp:593-605 *)
Definition setDelayToEnable (us : Z) (s : stepper) : stepper * Z :=
  let t := US_TO_TICKS us in
  if (t >? 0) && (t <? MIN_CMD_TICKS A) then (s, DELAY_TOO_LOW)
  else if t >? MAX_ON_DELAY_TICKS then (s, DELAY_TOO_HIGH)
  else (st_ondelay t s, DELAY_OK).

(** setDelayToDisable(): src/FastAccelStepper.cpp:606-613 *)
Definition setDelayToDisable (ms : Z) (s : stepper) : stepper :=
  let n := ms / DELAY_MS_BASE A in
  let n := if (ms >? 0) && (n <? 2) then 2 else n in
  st_off (fas_max n 1) s.

(** setSpeedIn...(): src/FastAccelStepper.cpp:819-849 *)
Definition setSpeedInTicks (t : Z) (s : stepper) (q : queue) : stepper * Z :=
  if t <? q_max q then (s, -1)
  else if t =? TICKS_FOR_STOPPED_MOTOR then (s, -1)
  else (st_rg (rg_setSpeedInTicks t (s_rg s)) s, 0).
Definition setSpeedInUs (us : Z) (s : stepper) (q : queue) : stepper * Z :=
  if us >=? TICKS_TO_US 4294967295 then (s, -1)
  else setSpeedInTicks (US_TO_TICKS us) s q.
Definition setSpeedInHz (f : Z) (s : stepper) (q : queue) : stepper * Z :=
  match divForHz A f with
  | None => (s, -1)                                  (* speed_hz == 0 *)
  | Some t => setSpeedInTicks t s q
  end.
Definition setSpeedInMilliHz (f : Z) (s : stepper) (q : queue) : stepper * Z :=
  if f <=? 1000 * TICKS_PER_S A / 4294967295 + 1 then (s, -1)
  else
    match divForMilliHz A f with
    | None => (s, -1)                                (* not reached *)
    | Some t => setSpeedInTicks t s q
    end.

(** getMaxSpeedIn...(): src/FastAccelStepper.cpp:796-814; [None] = division by zero, which
    needs setAbsoluteSpeedLimit(0) *)
Definition getMaxSpeedInUs (q : queue) : Z := u16 (q_max q / (TICKS_PER_S A / 1000000)).
Definition getMaxSpeedInHz (q : queue) : option Z :=
  if q_max q =? 0 then None else Some (TICKS_PER_S A / q_max q).
Definition getMaxSpeedInMilliHz (q : queue) : option Z :=
  if q_max q =? 0 then None else Some (u32 (u32 (250 * TICKS_PER_S A) / q_max q * 4)).

(** setForwardPlanningTimeInMs(): src/FastAccelStepper.h:615-618, uint8_t argument *)
Definition setForwardPlanningTimeInMs (ms : Z) (s : stepper) : stepper :=
  st_plan (u32 (ms * (TICKS_PER_S A / 1000))) s.

(** ** Access to the queue

    The front end uses the queue only through the operations below, so that the same model
    runs on a single queue ([plain]) and, in StepperHist.v, on a queue whose interrupt runs
    in between. *)
Record access (T : Type) := mkAccess {
  t_q : T -> queue;                                (* reading variables of the queue *)
  t_pins : T -> pins;                              (* levels of the pins *)
  t_setpins : pins -> T -> T;
  t_ignore : bool -> T -> T;                       (* q->ignore_commands = ... *)
  t_add : command -> bool -> T -> T * Z;           (* q->addQueueEntry(&cmd, start) *)
  t_null : bool -> T -> T * Z                      (* q->addQueueEntry(NULL, start) *)
}.

(** Queue and pins; the device is ready, no interrupt during a call *)
Definition plain : access (queue * pins) := {|
  t_q := fst;
  t_pins := snd;
  t_setpins := fun p t => (fst t, p);
  t_ignore := fun b t => (set_ignore b (fst t), snd t);
  t_add := fun c start t =>
    let r := q_add A EXT true true c start (fst t) (snd t) in ((a_q r, a_pins r), a_code r);
  t_null := fun start t =>
    let r := q_add_null true start (fst t) (snd t) in ((a_q r, a_pins r), a_code r)
|}.

Section Front.
Variable T : Type.
Variable X : access T.
Notation tq := (t_q T X).
Notation tadd := (t_add T X).

(** ** addQueueEntry: src/FastAccelStepper.cpp:228-334 *)

(** The pieces of the enable delay: lines 273-287 *)
Definition on_piece (delay : Z) : Z :=
  let ticks := Z.shiftr delay 1 in
  if ticks >? 65535 then 65535
  else if ticks <? 32768 then u16 delay
  else u16 ticks.
Fixpoint on_pieces (fuel : nat) (delay : Z) : list Z :=
  match fuel with
  | O => []
  | S n => if delay >? 0 then on_piece delay :: on_pieces n (u32 (delay - on_piece delay))
           else []
  end.
(** every piece but the last one has at least 32768 ticks *)
Definition on_fuel (delay : Z) : nat := Z.to_nat (delay / 32768 + 1).

(** the loop; the return values are ignored (line 285) *)
Fixpoint add_pauses (up : bool) (l : list Z) (t : T) : T :=
  match l with
  | [] => t
  | d :: l' => add_pauses up l' (fst (tadd (mkCommand d 0 up) false t))
  end.

(** lines 266-272 *)
Definition on_delay (c : command) (s : stepper) (t : T) : Z :=
  if (s_ondelay s <? s_dirdelay s) && negb (Bool.eqb (qe_up (q_end (tq t))) (c_up c))
  then s_dirdelay s else s_ondelay s.

(** First half, lines 230-293: everything up to the enable delay. [busy] is the result of
    _engine->isDirPinBusy(). The code AQE_OK means: go on with the second half. *)
Definition add_first (ext : extcall) (busy : bool) (c : command) (start : bool)
  (s : stepper) (t : T) : T * Z :=
  if c_ticks c <? q_max (tq t) then (t, AQE_ERROR_TICKS_TOO_LOW)
  else if negb (s_dirpin s =? PIN_UNDEFINED) && (negb (q_running (tq t)) && busy) then
    (t, AQE_DIR_PIN_IS_BUSY)
  else if (s_dirpin s =? PIN_UNDEFINED) && negb (c_up c) then
    (t, AQE_ERROR_NO_DIR_PIN_TO_TOGGLE)
  else if s_auto s && (s_cnt s =? 0) then
    let r := enableOutputs ext s (t_pins T X t) in
    let t := t_setpins T X (fst r) t in
    if negb (snd r) then (t, AQE_WAIT_FOR_ENABLE_PIN_ACTIVE)
    else if s_ondelay s >? 0 then
      let d := on_delay c s t in
      t_null T X start (add_pauses (c_up c) (on_pieces (on_fuel d) d) t)
    else (t, AQE_OK)
  else (t, AQE_OK).

(** Second half, lines 294-332 *)
Definition dir_pause (c : command) (s : stepper) : command :=
  mkCommand (s_dirdelay s) 0 (c_up c).
Definition ext_pause (c : command) : command :=
  mkCommand (u16 (500 * TICKS_PER_US A)) 0 (c_up c).
Definition add_last (c : command) (start : bool) (s : stepper) (t : T) : stepper * T * Z :=
  let r := tadd c start t in
  ((if s_auto s && (snd r =? AQE_OK) then st_cnt (s_off s) s else s), fst r, snd r).
Definition add_second (c : command) (start : bool) (s : stepper) (t : T) : stepper * T * Z :=
  if negb (Bool.eqb (qe_up (q_end (tq t))) (c_up c)) then
    if is_external (s_dirpin s) then
      if queueEntries (tq t) >? QUEUE_LEN A - 2 then (s, t, AQE_QUEUE_FULL)
      else
        let r := tadd (ext_pause c) start t in
        if negb (snd r =? AQE_OK) then (s, fst r, snd r)
        else
          let r := tadd (ext_pause c) start (fst r) in
          if negb (snd r =? AQE_OK) then (s, fst r, snd r)
          else add_last c start s (fst r)
    else if negb (s_dirdelay s =? 0) && negb (c_steps c =? 0) then
      let r := tadd (dir_pause c s) start t in
      if negb (snd r =? AQE_OK) then (s, fst r, snd r)
      else add_last c start s (fst r)
    else add_last c start s t
  else add_last c start s t.

(** the complete function: stepper, queue, return code *)
Definition s_add (ext : extcall) (busy : bool) (c : command) (start : bool)
  (s : stepper) (t : T) : stepper * T * Z :=
  let r := add_first ext busy c start s t in
  if negb (snd r =? AQE_OK) then (s, fst r, snd r)
  else add_second c start s (fst r).

(** ** fill_queue: src/FastAccelStepper.cpp:363-450

    [old] is the uninitialised local variable [cmd]; [busy k] belongs to a round; [None] is
    undefined behaviour of the ramp generator. The rounds are limited by [fuel]: without
    interrupts every round but the last one adds a command. *)
Definition fill_more (s : stepper) (q : queue) (prepared : Z) : bool :=
  negb (isQueueFull A q)
  && ((prepared <? s_plan s) || (queueEntries q <=? 1))
  && isRampGeneratorActive (s_rg s).
Definition cmd_ticks (c : command) : Z :=
  if c_steps c <=? 1 then c_ticks c else u32 (c_ticks c * c_steps c).
(** result: stepper, queue, need_delayed_start *)
Fixpoint fill_loop (ext : extcall) (busy : nat -> bool) (delayed : bool) (fuel : nat)
  (old : next_command) (prepared : Z) (need : bool) (s : stepper) (t : T)
  : option (stepper * T * bool) :=
  match fuel with
  | O => Some (s, t, need)
  | S n =>
    if fill_more s (tq t) prepared then
      match rg_getNextCommand A (q_end (tq t)) old (s_rg s) with
      | None => None
      | Some (g, nc) =>
        let s := st_rg g s in
        let c := n_cmd nc in
        if c_ticks c =? 0 then
          Some (st_rg (rg_afterCommandEnqueued nc g) s, t, delayed)
        else
          let '(s, t, code) := s_add ext (busy n) c (negb delayed) s t in
          if code =? AQE_OK then
            fill_loop ext busy delayed n nc (u32 (prepared + cmd_ticks c)) delayed
              (st_rg (rg_afterCommandEnqueued nc (s_rg s)) s) t
          else if code >? 0 then Some (s, t, need)
          else
            (* the ramp is aborted; [delayed_start = false] has no effect any more *)
            Some (st_rg (rg_stopRamp (s_rg s)) s, t, need)
      end
    else Some (s, t, need)
  end.
Definition fill_queue (ext : extcall) (busy : nat -> bool) (fuel : nat) (old : next_command)
  (s : stepper) (t : T) : option (stepper * T) :=
  if negb (isRampGeneratorActive (s_rg s)) then Some (s, t)
  else if negb (checkValidConfig (rg_params (s_rg s)) =? MOVE_OK) then Some (s, t)
  else
    let t := t_ignore T X false t in
    match fill_loop ext busy (negb (q_running (tq t))) fuel old (ticksInQueue A (tq t)) false s t with
    | None => None
    | Some (s, t, need) => Some (s, if need then fst (t_null T X true t) else t)
    end.

(** performOneStep(): src/FastAccelStepper.cpp:892-904, without waiting *)
Definition performOneStep (ext : extcall) (busy up : bool) (s : stepper) (t : T)
  : stepper * T * Z :=
  if negb (s_isRunning s (tq t)) && (up || negb (s_dirpin s =? PIN_UNDEFINED))
  then s_add ext busy (mkCommand (MIN_CMD_TICKS A) 1 up) true s t
  else (s, t, AQE_OK).
End Front.

(** ** Moves *)
(** moveTo, move, runForward, runBackward: src/FastAccelStepper.cpp:614-638, without the
    blocking variant *)
Definition s_moveTo (pos : Z) (s : stepper) (q : queue) : stepper * Z :=
  let '(g, r) := rg_moveTo pos (q_end q) (s_rg s) in (st_rg g s, r).
Definition s_move (d : Z) (s : stepper) : stepper * Z :=
  if (d <? 0) && (s_dirpin s =? PIN_UNDEFINED) then (s, -1)   (* MOVE_ERR_NO_DIRECTION_PIN *)
  else let '(g, r) := rg_move d (s_rg s) in (st_rg g s, r).
Definition s_run (up : bool) (s : stepper) : stepper * Z :=
  let '(g, r) := rg_startRun up (s_rg s) in (st_rg g s, r).
(** getPeriodInTicksAfterCommandsCompleted(): src/FastAccelStepper.cpp:747-752 *)
Definition s_periodAfter (s : stepper) : Z :=
  if isRampGeneratorActive (s_rg s) then rw_curr_ticks (rg_rw (s_rg s)) else 0.
(** moveByAcceleration(): src/FastAccelStepper.cpp:642-664. The return values of the calls
    other than runForward and runBackward are ignored by the source. [None] = negation of
    INT32_MIN. *)
Definition s_rg_map (f : rampgen -> rampgen) (s : stepper) : stepper := st_rg (f (s_rg s)) s.
Definition s_moveByAcceleration (a : Z) (allow_reverse : bool) (s : stepper) (q : queue)
  : option (stepper * Z) :=
  let accel v s := s_rg_map (fun g => fst (rg_setAcceleration v g)) s in
  if a >? 0 then Some (s_run true (accel a s))
  else if a <? 0 then
    if a =? -2147483648 then None
    else
      let s := accel (- a) s in
      if allow_reverse && negb (s_dirpin s =? PIN_UNDEFINED) then Some (s_run false s)
      else Some (s_rg_map rg_initiateStop (s_rg_map rg_applySpeedAcceleration s), MOVE_OK)
  else
    let max_speed := min_travel_ticks (rg_params (s_rg s)) in
    let s := fst (setSpeedInTicks (s_periodAfter s) s q) in
    let s := s_rg_map rg_applySpeedAcceleration (accel 1 s) in
    Some (fst (setSpeedInTicks max_speed s q), MOVE_OK).
(** forceStop(): src/FastAccelStepper.cpp:665-673 *)
Definition s_forceStop (s : stepper) (q : queue) : stepper * queue :=
  (st_rg (rg_forceStop (s_rg s)) s, set_ignore true q).
(** forceStopAndNewPosition(): src/FastAccelStepper.cpp:674-689 *)
Definition s_forceStopAndNewPosition (pos : Z) (s : stepper) (q : queue) : stepper * queue :=
  let q := q_clear (set_ignore true q) in
  (st_rg (rg_setTargetPosition pos (rg_stopRamp (s_rg s))) s,
   set_end (mkQueueEnd pos (qe_up (q_end q)) (qe_dir (q_end q))) q).
(** setCurrentPosition(), setPositionAfterCommandsCompleted(): :850-869; [done_p] as in
    [getCurrentPosition] *)
Definition s_setCurrentPosition (done_p pos : Z) (s : stepper) (q : queue) : stepper * queue :=
  let delta := i32 (pos - getCurrentPosition A done_p q) in
  if negb (delta =? 0) then
    (st_rg (rg_advanceTargetPosition delta (s_rg s)) s,
     set_end (mkQueueEnd (i32 (qe_pos (q_end q) + delta)) (qe_up (q_end q)) (qe_dir (q_end q))) q)
  else (s, q).
Definition s_setPositionAfter (pos : Z) (s : stepper) (q : queue) : stepper * queue :=
  let delta := i32 (pos - qe_pos (q_end q)) in
  (st_rg (if negb (delta =? 0) then rg_advanceTargetPosition delta (s_rg s) else s_rg s) s,
   set_end (mkQueueEnd pos (qe_up (q_end q)) (qe_dir (q_end q))) q).
End WithArch.

(** ** Automatic disabling: src/FastAccelStepper.cpp:449-497 *)
Definition updateAutoDisable (s : stepper) (q : queue) : stepper :=
  if (s_cnt s >? 1) && negb (s_isRunning s q) then st_cnt (s_cnt s - 1) s else s.
Definition agreeWithAutoDisable (s : stepper) (q : queue) : bool :=
  negb (s_isRunning s q) && negb (s_cnt s >? 1).
Definition needAutoDisable (s : stepper) (q : queue) : bool :=
  (s_cnt s =? 1) && negb (s_isRunning s q).
Definition usesAutoEnablePin (s : stepper) (pin : Z) : bool :=
  negb (pin =? PIN_UNDEFINED) && ((pin =? s_high s) || (pin =? s_low s)).

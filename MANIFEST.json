{
 "claims": [
  {
   "property": "C01",
   "status": "proved",
   "theorems": [
    "C01_from_u32_monotone",
    "C01_from_u16_monotone",
    "C01_from_u8_monotone",
    "C01_from_zero"
   ],
   "note": "all pairs of 8, 16 and 32 bit values"
  },
  {
   "property": "C02",
   "status": "proved",
   "theorems": [
    "C02_from_u32_accurate",
    "C02_byte_accurate"
   ],
   "note": "all x in 1..2^32-1; error between -1.5 and +0.75 units of 1/512 octave (-0.25 to +0.75 for one byte), against ln over the reals"
  },
  {
   "property": "C03",
   "status": "proved",
   "theorems": [
    "C03_to_u32_monotone",
    "C03_to_u16_monotone",
    "C03_to_u32_zero",
    "C03_to_u16_zero",
    "C03_to_u32_saturates",
    "C03_to_u16_saturates",
    "C03_to_u32_accurate"
   ],
   "note": "all logarithmic values; error at most max(1, 0.1 percent)"
  },
  {
   "property": "C04",
   "status": "proved",
   "theorems": [
    "C04_round_trip",
    "C04_round_trip_exact"
   ],
   "note": "all 32 bit values, relative error at most 0.2 percent; exact below 514"
  },
  {
   "property": "C05",
   "status": "partial",
   "theorems": [
    "C05_period_no_wrap",
    "C05_steps_no_wrap",
    "C05_intermediate_values_partial",
    "C05_intermediate_values_refuted"
   ],
   "note": "Results never differ from the formula over unbounded integers (all accelerations, steps, periods). All intermediates fit int16 for periods below 4292870144; refuted above (square of the period overflows int16, a finding; the final result is still right)."
  },
  {
   "property": "C06",
   "status": "proved",
   "theorems": [
    "C06_period_accurate",
    "C06_period_decreases_along_ramp",
    "C06_period_decreases_with_acceleration"
   ],
   "note": "within 1/150 + 1 tick for all accelerations 1..2^31-1 and all steps; monotone in both"
  },
  {
   "property": "C07",
   "status": "proved",
   "theorems": [
    "C07_steps_accurate",
    "C07_steps_monotone"
   ],
   "note": "within 1/100 + 1 step whenever the ideal ramp length fits (<= 4260000000), saturates above; monotone"
  },
  {
   "property": "C08",
   "status": "partial",
   "theorems": [
    "C08_ticks",
    "C08_us_partial",
    "C08_hz",
    "C08_us_refuted"
   ],
   "note": "setSpeedInTicks and setSpeedInHz in full, setSpeedInUs for every argument but one: C08_us_refuted shows that 268435455 us, the longest representable period, is refused."
  },
  {
   "property": "C09",
   "status": "partial",
   "theorems": [
    "C09_mhz_partial",
    "C09_sam_refuted",
    "C09_fast_refuted"
   ],
   "note": "All rates on the 16 MHz targets with a speed limit above 20 ticks. Refuted for the SAM target (constant overflows 32 bits) and for a speed limit lowered to 8 ticks."
  },
  {
   "property": "C10",
   "status": "partial",
   "theorems": [
    "C10_get_partial",
    "C10_max_partial",
    "C10_slow_refuted",
    "C10_sam_refuted",
    "C10_max_refuted"
   ],
   "note": "Exact rounding for periods up to 954437176 ticks on the 16 MHz targets. Refuted beyond, on SAM, and for the rounding of getMaxSpeedInMilliHz."
  },
  {
   "property": "C11",
   "status": "proved",
   "theorems": [
    "C11_dir_delay"
   ],
   "note": "all architectures, all 16 bit delays"
  },
  {
   "property": "C12",
   "status": "partial",
   "theorems": [
    "C12_enable_delay_partial",
    "C12_overflow_refuted"
   ],
   "note": "All delays below 2^28 us. C12_overflow_refuted: 268435496 us is accepted and stored as 40 us."
  },
  {
   "property": "C13",
   "status": "partial",
   "theorems": [
    "C13_fifo",
    "C13_taken",
    "C13_full",
    "C13_pieces",
    "C13_ignored_refuted"
   ],
   "note": "C13_fifo, C13_taken, C13_full: arbitrary event histories with the interrupt interleaved between the pieces of addQueueEntry, 8 bit indices, all architectures. One producer. C13_ignored_refuted: after forceStop() (ignore_commands set) addQueueEntry returns OK and drops the command."
  },
  {
   "property": "C14",
   "status": "partial",
   "theorems": [
    "C14_refused",
    "C14_refused_refuted"
   ],
   "note": "C14_refused for every queue when isReadyForCommands() does not change during the call. C14_refused_refuted: ESP32 RMT becoming unready between the two checks leaves direction pin and planned direction changed."
  },
  {
   "property": "C15",
   "status": "proved",
   "theorems": [
    "C15_speed_limit",
    "C15_min_duration"
   ],
   "note": "C15_min_duration over all histories of the queue with interrupts, C15_speed_limit over all histories of the stepper's addQueueEntry."
  },
  {
   "property": "C16",
   "status": "proved",
   "theorems": [
    "C16_planned_position"
   ],
   "note": "All histories without explicit position changes, from any reachable state; 32 bit wrap-around (the C++ signed addition would be undefined on overflow)."
  },
  {
   "property": "C17",
   "status": "partial",
   "theorems": [
    "C17_current_position_end",
    "C17_current_position_start",
    "C17_rmt_refuted"
   ],
   "note": "C17_current_position_end (AVR, SAM, PC) and _start (ESP32 with a correct pulse counter) for every start position and all histories. C17_rmt_refuted: the RMT driver reports 0 performed pulses, so the reading only changes per command."
  },
  {
   "property": "C18",
   "status": "partial",
   "theorems": [
    "C18_idle",
    "C18_moving_iff",
    "C18_moving_refuted",
    "C18_after_drain"
   ],
   "note": "C18_idle: exact with an empty queue. C18_moving_iff: with pending commands the reading is right exactly if the shift is a multiple of 65536. C18_moving_refuted: concrete wrong reading. C18_after_drain: correct again when the queue is empty. The ramp target shift is rg_advanceTargetPosition (RampGen)."
  },
  {
   "property": "C19",
   "status": "proved",
   "theorems": [
    "C19_ticks_in_queue"
   ],
   "note": "All histories; thresholds 0 < t < 2^32."
  },
  {
   "property": "C20",
   "status": "proved",
   "theorems": [
    "C20_direction_pin"
   ],
   "note": "All histories of the abstract consumer that toggles the pin when it starts an entry; the AVR interrupt routine is treated in C21-C23."
  },
  {
   "property": "C21",
   "status": "proved",
   "theorems": [
    "C21_pulses",
    "C21_stops"
   ],
   "note": "Every stopped state reachable by any queue history, additions in interruptible pieces while the queue is not empty, direction pin driven by the queue or none; timer abstracted to absolute time and no interrupt latency. External direction pins excluded."
  },
  {
   "property": "C22",
   "status": "partial",
   "theorems": [
    "C22_refill_partial",
    "C22_refill_refuted",
    "C22_pause_refuted"
   ],
   "note": "C22_refill_partial: exact behaviour for commands with at most one step (a step comes 10 ticks late, a pause lasts twice). C22_refill_refuted: more than one step gives pulses in the wrong direction and a last period of 10 ticks. C22_pause_refuted."
  },
  {
   "property": "C23",
   "status": "partial",
   "theorems": [
    "C23_force_stop_partial",
    "C23_next_session_partial",
    "C23_force_stop_refuted"
   ],
   "note": "Positive when _noMoreCommands is clear (stop outside the last period). C23_force_stop_refuted: the stale flag gives one pulse too much."
  },
  {
   "property": "C24",
   "status": "partial",
   "theorems": [
    "C24_enable_delay_partial",
    "C24_not_ready_refuted",
    "C24_refused_refuted"
   ],
   "note": "C24_enable_delay_partial: every configurable delay, all four architectures, idle and ready queue in every reachable state. Refuted: a device that is not ready for a moment loses pieces of the delay; a refused first command leaves the pauses queued, so that the delay is applied twice."
  },
  {
   "property": "C25",
   "status": "partial",
   "theorems": [
    "C25_enabled_partial",
    "C25_race_refuted",
    "C25_deferred_refuted",
    "C25_new_pin_refuted"
   ],
   "note": "All histories with fixed enable pins, auto enable on throughout, and external pins that follow at once. Refuted: race with the background task, deferred external pins, setEnablePin between two moves."
  },
  {
   "property": "C26",
   "status": "proved",
   "theorems": [
    "C26_only_up",
    "C26_refused"
   ],
   "note": "all histories with interrupts; the refusal code for every state"
  },
  {
   "property": "C27",
   "status": "partial",
   "theorems": [
    "C27_settled_partial",
    "C27_pause_refuted",
    "C27_external_refuted",
    "C27_not_ready_refuted"
   ],
   "note": "All histories in which pauses do not carry a direction change, including enable delays. Refuted: a pause with the new direction, external direction pins, not ready device."
  },
  {
   "property": "C28",
   "status": "partial",
   "theorems": [
    "C28_steps_partial",
    "C28_min_refuted",
    "C28_ignored_refuted"
   ],
   "note": "C28_steps_partial: success implies exactly |steps| steps in the requested direction, after every history, with interrupts and a not ready device anywhere; missing: steps = -32768 (C28_min_refuted: success, nothing queued) and a stepper after forceStop() (C28_ignored_refuted)."
  },
  {
   "property": "C29",
   "status": "partial",
   "theorems": [
    "C29_reported_partial",
    "C29_overcount_refuted",
    "C29_pause_refuted",
    "C29_pause_direction_refuted"
   ],
   "note": "C29_reported_partial: up to 255 steps, or slower than 65535 ticks per step, the reported duration is the one of moveTimed's own commands and is at most |steps| ticks short; without direction change and automatic enabling these are all new commands. Refuted: more than 255 fast steps are over-reported (480000 queued, 720000 reported); pauses inserted for a direction change are not reported; a pause always has direction up."
  },
  {
   "property": "C30",
   "status": "partial",
   "theorems": [
    "C30_refused",
    "C30_all_or_nothing_partial",
    "C30_room_checked_partial",
    "C30_remainder_refuted",
    "C30_pause_refuted",
    "C30_modulo_refuted",
    "C30_period_refuted",
    "C30_direction_refuted"
   ],
   "note": "C30_refused: BUSY and TOO_LARGE leave everything unchanged. C30_all_or_nothing_partial: for regular arguments, a ready device and no inserted pauses, an error queues nothing. Refuted for a remainder of 131072 ticks, for pauses near 65536 ticks per entry, for the command count modulo 256, for a period of 65535 ticks with remainder, and for a direction change with one free entry. C30_room_checked_partial: the room test at the start counts exactly the entries that are queued."
  },
  {
   "property": "C31",
   "status": "partial",
   "theorems": [
    "C31_moveTo_ends_at_target",
    "C31_move_ends_at_target",
    "C31_moveTo_ends_strict_partial",
    "C31_move_ends_strict_partial",
    "C31_ends_at_target_refuted",
    "C31_distance_refuted"
   ],
   "note": "Without jump start, any linear acceleration phase (s_h < 2^32-2), acceleration * ramp length <= 10^14. Proved for every ramp state and every period 2..2^30 if the queue accepts all commands; with a queue refusing short commands proved for periods >= MIN_CMD_TICKS; refuted for faster moves (move aborted half way). Also refuted for a distance of -2147483648: its absolute value is undefined (C31_distance_refuted)."
  },
  {
   "property": "C32",
   "status": "partial",
   "theorems": [
    "C32_moveTo_monotone_partial",
    "C32_move_monotone_partial",
    "C32_monotone_refuted"
   ],
   "note": "Proved for periods >= MIN_CMD_TICKS from standstill (no jump start, any linear acceleration phase); refuted for faster moves (overshoot by two steps). No command is faster than the set period (capped at 32767 ticks)."
  },
  {
   "property": "C33",
   "status": "partial",
   "theorems": [
    "C33_speed_limit_partial",
    "C33_speed_limit_short_move_refuted",
    "C33_speed_limit_slow_refuted"
   ],
   "note": "Proved for complete moves with periods >= MIN_CMD_TICKS and for a single command in any ramp state of a running motor; refuted for short fast moves from standstill and for slow speeds beyond 16 bits."
  },
  {
   "property": "C34",
   "status": "proved",
   "theorems": [
    "C34_reverses_only_at_ramp_end",
    "C34_decelerates_completely"
   ],
   "note": "Single command: every state, target, configuration. Complete reversal: every ramp state, with or without linear phase."
  },
  {
   "property": "C35",
   "status": "partial",
   "theorems": [
    "C35_split_exact",
    "C35_pause_exact",
    "C35_exact_period_refuted"
   ],
   "note": "Splitting and pause pieces are exact for every period; refuted in the clipping path when a slow speed (period > 65535 ticks) is reduced: truncated to 16 bits."
  },
  {
   "property": "C36",
   "status": "partial",
   "theorems": [
    "C36_accepted_partial",
    "C36_accepted_refuted",
    "C36_accepted_slow_refuted"
   ],
   "note": "Proved for moves with periods >= MIN_CMD_TICKS (any ramp state) and for continuous running at any speed (C40); refuted for faster moves and for slow speeds beyond 16 bits."
  },
  {
   "property": "C37",
   "status": "partial",
   "theorems": [
    "C37_stop",
    "C37_stop_strict",
    "C37_stop_strict_refuted"
   ],
   "note": "Every ramp state without pending parameters, with or without linear phase; with a queue refusing short commands for current periods >= MIN_CMD_TICKS. Refuted behind it: with acceleration 13000000 and a period limit of 2720 ticks (below MIN_CMD_TICKS 3200 of the ESP32) the queue refuses the last command of the stop."
  },
  {
   "property": "C38",
   "status": "partial",
   "theorems": [
    "C38_move_move",
    "C38_moveTo_moveTo",
    "C38_moveTo_move_refuted",
    "C38_moves_add_up"
   ],
   "note": "any number of relative moves, move/move and moveTo/moveTo proved for every interleaving; moveTo/move without the task in between refuted (the absolute move is lost)."
  },
  {
   "property": "C39",
   "status": "partial",
   "theorems": [
    "C39_force_stop",
    "C39_stop_lost_refuted",
    "C39_run_lost_refuted",
    "C39_move_lost_refuted"
   ],
   "note": "Proved without pending parameters; refuted for a request pending at forceStop() and for forceStop() at standstill followed by runForward() or a moveTo() to the old target."
  },
  {
   "property": "C40",
   "status": "proved",
   "theorems": [
    "C40_keeps_running",
    "C40_keeps_running_linear"
   ],
   "note": "From standstill without jump start, unbounded number of commands; configurations which reach their speed within 268334455 steps (period^2 * acceleration >= 10^6 with a linear phase of at most 5*10^7 steps)."
  },
  {
   "property": "C41",
   "status": "partial",
   "theorems": [
    "C41_running_partial",
    "C41_one_pin",
    "C41_frame",
    "C41_chain_refuted",
    "C41_race_refuted"
   ],
   "note": "Proved for one undisturbed pass of the background task if sharing of enable pins is transitive (C41_one_pin: e.g. every stepper has one enable pin); all states, pins and external functions. False in general: C41_chain_refuted (a third stepper, whose pin is used by a stepper that agreed, is not asked) and C41_race_refuted (a stepper starts between the agreement and the disabling; the critical section is commented out in the source)."
  },
  {
   "property": "C42",
   "status": "proved",
   "theorems": [
    "C42_connect",
    "C42_distinct",
    "C42_count",
    "C42_channel"
   ],
   "note": "All histories of stepperConnectToPin calls, interleaved with arbitrary work of the connected steppers, for the three ways of choosing a queue (AVR fixed channels, next free, ESP32 driver selection). connect_spec says when NULL is returned and that nothing else changes but the speed limits."
  },
  {
   "property": "C43",
   "status": "partial",
   "theorems": [
    "C43_refused",
    "C43_direction_partial",
    "C43_exclusive_partial",
    "C43_prompt",
    "C43_waiting_refuted",
    "C43_race_refuted"
   ],
   "note": "C43_refused: refusal while another stepper on the pin is running. C43_direction_partial / C43_exclusive_partial: all histories of any number of steppers in which a command is given to an idle stepper only if no other stepper of the pin has commands waiting to be started and isDirPinBusy() is up to date (C43_prompt: holds if all commands are started at once on a ready device). False otherwise: C43_waiting_refuted (queued but not started commands are not seen by isDirPinBusy) and C43_race_refuted (test and queueing are not atomic). External direction pins are not covered."
  },
  {
   "property": "C44",
   "status": "partial",
   "theorems": [
    "C44_signal_partial",
    "C44_counts_partial",
    "C44_exact",
    "C44_slow",
    "C44_history_partial",
    "C44_underflow_refuted",
    "C44_end_marker_refuted",
    "C44_direction_pause_refuted",
    "C44_force_stop"
   ],
   "note": "Model of the ESP-IDF 5 encoder, PART_SIZE 32 and 24. C44_exact characterises exactly the accepted commands for which the symbols are right (no half symbol of length zero or longer than the period); C44_signal gives the whole signal for these, C44_slow says that 4*PART_SIZE+2 ticks are always enough, C44_history sums up the edges over all histories without forceStop. Refuted for the rest: 33 steps of 97 ticks (low phase underflows) and of 128 ticks (zero-length half symbol after 16 steps); the pause inserted before a direction change is truncated to 16 bit and contains a zero-length half symbol."
  },
  {
   "property": "C45",
   "status": "proved",
   "theorems": [
    "C45_toggle",
    "C45_direction"
   ],
   "note": "Over every interleaving of addQueueEntry (in pieces), encoder calls, end-of-transmission, forceStop and pin configuration. 'Currently being transmitted' is the part made by the previous encoder call of the same transmission (the driver refills one half of the symbol memory while the other half is sent)."
  },
  {
   "property": "C46",
   "status": "partial",
   "theorems": [
    "C46_position_race_refuted",
    "C46_position_kept_partial"
   ],
   "note": "C46_position_race_refuted: queue_end is copied outside the critical section and written back. C46_position_kept_partial: positions set while no addQueueEntry is in progress are kept."
  },
  {
   "property": "C47",
   "status": "proved",
   "theorems": [
    "C47_actual_speed"
   ],
   "note": "All histories. When the queue is empty count_up is not written (None)."
  },
  {
   "property": "C48",
   "status": "partial",
   "theorems": [
    "C48_start_not_empty_partial",
    "C48_ignored_start_refuted",
    "C48_late_start_refuted"
   ],
   "note": "C48_start_not_empty_partial: true for an uninterrupted addQueueEntry with commands not ignored. Refuted for ignored commands and for an interrupt between the critical section and the isRunning() test."
  },
  {
   "property": "C49",
   "status": "proved",
   "theorems": [
    "C49_disable_delay"
   ],
   "note": "For undisturbed passes; arbitrary changes of the other steppers between the passes; external enable pins must follow at once (responsive)."
  },
  {
   "property": "C50",
   "status": "partial",
   "theorems": [
    "C50_manual_partial",
    "C50_shared_refuted"
   ],
   "note": "Proved if the stepper shares no enable pin. False for shared pins: C50_shared_refuted (a manually enabled idle stepper agrees; all its pins are switched off, also those not shared)."
  },
  {
   "property": "C51",
   "status": "partial",
   "theorems": [
    "C51_moveTo_carried_out_partial",
    "C51_move_carried_out_partial",
    "C51_limit_lowered_refuted"
   ],
   "note": "Proved from standstill without jump start, with or without linear phase, for every speed limit not above the set period and 32767 ticks (true right after setSpeed, all architectures and numbers of steppers), delays accepted by the configuration functions, and outputs already on or the queue stopped and empty (record ready_to_move). Histories before and task lists after the call are arbitrary. Refuted if the limit is lowered after setSpeed by connecting another stepper on AVR: C51_limit_lowered_refuted, the move ends abruptly at full speed."
  },
  {
   "property": "C52",
   "status": "partial",
   "theorems": [
    "C52_moveTo_completes_partial"
   ],
   "note": "Same restrictions as C51, and distinct enable/direction pins. Passes count if the device is ready and the queue is empty when they start."
  },
  {
   "property": "C53",
   "status": "partial",
   "theorems": [
    "C53_queue_started_partial",
    "C53_queue_started_refuted"
   ],
   "note": "Proved if the device is ready during the passes. Refuted otherwise: C53_queue_started_refuted, a device not ready after the pauses of a long enable delay have been queued leaves the queue stopped for ever."
  },
  {
   "property": "C54",
   "status": "proved",
   "theorems": [
    "C54_refused_history",
    "C54_refused_unchanged"
   ],
   "note": "every history of calls and task rounds of the ramp generator"
  },
  {
   "property": "C55",
   "status": "partial",
   "theorems": [
    "C55_uninitialised_unused",
    "C55_steps_to_stop_refuted"
   ],
   "note": "every history, every content of the uninitialised memory, all return codes, commands and queries except stepsToStop() between the start of a ramp and its first command, which is refuted"
  },
  {
   "property": "C56",
   "status": "proved",
   "theorems": [
    "C56_enable_result",
    "C56_disable_result",
    "C56_enable_levels",
    "C56_disable_levels"
   ],
   "note": "all configurations and external functions; levels stated for pins of the controller"
  },
  {
   "property": "C57",
   "status": "proved",
   "theorems": [
    "C57_delay_to_disable"
   ],
   "note": "all delays, all architectures"
  },
  {
   "property": "C58",
   "status": "partial",
   "theorems": [
    "C58_single_step_partial",
    "C58_running_unchanged",
    "C58_after_force_stop_refuted",
    "C58_three_steppers_refuted"
   ],
   "note": "idle motor after every history with the device ready, delays within the queue, commands not ignored; running motor unchanged. Refuted after a forced stop: the step is dropped although OK is returned. Refuted on AVR with three steppers: the step (640 ticks) is below the speed limit (800 ticks) and refused, C58_three_steppers_refuted."
  },
  {
   "property": "C59",
   "status": "proved",
   "theorems": [
    "C59_force_stop",
    "C59_force_stop_call"
   ],
   "note": "every schedule of passes of the task, interrupts and ticks after the call; no call of the user in between and no call interrupted half way (h_pc = Free)"
  },
  {
   "property": "C60",
   "status": "partial",
   "theorems": [
    "C60_acceleration_sign_partial"
   ],
   "note": "every round which starts without a pending pause of the previous step, from a moving ramp; configured acceleration and speed in the ranges stated"
  },
  {
   "property": "C61",
   "status": "proved",
   "theorems": [
    "C61_enable_pins_distinct",
    "C61_enable_pin_set"
   ],
   "note": "all sequences of setEnablePin calls"
  },
  {
   "property": "C62",
   "status": "partial",
   "theorems": [
    "C62_move_refused",
    "C62_other_moves_refuted"
   ],
   "note": "move(): proved for every state; moveTo() and runBackward(): refuted, they return MOVE_OK and the ramp is silently stopped in the next pass"
  },
  {
   "property": "C63",
   "status": "partial",
   "theorems": [
    "C63_plans_ahead_partial"
   ],
   "note": "a pass without interrupts on a ready device with enable pins confirmed and internal direction pin"
  },
  {
   "property": "C64",
   "status": "proved",
   "theorems": [
    "C64_stop_with_new_acceleration"
   ],
   "note": "constant acceleration, acceleration different from the one before, at least one command since the start; within 1 percent and one step whenever the ideal length fits in 32 bit"
  },
  {
   "property": "C65",
   "status": "partial",
   "theorems": [
    "C65_accepted",
    "C65_moveTo_target",
    "C65_move_target",
    "C65_move_at_standstill_refuted"
   ],
   "note": "return code, unchanged motion and target proved for every state; refuted for move() at standstill after a raw command or single step: relative to the last target instead of the position"
  },
  {
   "property": "C66",
   "status": "partial",
   "theorems": [
    "C66_direction_partial",
    "C66_keep_speed_refuted",
    "C66_smallest_refuted"
   ],
   "note": "non-zero accelerations proved for every state; zero refuted: the motor keeps accelerating with 1 step/s^2; -2147483648 refuted: its negation is undefined"
  },
  {
   "property": "C67",
   "status": "partial",
   "theorems": [
    "C67_current_position_partial",
    "C67_position_after_partial",
    "C67_pending_moveTo_refuted"
   ],
   "note": "proved for every state without a moveTo which the background task has not yet taken over; refuted with such a pending moveTo: its target is not shifted, so the end position depends on when the task ran"
  },
  {
   "property": "C68",
   "status": "proved",
   "theorems": [
    "C68_limit",
    "C68_others"
   ],
   "note": "AVR with 1, 2, 3 connected steppers, after every successful connect in every history; the other architectures keep their fastest period. 2 steppers: 426 ticks = 37558 steps/s"
  },
  {
   "property": "C69",
   "status": "partial",
   "theorems": [
    "C69_us",
    "C69_mhz_partial",
    "C69_sam_refuted",
    "C69_start_refuted",
    "C69_slow_refuted"
   ],
   "note": "microseconds exact on all architectures; mHz at most 4 below the exact value, not on SAM (refuted: 32 bit overflow). Refuted: negative value for a move upwards before its first command; slow raw commands with pauses reported as standstill"
  },
  {
   "property": "C70",
   "status": "partial",
   "theorems": [
    "C70_sign_partial",
    "C70_idle",
    "C70_start_refuted",
    "C70_value_refuted"
   ],
   "note": "proved for each command of every ramp, except decelerations reported at the start (refuted for short moves with high acceleration) and the step which reaches a reduced speed from below; refuted as to the magnitude: a value not yet applied is reported"
  },
  {
   "property": "C71",
   "status": "partial",
   "theorems": [
    "C71_ends_at_target",
    "C71_no_detour_partial",
    "C71_start_step",
    "C71_period",
    "C71_direction_refuted",
    "C71_short_refuted",
    "C71_speed_refuted"
   ],
   "note": "the target is reached for every jump (queue accepts, speed not a multiple of 65536 ticks); no detour, speed limit and first period proved for a distance of at least the jump plus two steps in the direction of the last move; refuted otherwise: a move against the last direction first goes about j steps the wrong way, a shorter move overshoots; the first period is that of ramp step j+1"
  },
  {
   "property": "C72",
   "status": "partial",
   "theorems": [
    "C72_linear_phase",
    "C72_handover_partial",
    "C72_behind_phase_partial",
    "C72_handover_refuted",
    "C72_steps_linear_partial",
    "C72_steps_behind_partial",
    "C72_monotone_refuted"
   ],
   "note": "Period and ramp length within 1 percent (plus one tick / 1.5 steps) of the documented speeds. Linear phase: every s_h. Handover and behind: s_h >= 200; refuted for s_h = 2 (22 percent off). Ramp length: at least 1 percent away from the handover speed. Monotone periods refuted in the linear phase."
  },
  {
   "property": "C73",
   "status": "partial",
   "theorems": [
    "C73_pulses_partial",
    "C73_new_partial",
    "C73_slow",
    "C73_history_partial",
    "C73_stale_symbol_refuted",
    "C73_stale_end_refuted",
    "C73_short_refuted",
    "C73_underflow_refuted"
   ],
   "note": "Models both ESP-IDF 4 drivers. ESP32/S2 (PART_SIZE 31): right for all commands that meet the stated condition, which holds for every period from 146 to 65534 ticks (C73_slow). C3/S3 (PART_SIZE 23): pulses right, duration 4 ticks too short per incomplete part. Refuted: period 65535 with 15 (11) or more steps leaves the last symbol of a part unwritten (21 pulses instead of 20; end marker after 11 of 20 steps); 33 steps of 97 ticks underflow. History theorem: commands meeting the condition, no interrupted forceStop."
  },
  {
   "property": "C74",
   "status": "proved",
   "theorems": [
    "C74_direction",
    "C74_pause_before_turn"
   ],
   "note": "Both drivers. The handler is assumed to be done before the part that has just begun has been sent; forceStop is one action here (its interruption is treated in C75)."
  },
  {
   "property": "C75",
   "status": "partial",
   "theorems": [
    "C75_drained_partial",
    "C75_stopped_partial",
    "C75_last_pause_partial",
    "C75_last_pause_refuted",
    "C75_hang",
    "C75_ignored_refuted",
    "C75_late_start_refuted",
    "C75_stop_race_refuted",
    "C75_runaway_refuted"
   ],
   "note": "Drained and stopped: proved from every reachable state in which the transmitter is on, forceStop not interrupted. Refuted: the queue hangs (running, transmitter off, until reset, C75_hang) after addQueueEntry with start during ignore_commands, after a queue ran empty between commit and start of addQueueEntry, and after an end interrupt inside forceStop; a queue started inside forceStop repeats its steps for ever. The last pause: exact; below MIN_CMD_TICKS on C3/S3."
  },
  {
   "property": "C76",
   "status": "partial",
   "theorems": [
    "C76_between_partial",
    "C76_within",
    "C76_within_none",
    "C76_ends",
    "C76_call",
    "C76_pending_refuted"
   ],
   "note": "Inside a pass (after the command was calculated): unconditional. Between passes: if no request of the user is pending, as a pending request takes back the forced stop (refuted witness: moveTo, then forceStop before the next pass). The ramp ends in the first pass which finds room in the queue."
  },
  {
   "property": "C77",
   "status": "partial",
   "theorems": [
    "C77_hz",
    "C77_mhz_partial",
    "C77_us_partial",
    "C77_us_refuted",
    "C77_sam_refuted",
    "C77_unset",
    "C77_read_us",
    "C77_set_read_us"
   ],
   "note": "Hz proved for all architectures and limits; mHz for the 16 MHz timers; us exactly if the limit is a whole number of us. Refuted: with two AVR steppers (426 ticks) setSpeedInUs(getMaxSpeedInUs()) is refused; on SAM getMaxSpeedInMilliHz overflows. C77_unset: no division by zero when reading the speed back."
  },
  {
   "property": "C78",
   "status": "proved",
   "theorems": [
    "C78_defaults",
    "C78_direction_pin",
    "C78_direction_external",
    "C78_direction_event",
    "C78_direction_frame",
    "C78_planning_time",
    "C78_auto_enable"
   ],
   "note": "setDirectionPin as event of the queue histories (C20) for a stopped queue and an internal pin; setEnablePin is C61, the delays are C11, C12, C57."
  },
  {
   "property": "C79",
   "status": "partial",
   "theorems": [
    "C79_stopped",
    "C79_step_partial",
    "C79_pause",
    "C79_us",
    "C79_start_refuted"
   ],
   "note": "Proved for every command of the ramp unless the speed limit is above 65535 ticks and just being reached while decelerating (C35_exact_period_refuted). Refuted: 4294967295 between moveTo() and the next pass, while the motor stands."
  },
  {
   "property": "C80",
   "status": "partial",
   "theorems": [
    "C80_stream_partial",
    "C80_pause_refuted",
    "C80_more_refuted",
    "C80_late_refuted"
   ],
   "note": "Restrictions of C80_stream_partial: interrupts served before the end of the cycle, no forceStop (C83), and steps behind a pause as many as in the last command with steps (1 at the start). Without the last: C80_pause_refuted (1 step, pause, 3 steps gives 2 pulses), C80_more_refuted. Late interrupt: C80_late_refuted. Depends on the reading of the comments that the limit is taken over when the counter becomes zero."
  },
  {
   "property": "C81",
   "status": "partial",
   "theorems": [
    "C81_dead",
    "C81_window_partial",
    "C81_one_to_go_refuted",
    "C81_after_pause_refuted"
   ],
   "note": "C81_dead: in histories without forceStop the correction never has any effect in an interrupt. C81_window_partial: it would be right for at least 2 steps to go behind steps; refuted for one step to go and behind a pause."
  },
  {
   "property": "C82",
   "status": "partial",
   "theorems": [
    "C82_position_partial",
    "C82_single_reading_refuted",
    "C82_after_stop_refuted"
   ],
   "note": "Same restrictions as C80. A single reading is wrong (C82_single_reading_refuted); after forceStop the leftover counter falsifies the position (C82_after_stop_refuted). Integer positions; the 16 bit arithmetic is C17/C18."
  },
  {
   "property": "C83",
   "status": "partial",
   "theorems": [
    "C83_end_partial",
    "C83_stop",
    "C83_stop_rest",
    "C83_after_stop_partial"
   ],
   "note": "C83_stop and C83_stop_rest hold for every state; end and restart with the restrictions of C80 (for the commands after the stop only: whatever happened before)."
  },
  {
   "property": "C84",
   "status": "partial",
   "theorems": [
    "C84_levels_partial",
    "C84_start_partial",
    "C84_task",
    "C84_force_stop_refuted",
    "C84_stale_flag_refuted",
    "C84_refused_refuted",
    "C84_ignored_refuted",
    "C84_first_command_refuted",
    "C84_rmt_refuted"
   ],
   "note": "Proved from a state in which the pin agrees with queue_end.dir (setDirectionPin with dirHighCountsUp = true), if turning commands are not dropped at commit, forceStopAndNewPosition does not come while a turn is queued and the external function reports the level asked for or leaves the pin. Each condition is needed: refuted for forceStopAndNewPosition with a queued turn, stale flags, refused or ignored turns, dirHighCountsUp = false (first command), and the RMT drivers (pin switched before the steps have been sent)."
  },
  {
   "property": "C85",
   "status": "partial",
   "theorems": [
    "C85_turns",
    "C85_two_pauses_partial",
    "C85_enable_delay_refuted"
   ],
   "note": "C85_turns for all histories. The two pauses if no enable delay is due; refuted with an enable delay (no pause behind the turn)."
  },
  {
   "property": "C86",
   "status": "partial",
   "theorems": [
    "C86_pulses_partial",
    "C86_turn_on_pause_refuted",
    "C86_turn_after_pause_refuted",
    "C86_race_refuted",
    "C86_late_refuted"
   ],
   "note": "Proved without forced stop, if the interrupt of the port is served within its period and turns of a running queue go from steps to steps (not dropped into a queue that has just run out). Each condition is needed: refuted for a turn on a pause (the delay after a direction change), a turn behind a pause, a turn while the queue runs out, and a late interrupt."
  },
  {
   "property": "C87",
   "status": "partial",
   "theorems": [
    "C87_exact_partial",
    "C87_short_steps_refuted",
    "C87_first_pause_refuted",
    "C87_restart_refuted",
    "C87_late_refuted",
    "C87_connect_refuted"
   ],
   "note": "Proved for interrupts within L <= 2000 ticks (95 us), queues started with steps and steps before a pause of at least 2142+L ticks; at most 1000000 commands (micros() wraps). Refuted for short steps before a pause and a pause at the start (pause doubled), a restart in the last period and a late interrupt (pause left out), and another stepper connected during a pause (pause without end)."
  },
  {
   "property": "C88",
   "status": "partial",
   "theorems": [
    "C88_stopped",
    "C88_after_stop_partial",
    "C88_runaway_refuted"
   ],
   "note": "C88_stopped for every state. Later commands exact if the stop does not come in a pause or with an edge waiting; refuted otherwise: after a forced stop in a pause, pulses without end (C88_runaway_refuted)."
  },
  {
   "property": "C89",
   "status": "partial",
   "theorems": [
    "C89_position_partial",
    "C89_end_partial"
   ],
   "note": "Position with the restrictions of C86, end with those of C87 (see the refutations there). Integer positions; the 16 bit arithmetic is C17/C18."
  },
  {
   "property": "C90",
   "status": "partial",
   "theorems": [
    "C90_channels",
    "C90_accepted",
    "C90_documented_partial",
    "C90_pin74_refuted"
   ],
   "note": "Channels and acceptance for all sequences of calls. The documented pin 74 is refused (73 in the code); the documented groups hold for the other pins. Numbers of PWM channels are those of the code; the data sheet is not modelled."
  },
  {
   "property": "C91",
   "status": "partial",
   "theorems": [
    "C91_moveTo_on_the_pin_partial",
    "C91_move_on_the_pin_partial",
    "C91_refill_in_last_period_refuted"
   ],
   "note": "Proved for steppers as in C51 (record ready_to_move), direction pin not behind an external function, and runs in which no command arrives in the last period of a running queue, no start happens with an empty queue and no start lies in the past (vq_ok). C91_refill_in_last_period_refuted: with a task pass in the last period two pulses of a move are 10 ticks apart (C22, end to end)."
  },
  {
   "property": "C92",
   "status": "partial",
   "theorems": [
    "C92_angle",
    "C92_int16",
    "C92_exact",
    "C92_clear",
    "C92_unattached",
    "C92_refused",
    "C92_position",
    "C92_asymmetric_refuted",
    "C92_late_direction_refuted",
    "C92_shared_unit_refuted",
    "C92_free_units",
    "C92_s3_refuted",
    "C92_idf5_angle",
    "C92_idf5_failure",
    "C92_idf5_zero_refuted",
    "C92_idf5_lost_refuted",
    "C92_idf5_units_refuted"
   ],
   "note": "Angle, int16 and exact reading proved for ESP-IDF 4, angle for ESP-IDF 5, agreement with the pulses of the MCPWM driver, free units on the ESP32. Refuted: units 6 and 7 on the S3, limits 0 and 0 and repeated attachment with ESP-IDF 5, asymmetric limits, direction pin set after attaching."
  },
  {
   "property": "C93",
   "status": "proved",
   "theorems": [
    "C93_setup",
    "C93_distinct"
   ],
   "note": "All layouts and all histories of connections; the return codes of the ESP-IDF calls are taken as good."
  },
  {
   "property": "C94",
   "status": "partial",
   "theorems": [
    "C94_detach_partial",
    "C94_starts_partial",
    "C94_moved_refuted",
    "C94_channels_refuted"
   ],
   "note": "Histories with a forced stop or no move before each detach (ESP-IDF 5). Refuted: after a move that came to its end the pin stays attached, and attaching again loses a channel."
  },
  {
   "property": "C95",
   "status": "partial",
   "theorems": [
    "C95_time",
    "C95_task_rate_refuted",
    "C95_tick_refuted",
    "C95_rate"
   ],
   "note": "Task rate 4 ms and tick of 1, 2 or 4 ms: off between ms-8 and ms. Refuted for other task rates and for a tick of 10 ms, because setDelayToDisable() uses a constant."
  },
  {
   "property": "C96",
   "status": "partial",
   "theorems": [
    "C96_moveTo_one_run_partial",
    "C96_move_one_run_partial"
   ],
   "note": "Discharges the condition vq_ok of C91 for tasks that keep a deadline. Proved for steppers as in C51 (record ready_to_move), direction pin not behind an external function, outputs enabled without waiting, direction and enable delays zero or at least mm ticks, where mm is at most the period of the speed limit and 32767; the loop bound of a pass (fuel) covers the planning time. With mm = 640 (any speed) the deadline is 9600 ticks; the task period of 65536 ticks is covered for periods from 4370 ticks on. Timer interrupts without latency (a compare event is served at its time)."
  },
  {
   "property": "C97",
   "status": "partial",
   "theorems": [
    "C97_moveTo_commands_partial",
    "C97_move_commands_partial",
    "C97_two_schedules_partial",
    "C97_enable_delay_refuted"
   ],
   "note": "Proved for steppers as in C51 (record ready_to_move) whose outputs are enabled already or need no delay (fed), direction pin not behind an external function. With an enable delay which begins with the move the list depends on the schedule: C97_enable_delay_refuted (device not ready for a moment, the pause is queued twice)."
  },
  {
   "property": "C98",
   "status": "partial",
   "theorems": [
    "C98_moveTo_exact_pulses_partial",
    "C98_move_exact_pulses_partial"
   ],
   "note": "Under the conditions of C96 and C97: deadline of the task min(planning time - 65535, 15*mm) ticks, no enable delay at the begin of the move, no external direction pin, timer interrupts without latency."
  },
  {
   "property": "C99",
   "status": "partial",
   "theorems": [
    "C99_moveTo_pace_partial",
    "C99_move_pace_partial"
   ],
   "note": "Proved for steppers as in C51 (record ready_to_move): constant acceleration with a minimum command time of 640 ticks (AVR), or a speed limit of at most half the highest speed of the device. Open: linear acceleration (setLinearAcceleration) above half the highest speed; the other devices above half their highest speed; calls during a move."
  },
  {
   "property": "C100",
   "status": "partial",
   "theorems": [
    "C100_moveTo_six_ms_partial",
    "C100_move_six_ms_partial"
   ],
   "note": "Under the conditions of C98 (no enable delay at the begin of the move, no external direction pin, delays zero or at least mm ticks, timer interrupts without latency, fuel covers the planning time), with C99 instead of 15*mm: constant acceleration, or at most 12500 steps per second. Open: linear acceleration above."
  },
  {
   "property": "C101",
   "status": "partial",
   "theorems": [
    "C101_moveTo_on_the_line_partial",
    "C101_move_on_the_line_partial",
    "C101_moveTo_ends_partial",
    "C101_move_ends_partial",
    "C101_direction_pin"
   ],
   "note": "Proved for steppers as in C51 (record ready_to_move: periods of at least 200 us) and a direction pin of the microcontroller; the end of the move for passes that find the queue sent (round_ok). The duration of the pauses in between is not that of the commands (C44_direction_pause_refuted)."
  },
  {
   "property": "C102",
   "status": "partial",
   "theorems": [
    "C102_moveTo_on_the_line_partial",
    "C102_move_on_the_line_partial",
    "C102_moveTo_ends_partial",
    "C102_move_ends_partial"
   ],
   "note": "Proved for steppers as in C51 (record ready_to_move: periods of at least 200 us), a direction pin of the microcontroller, and moves without a command of 65535 ticks with many steps (stale symbol, C73_stale_symbol_refuted); the end of the move for passes that find the queue sent (round_ok4). A queue started too late stays running with the hardware off (C75); then the move does not end."
  },
  {
   "property": "C103",
   "status": "partial",
   "theorems": [
    "C103_moveTo_pulses_partial",
    "C103_move_pulses_partial",
    "C103_reversal_refuted"
   ],
   "note": "Refuted by a move back: with a direction delay, the first command behind the pause is carried out with the number of steps of the command before it (moveTo(-20), moveTo(0) ends at 1, the reported position is 0; C103_reversal_refuted). Proved for a move behind commands that fit (fits_in: even_so_far, and the last command had one step or no pause for the direction is needed; even_so_far holds again behind the move), a maximum speed of at most 2500 steps/s (6400 ticks), steppers as in C97, a direction pin of the microcontroller and no enable delay. That the driver has taken the list of C97 is a hypothesis: the calls of the driver are not composed with the front end as in C101."
  },
  {
   "property": "C104",
   "status": "partial",
   "theorems": [
    "C104_moveTo_pulses_partial",
    "C104_move_pulses_partial",
    "C104_reversal_refuted"
   ],
   "note": "Refuted by a move back while the queue still runs: with a direction delay the turn comes with a pause, and the direction pin is not switched (moveTo(20), moveTo(0) ends at 40, the reported position is 0; C104_reversal_refuted). Proved for a move given to an empty and stopped queue, or behind commands in the same direction (lined_up), or with a turn from steps to steps while the queue has not run out (can_turn; moves back without a direction delay), with port interrupts in time and no forced stop, for steppers as in C97. That the driver has taken the list of C97 is a hypothesis: the calls of the driver are not composed with the front end as in C101. Periods and end (due_exactly) need handlers within 2000 ticks and a queue started with steps; a queue started with the pause of the direction pauses longer (C87_first_pause_refuted)."
  },
  {
   "property": "C105",
   "status": "partial",
   "theorems": [
    "C105_keeps_running_partial",
    "C105_backward_refuted",
    "C105_pending_refuted"
   ],
   "note": "Refuted twice: during a move downwards the motor turns round and runs upwards, because move and moveTo store the direction upwards (C105_backward_refuted); before the task has taken up a call, keepRunning is overwritten by it (C105_pending_refuted). Proved for every state with no call waiting and the stored direction equal to that of the motor: every later command has this direction, and without refused commands the ramp never ends."
  }
 ]
}
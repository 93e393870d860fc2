# FastAccelStepper: formal model and proofs (Rocq / Coq 8.16.1)

Plan, record of what is modelled, what is proved, what is refuted and what is trusted.
The properties are in `properties.jsonl`, the theorems per property in `MANIFEST.json`, the
mutation log in `seeded/LOG.jsonl`.

## 1. Modelling conventions

* Model = total, computable Gallina functions over `Z`. Every C integer type is
  a `Z` plus an explicit wrap function (`u8 u16 u32 i8 i16 i32` in `Base.v`)
  applied wherever the C code stores into that type. Array accesses are
  function accesses with the index arithmetic of the C code.
* Architectures differ in constants (`QUEUE_LEN`, `TICKS_PER_S`, `MIN_CMD_TICKS`, ...).
  They are a record `arch`, with the instances taken from `src/fas_arch/*.h`
  (`arch_pc`, `arch_avr`, `arch_esp32`, `arch_sam`). Theorems range over all instances
  unless they say so.
* Undefined behaviour of C++ (division by zero, signed overflow, reading
  indeterminate values) is an explicit outcome (`None`, or an explicit "garbage"
  argument), or the precondition is part of the statement, or it is listed in section 7.
* Concurrency: the interrupt routine and the background task are actions that can be
  interleaved arbitrarily with the API calls. Where the code is not protected by a critical
  section the call is split into pieces (`addQueueEntry`: check/prepare, commit, start) and
  interleavings at that granularity are quantified over. Event lists are histories; events
  that are not enabled do nothing, so every list is a history.
* Hardware (timer compare, output pins, RMT transmitter, pulse counter) is modelled as a
  small transition system; this is part of the trusted base.
* Property theorems are in `P_*.v` only, each proved by `exact lemma` (or a computed witness
  for `_refuted`), with an `Example` that meets the hypotheses and `Print Assumptions`.

## 2. Files

| files | contents | source |
| --- | --- | --- |
| `Base` | machine integers, sweeps, architectures | `src/fas_arch/*.h` |
| `Pmf`, `PmfSweep`, `PmfFacts`, `PmfReal` | 16 bit logarithmic format, complete sweeps, accuracy over the reals | `PoorManFloat.{h,cpp}` |
| `RampCalc`, `RampCalcFacts` | ramp formulas and configuration | `RampCalculator.{h,cpp}` |
| `P_Pmf` | C01-C07 | |
| `RampGen` | ramp generator: parameters, state, one command | `RampGenerator.{h,cpp}`, `RampConstAcceleration.{h,cpp}` |
| `RampStep`, `RampRun`, `RampMove`, `RampSafe`, `RampAcc`, `RampUser`, `RampStop`, `RampKeep`, `RampMisc`, `RampProp` | lemmas about one command, runs, moves, speed limits, acceptance, user calls, stopping, continuous running | |
| `P_Ramp` | C31-C40 | |
| `Queue`, `QueueFacts`, `QueuePos`, `QueueHist`, `QueueProp` | ring buffer, position reconstruction, histories with interrupts | `StepperISR.{h,cpp}` |
| `P_Queue` | C13-C20, C46, C47 | |
| `AvrIsr`, `P_Avr` | timer interrupt; C21-C23, C48 | `StepperISR_avr.cpp` |
| `Stepper`, `StepperSet`, `P_Set` | front end; configuration functions; C08-C12 | `FastAccelStepper.{h,cpp}` |
| `StepperHist`, `FrontHist`, `FrontProp`, `P_Front` | `addQueueEntry` of the stepper, enable/direction delays, over histories; C15, C24-C27 | `FastAccelStepper.cpp` |
| `RampPlan`, `RampDense`, `FrontFill`, `FrontTask`, `FrontStart`, `FrontMove`, `P_End` | `fill_queue` composed with ramp generator, queue, interrupts and refusals; complete moves; C51-C53 | `FastAccelStepper.cpp` |
| `UserHist`, `UserRamp`, `UserFront`, `UserPlan`, `UserShift`, `P_User` | histories of user calls, uninitialised memory, single calls, planning ahead, shift of the origin; C54-C67, C38 | `RampGenerator.{h,cpp}`, `FastAccelStepper.cpp` |
| `RampJump`, `P_Jump` | moves with a jump start; C71 | `RampGenerator.cpp`, `RampConstAcceleration.cpp` |
| `RampLinear`, `P_Linear` | ramp formulas with a linear acceleration phase; C72 | `RampCalculator.{h,cpp}` |
| `RampReport`, `Report`, `P_Report` | reported current speed and acceleration; C69, C70 | `FastAccelStepper.cpp`, `RampGenerator.{h,cpp}` |
| `MoveTimed`, `MoveTimedFacts`, `MoveTimedProp`, `P_Timed` | `moveTimed`; C28-C30 | `FastAccelStepper.cpp` |
| `Engine`, `EngineFacts`, `EngineAuto`, `EngineShare`, `P_Engine` | connect, background task, shared pins; C41-C43, C49, C50, C68 | `FastAccelStepper.cpp` (engine part) |
| `Rmt`, `RmtFacts`, `RmtHist`, `RmtCount`, `P_Rmt` | RMT encoder; C44, C45 | `StepperISR_idf5_esp32_rmt.cpp` |
| `RmtV4`, `RmtV4Facts`, `RmtV4Hist`, `RmtV4Count`, `P_RmtV4` | ESP-IDF 4 RMT drivers; C73-C75 | `StepperISR_idf4_esp32_rmt.cpp`, `..._esp32c3_rmt.cpp`, `..._esp32s3_rmt.cpp` |
| `UserStop`, `P_Stop` | `forceStop()` between and inside the passes of the task; C76 | `FastAccelStepper.cpp:665-673` |
| `StepperConf`, `RampPeriod`, `P_Conf` | speed limits, configuration calls, period of the ramp; C77-C79 | `FastAccelStepper.cpp:499-592, 747-758, 796-849` |
| `Mcpwm`, `McpwmFacts`, `McpwmProp`, `P_Mcpwm` | ESP32 MCPWM/PCNT driver; C80-C83 | `StepperISR_idf4_esp32_mcpwm_pcnt.cpp` |
| `ExtDir`, `ExtFront`, `P_Ext` | direction pin behind an external function; C84, C85 | `StepperISR.{h,cpp}`, `FastAccelStepper.cpp:294-353` |
| `AccessSim`, `AvrStack`, `P_AvrStack` | front end and queue on the AVR timer: a move up to the step pin; C91 | `FastAccelStepper.cpp`, `StepperISR.cpp`, `StepperISR_avr.cpp` |
| `StackSim`, `RmtStack`, `RmtEnd`, `P_RmtStack` | front end and queue on the RMT driver of ESP-IDF 5: a move up to the symbols of the transmitter; C101 | `FastAccelStepper.cpp`, `StepperISR.cpp`, `StepperISR_idf5_esp32_rmt.cpp` |
| `RmtV4Stack`, `RmtV4End`, `P_RmtV4Stack` | front end and queue on the RMT driver of ESP-IDF 4: a move up to the parts of the symbol memory; C102 | `FastAccelStepper.cpp`, `StepperISR.cpp`, `StepperISR_idf4_esp32*_rmt.cpp` |
| `RampOne`, `McpwmMove`, `P_McpwmMove` | a move on the MCPWM/PCNT driver, pauses of the ramp between single steps; C103 | `RampConstAcceleration.cpp`, `FastAccelStepper.cpp`, `StepperISR_idf4_esp32_mcpwm_pcnt.cpp` |
| `RampDir`, `DueMove`, `P_DueMove` | a move on the SAM driver, direction of the pauses of a move; C104 | `RampConstAcceleration.cpp`, `FastAccelStepper.cpp`, `StepperISR_due.cpp` |
| `KeepRun`, `P_KeepRun` | keepRunning(); C105 | `FastAccelStepper.cpp`, `RampCalculator.h`, `RampConstAcceleration.cpp`, `RampGenerator.cpp` |
| `FrontPause`, `P_Pause` | the exact list of commands of a move for any schedule; C97 | `FastAccelStepper.cpp` |
| `AvrTime`, `P_AvrTime` | the same with a clock: a punctual task and the timer; C96, C98 | `FastAccelStepper.cpp`, `StepperISR.cpp`, `StepperISR_avr.cpp` |
| `RampWindow`, `AvrPace`, `P_AvrPace` | the duration of consecutive commands, a deadline for every speed; C99, C100 | `RampConstAcceleration.cpp`, `FastAccelStepper.cpp` |
| `Pcnt`, `Esp32Setup`, `Esp32Task`, `P_Esp32` | ESP32: free pulse counter, set-up, detached pins, time of the disable; C92-C95 | `FastAccelStepper_idf{4,5}_esp32_pcnt.cpp`, `StepperISR_esp32.cpp`, `StepperISR_idf4_esp32_mcpwm_pcnt.cpp`, `StepperISR_idf5_esp32_rmt.cpp` |
| `Due`, `DueFacts`, `DueExact`, `DueProp`, `DuePins`, `P_Due` | SAM (Arduino Due) driver; C86-C90 | `StepperISR_due.cpp` |

## 3. Plan per property and method used

* C01, C03, C04 - the 8/16 bit domains are swept completely by `vm_compute`
  (bound stated: 2^8 / 2^16 values) and lifted with `sweep_spec`; the 32 bit
  function is shown to factor through the 16 bit one (shift by the leading zeros),
  which lifts the result to all of 2^32.
* C02, C03, C06, C07 - accuracy against real numbers: breakpoints of the table are
  checked with integer interval arithmetic for 2^(k/512); lifted to `R` (`Rpower`).
* C05 - bounds by `lia` from the range lemma of the conversions.
* C08..C12 - arithmetic for all arguments; 32 bit wrap-arounds give the `_refuted` witnesses.
* C13..C16, C19, C20, C46, C47 - invariant of the ring buffer over every history; refinement
  to the list of pending entries; 8 bit indices with `QUEUE_LEN` dividing 256.
* C17, C18 - |planned - current| <= (QUEUE_LEN-1)*255 < 2^14 lets the 16 bit value be lifted.
* C21..C23, C48 - AVR interrupt and timer as a transition system; refinement of the pulse
  train to the list of commands.
* C24..C27 - stepper front end composed with the queue histories; induction over the delay loop.
* C28..C30 - `moveTimed` loops by induction, over every history.
* C31..C37, C40 - ramp generator; measure (leg distance, phase, remaining
  steps) for termination; invariants for the speed limit.
* C38, C39 - pending-parameter semantics; schedule = when the background task runs.
* C41..C43, C49, C50, C68 - engine level, lists of steppers, induction over passes and histories.
* C51..C53 - the run of the ramp generator is a fixed plan (`RampPlan`: refused commands are
  generated again unchanged); invariant relating the rest of the plan, queue and planned position
  over every list of tasks (pass of the background task with arbitrary refusals and interrupts,
  interrupts, auto disable ticks); each pass over an empty queue takes at least one command.
* C54, C55 - histories of calls of the ramp generator: invariant, and simulation between two
  generators which differ in uninitialised memory.
* C56..C66 - single calls in every state; C59 as invariant over every later schedule; C63 follows
  the loop of `fill_queue`.
* C67 - simulation between two runs of the ramp generator which differ by a shift of the position.
* C69, C70 - the getters against the list of pending commands (C47) and the change of the period
  made by one command of the ramp.
* C44, C45 - RMT encoder: case analysis on the steps, symbolic in the period; invariant over
  histories of encoder calls.
* C73..C75 - ESP-IDF 4 drivers: symbol memory of two parts and the transmitter (off, first part,
  second part, looping) as a transition system; as C44, C45 plus a weight that falls with every part.
* C76 - invariant of the passes behind the call (no calculated command is accepted until the ramp has
  ended); `fill_queue_f` is the pass with calls at chosen iterations.
* C77..C79 - arithmetic of the conversions; C79 by case analysis of one command of the ramp.
* C80..C83 - timer, generator and pulse counter as a transition system; invariant (command in work, cycles to
  go, limit register) over histories, relative to the last forced stop; C81 by case analysis of the 11 points where
  a pulse may come in.
* C84 - invariant: the level of the pin, passed through the flagged entries of the queue (and the prepared one),
  is the level of every entry and ends in `queue_end.dir`; no flag outside of the queue. C85 - the accepted
  commands over histories, as C26.
* C86..C89 - PWM channel, port interrupt and PWM interrupt as a transition system; invariant (pulses made, pulses left
  in the queue, chain of directions), for C87 with the time since the interrupt has been enabled. Runs without end in
  the refutations by induction. C90 - invariant over sequences of connections; the documented groups by enumeration.
* C91 - simulation: each step of the front end on the AVR driver (addQueueEntry split by interrupts) is a step of the
  queue histories of C51; the pulses so far and the commands of each session of the timer are carried along.
* C96 - C91 with a clock: up to a time the queue is not empty (invariant); a pass ends with the planning time filled, the
  queue full or the ramp done, which moves this time behind the deadline of the next pass. No compare event, call or start
  of such a schedule meets the last period.
* C101 - as C91 on the RMT driver: each call of the encoder is simulated by events of the queue history (the queues agree
  but for the toggle flags of the entries); invariants over the calls: edges sent plus steps pending are the steps
  accepted, parts sent followed by the parts pending are the parts of the accepted commands, the calls with edges want
  the direction of the move. A transmission that ends with an empty queue between the write index and the start test
  of addQueueEntry is moved behind the test (the start of an empty queue does nothing). With C51 and C97 for the accepted commands, C44 for the symbols.
  A run of the driver with undefined behaviour would be one of the queue history, which has none (`tasks_none`).
  The end: each call of the encoder with room for a part lowers a measure (steps and entries pending, a pause before a
  turn, the final pause), so 16386 calls send any queue; a pass over the empty, stopped queue is a served pass of C51.
* C102 - as C101 on the driver of ESP-IDF 4 (both variants): filling one part is simulated by events of the queue history; a
  start is the start of the history with the events of two parts behind it. A start that finds the queue empty leaves it
  running with the hardware off (C75); in the history its end has then not been noticed. Edges by the invariants of C73/C74.
  The end as in C101, with the transmission of C75: a queue started at the end of a pass has the hardware on.
* C103 - the driver is right for lists of commands where a pause stands between commands with the same number of steps
  (C80). In a move from standstill a pause of the ramp has a single step on both sides (invariant over the ramp commands), so with the
  list of C97 only the pause before the first step depends on what came before. The condition on the commands before holds
  again behind the move (`even_so_far`), so moves without a direction delay, or in one direction, may be chained.
* C104 - the driver is right when it turns from steps to steps only (C86). In a move from standstill all commands, also the pauses of
  the ramp and the one for the direction, have the direction of the move (invariant over the ramp commands), so with the list of C97 only
  the first command can be a turn, and it is none if the queue is empty and stopped or its last command has the same direction.
  Without a direction delay it may be a turn from steps to steps (C104_turn_example).
  The steps of the move are slow enough for the pauses behind them (C87), because the shortest command has 4200 ticks.
* C105 - invariant over the calls of getNextCommand: flags and direction stay, the remaining distance is never 0.
* C97 - induction over the calls of addQueueEntry: accepted commands followed by the commands still to come (with the
  pauses for the direction at the end of the queue) are the same list before and after each call, whether it is refused
  before, between or behind the pauses. C98 - C96 with C97: the commands of the one run are a known list; at a time behind
  its end no compare event is open, so the timer is off, and a task in time has no more commands.
* C99 - potential method: with the period `p` of the ramp (at most 16000 counted) a slack of
  sum 1024000/i for i = 641..p pays for the commands shorter than 16000 ticks; each command costs the slack it makes
  the ramp faster. Only the pieces of a long pause refill it, once, and they are long themselves. C100 - the fourteen
  commands of a full queue between the running and the last one contain thirteen commands in a row of the ramp, for
  there is at most one direction pause; then as C98.
* C92 - induction over the edges: the counter is congruent to the steps; other steppers do not touch the unit. C93 - the
  order in which queues are given away by induction over the connections, then the set-up in this order by enumeration
  of the layouts. C94 - invariant over histories. C95 - C49 and C57 with the times of the passes.
* C71 - the first command computed in closed form, the rest of the run by the invariant of C32;
  counterexamples by computation.
* C72 - as C06, C07, with `Rpower` for the roots; the errors of the logarithms are added up.

## 4. Trusted base

* Coq's kernel (including `vm_compute`; `coqchk` re-checks every module).
* The hand translation of C++ into Gallina (file and lines cited at every definition, with the
  simplifications), and the hardware models: AVR timer in absolute time without interrupt
  latency; RMT transmitter (low half word first, bit 15 level, duration 0 = end; one half of the
  memory refilled while the other is sent; ESP-IDF 4: threshold interrupt when the first part has
  been sent, end (or threshold) interrupt after the second, continuous mode loops); ESP32 MCPWM timer (two events per cycle) and pulse counter with a latched limit; SAM PWM channel
  (new period register used from the next period on, a disabled channel finishes its period, status bit cleared when read); pins as a
  function from pin numbers to levels.
* Axioms: `Print Assumptions` lists, for the theorems
  C02_from_u32_accurate, C02_byte_accurate, C03_to_u32_accurate, C06_period_accurate, C07_steps_accurate,
  C31_moveTo_ends_at_target, C31_move_ends_at_target, C31_moveTo_ends_strict_partial,
  C31_move_ends_strict_partial, C32_moveTo_monotone_partial, C32_move_monotone_partial,
  C33_speed_limit_partial, C34_decelerates_completely, C36_accepted_partial, C37_stop,
  C37_stop_strict, C40_keeps_running, C51_moveTo_carried_out_partial,
  C51_move_carried_out_partial, C52_moveTo_completes_partial, C53_queue_started_partial,
  C64_stop_with_new_acceleration, C71_ends_at_target, C71_no_detour_partial, C71_period,
  C71_speed_refuted, C72_linear_phase, C72_handover_partial, C72_behind_phase_partial,
  C72_handover_refuted, C72_steps_linear_partial, C72_steps_behind_partial,
  C91_moveTo_on_the_pin_partial, C91_move_on_the_pin_partial,
  C96_moveTo_one_run_partial, C96_move_one_run_partial, C97_moveTo_commands_partial,
  C97_move_commands_partial, C97_two_schedules_partial, C98_moveTo_exact_pulses_partial,
  C98_move_exact_pulses_partial, C99_moveTo_pace_partial, C99_move_pace_partial,
  C100_moveTo_six_ms_partial, C100_move_six_ms_partial, C101_moveTo_on_the_line_partial,
  C101_move_on_the_line_partial, C101_moveTo_ends_partial, C101_move_ends_partial, C102_moveTo_on_the_line_partial,
  C102_move_on_the_line_partial, C102_moveTo_ends_partial, C102_move_ends_partial,
  C103_moveTo_pulses_partial, C103_move_pulses_partial,
  C104_moveTo_pulses_partial, C104_move_pulses_partial
  (they use real numbers, the ramp theorems through the accuracy of the ramp formulas), exactly
  `ClassicalDedekindReals.sig_not_dec`, `ClassicalDedekindReals.sig_forall_dec`,
  `FunctionalExtensionality.functional_extensionality_dep` and `Classical_Prop.classic`, all from
  the standard library. All other property theorems are closed under the global context.

## 5. Simplifications worth knowing

* One producer per queue (the code takes no lock between application and background task; C46
  and C38/C39 treat the interleavings that matter).
* `moveTimed` reads the fill level of the queue once per iteration; interrupts occur between its
  calls of `addQueueEntry` and inside them.
* Engine histories: each stepper has its own copy of the pin levels, synchronised after each
  event for the pins it drives.
* Ramp theorems (C31-C37, C51-C53): any linear acceleration phase below 2^32-2 steps, no jump start
  (C71), unless the note says otherwise.
* ESP-IDF 4 RMT drivers: the interrupt handler is done before the part that has just begun has been
  sent. What a part looks like on the wire is logged when the transmitter begins with it: a
  forceStop that overwrites it later is not visible in the log.
* MCPWM/PCNT: the limit of the pulse counter is latched when the counter becomes zero, as the comments
  say ("is updated only on zero"). Were it taken over at any time the counter is zero, two commands in a row
  with different steps would already fail, as the next limit is written when the counter is still zero.
* C101: as C91, with calls of the encoder and of `queue_done` instead of timer interrupts. The driver begins with the queue and the pins of the state before the call.
* C102: as C101, with the ends of the parts as interrupts; an interrupt is done before the next part has been sent (as in C74). What earlier transmissions have left in the memory and in the flags is arbitrary.
* C91: the interrupts inside `addQueueEntry` come before it, between the tests and the write index, and between the
  write index and the start; the time of the start is a parameter. C96: these moments have times, in any order-preserving
  placement; compare events are served at their time, before a call at the same time.
* ESP32 pulse counter: reset to zero when a limit is reached, as the header file says; limits 0 and 0 mean none
  (ESP-IDF 4), and `pcnt_new_unit` refuses limits unless low < 0 < high (ESP-IDF 5, `pulse_cnt.c`). Glitch filter left out.
* ESP32 set-up: return codes of ESP-IDF calls are good, except for the pulse counter of ESP-IDF 5 and lack of RMT channels.
  C95: the task wakes up at the tick after its delay; its own run time is left out.
* External pins are a callback returning the level it reports; "responsive" means it follows at
  once.
* External direction pin (C84): the interrupt may finish an entry at any time, running or not (more histories
  than the code has). A step counts when the interrupt is through with it; for RMT see the finding.
* SAM: time in ticks of the PWM channel; handlers run at one instant; whenever the PWM unit takes over the step pin its
  output is low (the code waits 10 us for this), so the enable bit of the port interrupt does not matter.

## 6. Not modelled

Values of the registers written by the initialisation of MCPWM, PCNT, RMT and SAM PWM (their ownership is: C93),
RTOS task creation, Arduino pin functions (abstract pin state),
compile-time probes and test hooks.

## 7. Findings

Each is a theorem `..._refuted` with a computed witness. "Accepted" means the call returned OK.

Configuration
* C05: the square of a period above 4292870144 overflows int16 in the logarithmic format
  (harmless: the wrapped result is still the right one).
* C08: `setSpeedInUs(268435455)`, the longest representable period, is refused (off by one).
* C09: `setSpeedInMilliHz` on SAM: `250*TICKS_PER_S` overflows 32 bits, 1000000 mHz stores 3820
  ticks instead of 21000. With a speed limit of 8 ticks 1.4e9 mHz gives 8 instead of 11 ticks.
* C77: `getMaxSpeedInUs` rounds the period down: with two AVR steppers (426 ticks) it reports 26 us,
  which `setSpeedInUs` refuses. SAM: `getMaxSpeedInMilliHz` overflows (420 ticks: 9095548 instead of 50000000).
* C79: `getPeriodInTicksAfterCommandsCompleted` is 4294967295 (not 0) from `moveTo` to the next pass of the task.
* C10: `getSpeedInMilliHz`: 1.4e9 ticks reported as 8 instead of 11 mHz; SAM 21000 ticks reported
  as 181911 mHz; `getMaxSpeedInMilliHz` truncates instead of rounding.
* C12: `setDelayToEnable(268435496)` is accepted and stores 40 us.

Queue
* C13: after `forceStop` `addQueueEntry` returns OK and drops the command (`ignore_commands`).
* C14: RMT driver becoming unready during `addQueueEntry`: refused, but direction pin and planned
  direction are already changed.
* C17: with the RMT driver the reported position does not follow the steps of a command.
* C18: `setCurrentPosition` with pending commands gives a right reading iff the shift is a
  multiple of 65536.
* C46: `queue_end` is copied before and written back in the critical section: a position set in
  between is lost.

AVR driver
* C22: a command added during the last period of the queue: more than one step gives the first
  pulses in the old direction and 10 ticks late; a pause lasts twice as long.
* C91: the same in a move: with a planning time of 4 ms a pass of the task in the last period makes two pulses of a
  `moveTo(40)` with period 2000 ticks come 10 ticks apart.
* C23: `_noMoreCommands` stays set after `forceStopAndNewPosition` in the last period: one pulse
  too much in the next move.
* C48: `startQueue` with an empty queue (ignored command, or command consumed before the test)
  emits a pulse nobody counts.

Front end
* C24: the enable-delay loop ignores the return values: a device not ready for a moment loses
  parts of the delay; a refused first command leaves the pauses queued (delay applied twice).
* C25: race with the background task; a deferred external enable pin is never enabled again;
  `setEnablePin` between two moves leaves the outputs off.
* C27: a pause carrying the new direction skips the delay; external direction pins ignore the
  configured delay; not ready device.
* C28: `moveTimed(-32768, d)` returns success with nothing queued; the same after `forceStop`.
* C29: more than 255 fast steps: the reported duration is too long (300 steps: 480000 queued,
  720000 reported); inserted pauses are not reported; pauses always have direction up.
* C53: lost start. If the device is not ready for one call after `addQueueEntry` has queued the
  pauses of the enable delay, `fill_queue` gives up the pass without starting the queue
  (`need_delayed_start` is still false). If the pauses exceed the planning time (20 ms) no later
  pass adds or starts anything: the ramp stays active and the motor still for ever
  (`C53_queue_started_refuted`, for every later task list). A shorter delay is queued again in
  every refused pass. Needs a device which becomes unready while the queue is stopped: possible
  with the MCPWM/PCNT driver, which looks at the timer value. The commands of a move with an
  enable delay thus depend on the schedule (`C97_enable_delay_refuted`).
* C30: five ways to queue a part of the commands and return an error (see P_Timed).

Ramp generator
* C31: a distance of -2147483648 (`moveTo(-2147483648)` at position 0) is accepted; `fas_abs` of it is undefined behaviour
  (C31_distance_refuted).
* C31: fast moves: a command below MIN_CMD_TICKS aborts the move (ESP32, a = 100000, period
  3180, move 261 ends at 134). C32: overshoot by two steps. C33: the speed limit is exceeded in
  short fast moves and for periods beyond 16 bits. C35: clipping path truncates to 16 bits.
  C36: refused commands.
* C37: at accelerations that reach periods below MIN_CMD_TICKS in a few commands the queue refuses the last command of a
  stop (ESP32, a = 13000000, period 2720: `stepsToStop()` says 12, 11 are made).
* C38: `moveTo(2); move(1)` without task in between ends at 1.
* C39: a pending request swallows `forceStop`; `forceStop` at standstill swallows a later
  `runForward` or `moveTo` to the old target.

User calls
* C55: `stepsToStop()` of a ramp which has not issued a command since the end of the last one
  reads memory copied from an uninitialised variable.
* C58: after `forceStop`/`forceStopAndNewPosition` `forwardStep()` does nothing.
* C58: on AVR with three steppers `forwardStep()`/`backwardStep()` never work: the step lasts
  `MIN_CMD_TICKS` = 640 ticks, the speed limit is 800, `addQueueEntry` refuses it and the return
  code is dropped.
* C51: connecting another stepper on AVR lowers the speed limit of all. A speed set before is not
  adapted: moves are accepted, and the first command above the new limit is refused and ends the
  ramp, so the motor stops abruptly from full speed far from its target.
* C62: `moveTo`/`runBackward` without direction pin return MOVE_OK for a motion in the negative
  direction (the header promises MOVE_ERR_NO_DIRECTION_PIN); the ramp is stopped silently.
* C65: `move()` at standstill is relative to the last target, not to the position, if raw commands
  or single steps moved the motor in between.
* C66: `moveByAcceleration(-2147483648)` negates its argument: undefined behaviour (C66_smallest_refuted).
* C66: `moveByAcceleration(0)` is to keep the speed; the second `setSpeedInTicks` overwrites the
  first before the task reads it: the motor accelerates on with 1 step/s^2, and the configured
  acceleration stays 1.
* C67: `moveTo(100); setCurrentPosition(150)`: if the background task has not yet taken over the
  move, its target is not shifted.
* C69: `getCurrentSpeedInUs(false)` is negative for a move upwards until the task runs; the speed in
  mHz overflows on SAM; slow raw commands with pauses in between are reported as standstill.
* C70: `getCurrentAcceleration` has the wrong sign in short moves with a high acceleration (the
  ramp starts in the state "decelerate"), and reports a new value before it is applied.

Engine
* C41: a third stepper sharing a pin only with a stepper that agreed is not asked: its outputs
  are switched off while it runs; race, as the critical section is commented out.
* C43: `isDirPinBusy` does not see commands queued but not started; test and queueing are not
  atomic.
* C50: an idle manually enabled stepper sharing a pin is disabled, including its other pin.
* Observation: connecting a stepper on AVR overrides `setAbsoluteSpeedLimit` of all steppers.

RMT driver (ESP-IDF 5)
* C44: commands of at least PART_SIZE steps (not a multiple) faster than about 130 ticks: the low
  phase of the last step of a part underflows; 33 steps of 128 ticks contain an end marker, 33
  steps of 97 ticks a pulse of 32801 ticks. `C44_exact` gives the exact set.
* C44: the pause before a direction change is stored in `uint16_t last_entry`: its last symbol has
  a zero-length half (end marker) and the pause is 50 ticks too short.

RMT drivers (ESP-IDF 4)
* C73: a period of 65535 ticks takes two symbols per step. As PART_SIZE is odd (31, 23), a part full
  of such steps (15, 11) leaves one symbol unwritten: it keeps its old contents. ESP32: 21 pulses instead of 20; C3/S3: end marker after 11 of 20 steps.
* C73: the low phase underflows for short periods as in C44 (33 steps of 97 ticks).
* C73: C3/S3 take 4 ticks too many off the last step of every incomplete part: 9 steps of 400 ticks take
  3596 ticks.
* C75: the pause with which C3/S3 end a transmission is 2392 ticks, below MIN_CMD_TICKS (3200): the symbols are
  computed for 31 symbols per part instead of 23.
* C75: `addQueueEntry` with start while commands are ignored starts an empty queue: running, nothing
  sent, no interrupt: it stays like that until reset. The same if the queue runs empty between
  commit and start of `addQueueEntry`.
* C75: `forceStop` clears the continuous mode first and sets `_rmtStopped` later. An end interrupt in
  between leaves the queue running with the transmitter off; a queue started in between repeats
  its steps without end.

Jump start and linear acceleration
* C71: with `setJumpStart(j)` the direction of the first command is that of the last move, because
  the ramp steps are not zero at standstill (`RampConstAcceleration.cpp`, `count_up`). A move the
  other way (also the very first move, if it is backward) first runs about j steps away from its
  target and then turns; a move of fewer than j-1 steps overshoots likewise. The first
  period is that of ramp step j+1 instead of j. `test_02` covers one long forward move only.
* C72: in the linear phase the period is not monotone (step 496 slower than 495 for s_h = 1000):
  `pmfl_pow_div_3` rounds a step of the logarithm down and up again. A quarter of s_h is rounded to
  an integer, so the handover speed is 22 % off for s_h = 2.

External direction pin
* C84: `forceStopAndNewPosition` while a turn is queued: `queue_end.dir` is the new direction, the external pin is not. The next
  move in that direction runs the wrong way. (A normal pin is written directly when the queue is empty.)
* C84: `forceStopAndNewPosition` leaves `repeat_entry` set in the skipped entries; `isOnRepeatingEntry` does not look whether
  the queue is empty. One round later the task switches the pin although nothing is queued.
* C84: the same after a turning command that is dropped at the end of `addQueueEntry` (not ready, or
  `forceStop` called in the meantime).
* C84: with `dirHighCountsUp = false` the first command is flagged although it makes steps, as `queue_end.dir`
  starts as true: its last step is repeated until the task has run.
* C84: the RMT drivers remove an entry when it is written to the symbol memory. The task may switch the pin while
  the steps before the turn are still to be sent (normal pins have `lastChunkContainsSteps` against this).
* C85: with an enable delay the pause of the delay carries the turn, and no second pause follows.

Undefined behaviour and oddities seen while reading (not theorems): overflow of the signed position; `getCurrentSpeedInUs` reads an
uninitialised `count_up` when idle.

MCPWM/PCNT driver (ESP-IDF 4)
* C80: steps, pause, another number of steps, queued in time: the steps behind the pause are as many as before
  it (1 step, pause, 3 steps: 2 pulses in all; 5, pause, 3: 10 pulses). `prepare_for_next_command` writes the
  limit register while the pause is running, the counter does not latch it, and `apply_command` skips the
  forced take-over because the register already holds the number. The reported position is 4 and 8.
* C80: a late interrupt at the end of the last command leads to an extra pulse that is not in the position.
* C81: the correction for late interrupts (lines 158-231) never runs in an interrupt, as the limit
  register always holds the number of steps there; a theorem for all histories without `forceStop`.
* C81: were it run with one step to go, `disable_mcpwm_interrupt = val2 > 0` should be `> 1` (the
  comment above it describes the case): limit 0, no interrupt, pulses without end.
* C82: `forceStop` leaves the pulse counter as it is; the next command queued without start shifts the position.

SAM driver (Arduino Due)
* C86: the toggle of the direction pin is executed by the port interrupt only, at the start of a command with steps. A pause
  that carries the turn, as queued for the delay after a direction change, loses it: all following steps go the wrong way.
  Steps with a turn behind a pause go the wrong way as well (`PWM_Handler` ignores `toggle_dir`).
* C86: the same if the queue runs out while `addQueueEntry` is between comparing the direction and filling the entry.
* C86: a port interrupt later than one period: two edges count as one, an extra pulse is made.
* C87: the rule "ignore the PWM interrupt in the first 100 us" doubles a pause behind steps of less than 100 us, and the
  pause is left out entirely if the first PWM interrupt is late by 100 us or a leftover status bit is served (pause
  queued in the period of the last step). A queue that starts with a pause doubles it.
* C87: `connect()` clears the PWM interrupt enable of channels 0 to 3: a stepper in a pause then waits forever.
* C88: `forceStop` leaves `_pauseCommanded` set. After a forced stop in a pause the next steps are not counted: the port
  interrupt returns at once, pulses without end.
* C90: pin 74 is documented, the code has 73; the group 38/43/63/39 (channel 2) is not documented.

ESP32: pulse counter, detaching, task
* C92: "Pulse counter 6 and 7 are not used by the stepper library" does not hold on the ESP32-S3 with ESP-IDF 4: units
  from 4 on are refused, and with four MCPWM steppers all others are in use.
* C92 (ESP-IDF 5): the documented limits 0 and 0 ("like an int16_t") are refused. Each further `attachToPulseCounter()`
  takes another unit and never gives one back; so does a set-up call that fails behind the allocation.
* C92: `setDirectionPin()` behind the attachment does not reach the counter: it goes on with the old pin.
* C92: limits that are not symmetric give values that are neither the steps nor an angle.
* C92: two steppers may attach the same unit without an error; the first then counts the steps of the second.
* C94 (ESP-IDF 5): a move that came to its end leaves the channel enabled; `detachFromPin()` then does nothing and
  `reAttachToPin()` takes another channel for the same pin. After seven rounds none is left on the ESP32; the next
  stepper connected gets no channel and never moves, without an error.
* C94: on AVR both functions are empty (`StepperISR_avr.cpp:315-316`).
* C95: `setDelayToDisable()` divides by the constant `DELAY_MS_BASE`; with `task_rate(20)` the outputs are switched off
  five times too late, with a FreeRTOS tick of 100 Hz two and a half times.
* C103 (ESP32, MCPWM/PCNT): with a delay between direction and step, a move back over the way just made goes wrong: the first
  command behind the pause is carried out with the number of steps of the last command before it (the fault of C80).
  Acceleration 1000000 steps/s^2, 2500 steps/s, delay 200 us: `moveTo(-20)`, `moveTo(0)` ends at +1; the position reads 0.
* C104 (SAM): with a delay between direction and step, a move back while the queue still runs goes on in the old direction (the
  fault of C86: a turn on a pause). Acceleration 1000000 steps/s^2, 2500 steps/s, delay 200 us: `moveTo(20)`, `moveTo(0)` ends at
  +40; the position reads 0.
* C105: `keepRunning()` during a move downwards turns the motor round: `moveTo` and `move` store
  `keep_running_count_up = true` (`RampCalculator.h:96`, `:110`) whatever the direction of the move.
* C105: `keepRunning()` after `moveTo` but before the task has run is lost: it sets a flag in the copy of the parameters which the task
  overwrites (`RampConstAcceleration.h:27`). `isRunningContinuously()` is true until then.

## 8. Tests against wrong programs

`seeded/LOG.jsonl` has one line per attempt. An attempt edits one definition of the model (the "program"), not a
theorem, such that a stated claim should become false, and recompiles. A proof that fails is replaced by an
admitted statement in the scratch copy, so that one edit shows every theorem it breaks; `theorems_failed` are the
`Cxx` theorems whose proof or whose lemmas break. Some edits repair a finding: there a `_refuted` theorem must break.

* 415 attempts; 378 caught at once; 36 survived at first. For each of these a theorem was added or tightened
  (`theorems_tightened`) until it was caught. Typical gaps: a return code or flag that no theorem mentioned, a getter
  without a statement, a bound that was only an upper bound, a pause whose length was not stated.
* k1-k8 and k10: the runner stopped before the last files; `theorems_failed` are those known to break, not all.
* 1 survives rightly (x10): the edited program behaves the same.
* Drivers with few edits (AVR) have short interrupt routines; the others were edited branch by branch.

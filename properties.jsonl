{"id": "C01", "title": "Logarithmic conversion of integers is monotone", "statement": "Converting two unsigned numbers x <= y to the library's logarithmic format never reverses their order: the log of x is <= the log of y. Zero converts to the dedicated 'minus infinity' value.", "quantifier": "every pair of uint32 values (and the 8 and 16 bit conversions on their whole domains)", "why_tests_cant": "2^32 inputs and two 256-entry correction tables; a single non-monotone table entry would make a motor speed up when it should slow down", "anchors": ["src/PoorManFloat.cpp: pmfl_from(uint8_t/uint16_t/uint32_t)", "src/PoorManFloat.cpp"]}
{"id": "C02", "title": "Logarithmic conversion is accurate", "statement": "For every x >= 1 the logarithmic value L(x) satisfies |L(x) - 512*log2(x)| <= a fixed bound of about one unit (1/512 octave), stated with real numbers.", "quantifier": "every uint32 value x >= 1", "why_tests_cant": "error bound over the whole 32 bit domain against a real-valued function; tests sample a few values", "anchors": ["src/PoorManFloat.cpp: pmfl_from"]}
{"id": "C03", "title": "Exponentiation is monotone, accurate and saturating", "statement": "Converting a log value back to an integer is monotone, yields 0 for negative logs, saturates at the maximum integer at and above 2^32 (resp. 2^16), and otherwise is within a fixed relative error of 2^(v/512).", "quantifier": "every int16 logarithmic value", "why_tests_cant": "accuracy against a real-valued function over the full domain", "anchors": ["src/PoorManFloat.cpp: pmfl_to_u16, pmfl_to_u32"]}
{"id": "C04", "title": "Integer -> log -> integer round trip", "statement": "Converting a number to the log format and back returns a number within a fixed relative error of the original, and exactly the original for small numbers.", "quantifier": "every uint32 value", "why_tests_cant": "4 billion inputs, composition of two table driven functions", "anchors": ["src/PoorManFloat.cpp"]}
{"id": "C05", "title": "Ramp formulas never overflow the 16 bit log format", "statement": "For every accepted acceleration, speed and ramp step count, every intermediate value of the period-from-step and steps-from-period formulas with constant acceleration fits in int16, so no wrap-around can occur.", "quantifier": "every acceleration 1..2^31-1, every step count and every period that the API accepts", "why_tests_cant": "product of 2^31 x 2^32 inputs; overflow happens only at extremes", "anchors": ["src/RampCalculator.h: ramp_config_s::calculate_ticks, calculate_ramp_steps", "src/PoorManFloat.cpp: pmfl_square"]}
{"id": "C06", "title": "Step period on the ramp follows constant acceleration", "statement": "With constant acceleration a (no linear phase) the period used at ramp step s is within a fixed small relative error of TICKS_PER_S/sqrt(2*a*s), and it never increases when s or a increases.", "quantifier": "every acceleration 1..2^31-1 and every ramp step s >= 1", "why_tests_cant": "accuracy and monotonicity against the physical law over 2^63 argument pairs", "anchors": ["src/RampCalculator.h: ramp_config_s::update, calculate_ticks"]}
{"id": "C07", "title": "Ramp length for a given speed follows constant acceleration", "statement": "With constant acceleration a the number of ramp steps computed for period t is within a fixed relative error of TICKS_PER_S^2/(2*a*t^2), and it does not decrease when the period shrinks.", "quantifier": "every acceleration and every period", "why_tests_cant": "accuracy against the physical law over the whole argument space", "anchors": ["src/RampCalculator.h: ramp_config_s::calculate_ramp_steps"]}
{"id": "C08", "title": "setSpeedInHz / setSpeedInUs / setSpeedInTicks store the correctly rounded period", "statement": "When setSpeedInHz(f) returns success the period that will be used is TICKS_PER_S/f rounded to the nearest integer; setSpeedInUs(u) stores exactly u microseconds in ticks; setSpeedInTicks(t) stores t. The call fails exactly when the resulting period is shorter than the fastest allowed period or not representable, and then nothing changes.", "quantifier": "every uint32 argument on every supported timer frequency and every speed limit", "why_tests_cant": "rounding and overflow boundaries over 2^32 inputs", "anchors": ["src/FastAccelStepper.h: setSpeedInUs/Ticks/Hz", "src/FastAccelStepper.cpp:819-849", "src/RampGenerator.h: divForHz"]}
{"id": "C09", "title": "setSpeedInMilliHz stores the correctly rounded period", "statement": "When setSpeedInMilliHz(f) succeeds, the period used is 1000*TICKS_PER_S/f rounded to nearest, on every supported architecture.", "quantifier": "every uint32 argument; 16 MHz (AVR, ESP32) and 21 MHz (SAM) timers", "why_tests_cant": "needs 64 bit products in 32 bit arithmetic; the overflow occurs on one architecture only", "anchors": ["src/RampGenerator.h: divForMilliHz", "src/fas_arch/common.h", "src/fas_arch/arduino_sam.h"]}
{"id": "C10", "title": "Speed read back in mHz is the correctly rounded frequency", "statement": "getSpeedInMilliHz() / getMaxSpeedInMilliHz() report 1000*TICKS_PER_S/period rounded to nearest for the configured period.", "quantifier": "every period the API accepts", "why_tests_cant": "32 bit overflow for very long periods", "anchors": ["src/RampGenerator.h: divForMilliHz", "src/FastAccelStepper.cpp: getSpeedInMilliHz"]}
{"id": "C11", "title": "Direction change delay is clamped and never truncated", "statement": "setDirectionPin(pin, polarity, delay_us) stores 0 for delay 0, otherwise the delay clamped into the architecture's [MIN,MAX] window, converted exactly to ticks; the value always fits one queue command and is always long enough to be accepted as a command.", "quantifier": "every 16 bit delay value on every architecture", "why_tests_cant": "truncation to 16 bits appears only near the upper limit", "anchors": ["src/FastAccelStepper.cpp: setDirectionPin"]}
{"id": "C12", "title": "setDelayToEnable accepts exactly the delays it can honour", "statement": "setDelayToEnable(us) returns OK only if the stored delay equals us microseconds and lies within the supported window, otherwise it returns DELAY_TOO_LOW/HIGH and stores nothing.", "quantifier": "every uint32 delay", "why_tests_cant": "integer wrap-around of the us->ticks conversion for large arguments", "anchors": ["src/FastAccelStepper.cpp: setDelayToEnable"]}
{"id": "C13", "title": "The command queue is a bounded FIFO", "statement": "Every accepted command is executed exactly once, in the order of acceptance, unmodified, and no command is ever overwritten before it was executed; at most QUEUE_LEN commands are pending at any time, and a command offered to a full queue is refused with QUEUE_FULL.", "quantifier": "every history of additions, consumptions and queue clearings of any length (8 bit indices wrap around)", "why_tests_cant": "index wrap-around at 256 and unbounded histories", "anchors": ["src/StepperISR.cpp: StepperQueue::addQueueEntry", "src/StepperISR.h: isQueueFull/isQueueEmpty/queueEntries"]}
{"id": "C14", "title": "Refused commands have no effect", "statement": "If a raw queue addition returns anything but OK then queue contents, planned position, planned direction and direction pin are unchanged.", "quantifier": "every command, every queue state", "why_tests_cant": "every combination of queue state and error cause", "anchors": ["src/StepperISR.cpp: StepperQueue::addQueueEntry"]}
{"id": "C15", "title": "Accepted commands respect the minimum duration and period limits", "statement": "Every command in the queue lasts at least MIN_CMD_TICKS, and no step command has a period below the stepper's fastest allowed period.", "quantifier": "every command offered through the API in every state", "why_tests_cant": "256 x 65536 commands times configuration", "anchors": ["src/StepperISR.cpp: addQueueEntry"]}
{"id": "C16", "title": "Planned position is the exact sum of accepted steps", "statement": "getPositionAfterCommandsCompleted() equals the initial position plus all accepted upward steps minus all accepted downward steps (32 bit wrap-around).", "quantifier": "every history of accepted and refused commands", "why_tests_cant": "unbounded histories", "anchors": ["src/StepperISR.cpp: addQueueEntry", "src/FastAccelStepper.h: getPositionAfterCommandsCompleted"]}
{"id": "C17", "title": "getCurrentPosition reports exactly the steps performed so far", "statement": "While commands execute, getCurrentPosition() equals the position before the pending commands plus the steps really performed, although the queue stores only 16 bit positions.", "quantifier": "every start position (any int32), every queue content, every progress inside the running command, both position encodings (START/END)", "why_tests_cant": "16 bit wrap-around reconstruction depends on position modulo 65536 and queue contents", "anchors": ["src/StepperISR.cpp: getCurrentPosition"]}
{"id": "C18", "title": "setCurrentPosition is effective immediately, also while moving", "statement": "After setCurrentPosition(p) (resp. setPositionAfterCommandsCompleted) getCurrentPosition() returns p (resp. is consistent with it) and all later positions and the target are shifted by the same amount.", "quantifier": "every queue content, every old and new position", "why_tests_cant": "depends on the 16 bit positions stored in pending commands", "anchors": ["src/FastAccelStepper.cpp:850-869", "src/StepperISR.cpp: getCurrentPosition"]}
{"id": "C19", "title": "ticksInQueue is the exact remaining time after the current command", "statement": "ticksInQueue() equals the sum over the pending commands behind the running one of period*max(steps,1), and hasTicksInQueue(t) answers whether this sum reaches t.", "quantifier": "every queue content, every threshold t > 0", "why_tests_cant": "sum over arbitrary queue contents, index wrap-around", "anchors": ["src/StepperISR.cpp: ticksInQueue, hasTicksInQueue"]}
{"id": "C20", "title": "Direction pin matches the commanded direction at every step", "statement": "For any sequence of accepted commands, when the commands are executed in order the direction pin has, at each executed step, the level belonging to the commanded direction.", "quantifier": "every sequence of commands including pauses, direction changes and repeated stop/start", "why_tests_cant": "toggle based encoding: a single missed toggle inverts all later motion", "anchors": ["src/StepperISR.cpp: addQueueEntry (toggle_dir)", "src/StepperISR_avr.cpp"]}
{"id": "C21", "title": "AVR: the interrupt emits exactly the commanded pulses at the commanded times", "statement": "Executing a queue on AVR emits for each command exactly its number of step pulses, the pulses of a command are spaced exactly by its period, the next command starts exactly one period after the last pulse, pauses emit none, and the driver stops after the last command.", "quantifier": "every queue content, and every history of additions while the queue still holds an unfinished command", "why_tests_cant": "timer/ISR state machine over unbounded histories", "anchors": ["src/StepperISR_avr.cpp: AVR_STEPPER_ISR, startQueue"]}
{"id": "C22", "title": "AVR: refilling a queue that just ran empty keeps period and direction", "statement": "A command added after the last command started its final period (queue empty but still running) is executed with the commanded number of steps, the commanded period and the commanded direction.", "quantifier": "every command and every refill time", "why_tests_cant": "requires an addition inside a specific interrupt window", "anchors": ["src/StepperISR_avr.cpp: AVR_STEPPER_ISR (_noMoreCommands)"]}
{"id": "C23", "title": "AVR: after a forced stop the next commands execute exactly", "statement": "After forceStopAndNewPosition() commands added later produce exactly their number of pulses.", "quantifier": "every moment of the forced stop", "why_tests_cant": "depends on the interrupt driver's internal flag at the moment of the stop", "anchors": ["src/StepperISR_avr.cpp: forceStop, startQueue, AVR_STEPPER_ISR"]}
{"id": "C24", "title": "Enable delay is fully respected before the first step", "statement": "With automatic enable and a configured enable delay, when the outputs get enabled the pauses queued before the first command sum exactly to the configured delay, each is a valid command, and they fit into an empty queue together with the command.", "quantifier": "every configurable delay on every architecture", "why_tests_cant": "splitting of the delay into 16 bit pieces has boundary cases at multiples of 65535/65536", "anchors": ["src/FastAccelStepper.cpp: addQueueEntry (on delay loop)", "setDelayToEnable"]}
{"id": "C25", "title": "Outputs are enabled before any step is queued when auto enable is on", "statement": "With auto enable on, no step command enters the queue while the enable pin is inactive.", "quantifier": "every history of API calls and background task runs", "why_tests_cant": "history property", "anchors": ["src/FastAccelStepper.cpp: addQueueEntry, enableOutputs, disableOutputs, manageSteppers"]}
{"id": "C26", "title": "No step in the wrong direction without a direction pin", "statement": "Without a direction pin no downward step can ever be queued; the request is refused with an error.", "quantifier": "every command and state", "why_tests_cant": "history property over all API entry points", "anchors": ["src/FastAccelStepper.cpp: addQueueEntry"]}
{"id": "C27", "title": "Direction change is preceded by the configured delay", "statement": "When a step command reverses the direction and a direction change delay is configured, the queue contains a pause of that length with the new direction between the last step of the old and the first step of the new direction.", "quantifier": "every command sequence", "why_tests_cant": "depends on the whole command history", "anchors": ["src/FastAccelStepper.cpp: addQueueEntry"]}
{"id": "C28", "title": "moveTimed queues exactly the requested steps", "statement": "If moveTimed(steps, duration) reports success, commands with exactly |steps| steps in the requested direction have been queued.", "quantifier": "every int16 step count, every uint32 duration, every queue fill level", "why_tests_cant": "2^48 argument pairs with many splitting cases", "anchors": ["src/FastAccelStepper.cpp: moveTimed"]}
{"id": "C29", "title": "moveTimed reports the actual duration", "statement": "If moveTimed reports success, *actual_duration equals the sum of the durations of the queued commands and deviates from the request by a bounded amount.", "quantifier": "every int16 step count, every uint32 duration, every queue fill level", "why_tests_cant": "as C28", "anchors": ["src/FastAccelStepper.cpp: moveTimed"]}
{"id": "C30", "title": "moveTimed is all-or-nothing", "statement": "If moveTimed returns an error or busy, nothing has been queued.", "quantifier": "every argument pair and queue fill level", "why_tests_cant": "partial queueing only happens at specific values", "anchors": ["src/FastAccelStepper.cpp: moveTimed"]}
{"id": "C31", "title": "A move ends exactly at its target", "statement": "After move/moveTo with fixed parameters the ramp generator issues finitely many commands, then stops, and the planned end position is exactly the target, whatever the speed, the acceleration, the current ramp state and the position are.", "quantifier": "every target, every valid configuration, every ramp state at the time of the call", "why_tests_cant": "liveness over runs of unbounded length", "anchors": ["src/RampConstAcceleration.cpp: _getNextCommand", "src/RampGenerator.cpp: getNextCommand"]}
{"id": "C32", "title": "A move never passes its target when started from standstill", "statement": "A move started from standstill with constant parameters goes monotonically to the target and never overshoots.", "quantifier": "every distance and configuration", "why_tests_cant": "overshoot occurs only for particular combinations", "anchors": ["src/RampConstAcceleration.cpp: _getNextCommand"]}
{"id": "C33", "title": "The configured speed is never exceeded", "statement": "The ramp generator never issues a step period shorter than the configured one, except while decelerating from an already higher speed.", "quantifier": "every ramp state and configuration", "why_tests_cant": "large state space", "anchors": ["src/RampConstAcceleration.cpp: _getNextCommand"]}
{"id": "C34", "title": "Direction reverses only at the end of a deceleration ramp", "statement": "The ramp generator changes direction only after the ramp step counter reached zero, i.e. after a complete deceleration.", "quantifier": "every ramp state, target and configuration", "why_tests_cant": "state space", "anchors": ["src/RampConstAcceleration.cpp: _getNextCommand"]}
{"id": "C35", "title": "Slow speeds keep the exact period", "statement": "A step period longer than one queue command is realised by a step command followed by pauses whose durations add up exactly to the period; each piece fits 16 bits and is a valid command.", "quantifier": "every period up to 2^32-2", "why_tests_cant": "splitting boundaries", "anchors": ["src/RampConstAcceleration.cpp: _getNextCommand"]}
{"id": "C36", "title": "Every command issued by the ramp generator is accepted by the queue", "statement": "The ramp generator never issues a command that the queue refuses as too short (which would abort the move).", "quantifier": "every configuration and ramp state reachable by a move", "why_tests_cant": "rare combinations near the minimum command time", "anchors": ["src/RampConstAcceleration.cpp: _getNextCommand", "src/FastAccelStepper.cpp: fill_queue"]}
{"id": "C37", "title": "stopMove stops the motor", "statement": "After stopMove() with no further calls, the ramp ends after finitely many commands, at the deceleration distance reported by stepsToStop(); without reversing.", "quantifier": "every ramp state", "why_tests_cant": "liveness", "anchors": ["src/RampGenerator.cpp: getNextCommand, initiateStop"]}
{"id": "C38", "title": "Consecutive moves before the task runs combine as documented", "statement": "move(a) followed by move(b) has the same final target as with the task running in between; moveTo(a) followed by moveTo(b) ends at b; moveTo(a) followed by move(b) ends at a+b - regardless of when the background task runs.", "quantifier": "every pair of moves, every interleaving with the background task", "why_tests_cant": "schedule dependence", "anchors": ["src/RampCalculator.h: ramp_parameters_s setters", "src/RampGenerator.cpp: move, moveTo, getNextCommand"]}
{"id": "C39", "title": "forceStop stops immediately and does not block later moves", "statement": "After forceStop() no further ramp command is issued until a new move; a move or run requested afterwards is executed.", "quantifier": "every state in which forceStop and the following call are issued", "why_tests_cant": "schedule dependence", "anchors": ["src/RampGenerator.cpp", "src/FastAccelStepper.cpp: forceStop, fill_queue"]}
{"id": "C40", "title": "runForward/runBackward keeps running in the requested direction", "statement": "After runForward (runBackward) with fixed parameters from standstill, the ramp generator never stops by itself, always steps in the requested direction and never exceeds the configured speed.", "quantifier": "every configuration, unbounded run time", "why_tests_cant": "unbounded run", "anchors": ["src/RampGenerator.cpp", "src/RampConstAcceleration.cpp"]}
{"id": "C41", "title": "Automatic disable never cuts power of a moving stepper", "statement": "The background task never deactivates an enable pin that is used by a stepper which is still running.", "quantifier": "every set of steppers, pin assignments and states", "why_tests_cant": "all pin sharing topologies", "anchors": ["src/FastAccelStepper.cpp: manageSteppers, agreeWithAutoDisable, usesAutoEnablePin"]}
{"id": "C42", "title": "Each step pin is connected to at most one stepper", "statement": "stepperConnectToPin returns a stepper only for a pin that is not used by another stepper, never creates more than MAX_STEPPER steppers, and never assigns a hardware queue twice.", "quantifier": "every history of connect calls", "why_tests_cant": "history property", "anchors": ["src/FastAccelStepper.cpp:67-126", "src/StepperISR_avr.cpp:317-345"]}
{"id": "C43", "title": "A shared direction pin is never switched under a running stepper", "statement": "If several steppers share a direction pin, a step in the opposite direction is refused as long as another stepper using that pin is busy.", "quantifier": "every set of steppers and states", "why_tests_cant": "all sharing topologies", "anchors": ["src/FastAccelStepper.cpp: isDirPinBusy, addQueueEntry"]}
{"id": "C44", "title": "ESP32 RMT: encoder output has exactly the commanded pulses and duration", "statement": "For each command the RMT encoder emits buffer parts of exactly PART_SIZE symbols whose rising edges sum up to the commanded steps and whose total duration equals steps*period, with no zero-length half symbol. After forceStop() the encoder emits nothing.", "quantifier": "every command the queue accepts (all periods and step counts)", "why_tests_cant": "255 x 65456 commands; failure only for certain combinations", "anchors": ["src/StepperISR_idf5_esp32_rmt.cpp: encode_commands"]}
{"id": "C45", "title": "ESP32 RMT: direction never toggles while steps are still being sent", "statement": "The direction pin is toggled only when the buffer part currently being transmitted contains no step.", "quantifier": "every sequence of commands", "why_tests_cant": "schedule/history property", "anchors": ["src/StepperISR_idf5_esp32_rmt.cpp: encode_commands"]}
{"id": "C46", "title": "A position change is not lost when it coincides with queueing a command", "statement": "If the application sets the position while the background task is in the middle of adding a command, the new position remains effective: the planned position afterwards is the new position plus the steps accepted later.", "quantifier": "every moment of the position change relative to the pieces of addQueueEntry, every command", "why_tests_cant": "The window between the copy of queue_end and the critical section is a few instructions wide and needs a second core or a pre-empting task to be hit.", "anchors": ["src/StepperISR.cpp:5-151", "src/StepperISR.cpp:111-133", "src/FastAccelStepper.cpp:850-868"]}
{"id": "C47", "title": "The reported actual speed belongs to the running command", "statement": "getActualTicksWithDirection() reports period and direction of the command being executed, 0 for an empty queue and no value during a pause; the value is marked valid exactly if the command has more than one step or is followed by a step command.", "quantifier": "every history of additions and interrupt actions, every fill level", "why_tests_cant": "The answer depends on flags stored in two neighbouring entries of a ring buffer whose contents are written and consumed concurrently; tests cover a few fill levels only.", "anchors": ["src/StepperISR.cpp:284-310"]}
{"id": "C48", "title": "AVR: the driver is never started with an empty queue", "statement": "startQueue() is only executed when the queue holds a command, so that no pulse is ever emitted from an entry that was already executed or never accepted.", "quantifier": "every history of additions and interrupts, including interrupts between the pieces of addQueueEntry, and the phase after a forced stop in which commands are ignored", "why_tests_cant": "Needs an interrupt that drains the queue inside a window of a few instructions, or an API call between forceStop() and the next run of the background task.", "anchors": ["src/StepperISR.cpp:122-141", "src/StepperISR_avr.cpp:239-285"]}
{"id": "C49", "title": "Outputs are disabled exactly after the configured delay", "statement": "If a stepper with auto enable becomes idle with delay counter n and shares its enable pins with nobody, the background task leaves the enable pins unchanged for n-1 passes and switches both off in pass n, whatever the other steppers do in between.", "quantifier": "every number of steppers, pin assignment, counter value and behaviour of the other steppers", "why_tests_cant": "all delays and all interactions of several steppers", "anchors": ["src/FastAccelStepper.cpp:160-211", "src/FastAccelStepper.cpp:452-497"]}
{"id": "C50", "title": "Automatic disable leaves manually enabled steppers alone", "statement": "The background task never changes the enable pins of a stepper which does not use auto enable.", "quantifier": "every set of steppers, pin assignments and states", "why_tests_cant": "all pin sharing topologies", "anchors": ["src/FastAccelStepper.cpp: manageSteppers, agreeWithAutoDisable, usesAutoEnablePin"]}
{"id": "C51", "title": "Moves are carried out completely, in order and without repetition", "statement": "After moveTo (or move) from standstill there is a list of commands of exactly |d| steps, all in one direction, none faster than the configured speed, such that whatever the background task, the interrupt and the device do (refusals, refills at any time, passes cut short), the accepted commands are a prefix of this list with pauses in between and the planned position follows; when the ramp has ended the list is complete, and when the queue has run empty the motor stands at the target and every command was output.", "quantifier": "every target, configuration and history before the call, and every interleaving of fill passes, interrupts and refusals after it", "why_tests_cant": "unbounded interleavings of three asynchronous parties", "anchors": ["src/FastAccelStepper.cpp:363-450", "src/RampGenerator.cpp", "src/StepperISR.cpp:5-151"]}
{"id": "C52", "title": "A move ends after a bounded number of passes of the background task", "statement": "For every move there is a number n such that after n passes of the background task over an empty queue the ramp generator is inactive, whatever interrupts do in between.", "quantifier": "every target, configuration, history and schedule", "why_tests_cant": "liveness over all schedules", "anchors": ["src/FastAccelStepper.cpp:363-450"]}
{"id": "C53", "title": "Queued commands are started", "statement": "After every pass of the background task the queue of a moving stepper is empty or running; it never comes to a halt with commands in it.", "quantifier": "every move, every schedule of passes and interrupts and every behaviour of the device", "why_tests_cant": "needs a device becoming unready between two particular instructions", "anchors": ["src/FastAccelStepper.cpp:363-450", "src/StepperISR.cpp:11-22", "src/StepperISR_idf4_esp32_mcpwm_pcnt.cpp:542-556"]}
{"id": "C54", "title": "Without speed and acceleration nothing moves", "statement": "In every history of calls in which the speed or the acceleration has not been set, every move and run call is refused with MOVE_ERR_SPEED_IS_UNDEFINED or MOVE_ERR_ACCELERATION_IS_UNDEFINED, leaves the state unchanged, the ramp stays inactive and issues no command. A non-positive acceleration is refused.", "quantifier": "every history of calls of the ramp generator and rounds of the task", "why_tests_cant": "all call sequences", "anchors": ["src/RampGenerator.cpp:19-106", "src/RampCalculator.h:145-153"]}
{"id": "C55", "title": "Uninitialised memory is never observable", "statement": "The contents of members and local variables which the source leaves uninitialised (pmfl_accel, acceleration, the NextCommand variable of fill_queue) have no influence on return codes, commands and values of the query functions.", "quantifier": "every history of calls, every pair of contents of the uninitialised memory", "why_tests_cant": "test runs see one memory content, often zero", "anchors": ["src/RampCalculator.h:62-75", "src/RampGenerator.h:9-27", "src/RampConstAcceleration.cpp:133-142", "src/FastAccelStepper.cpp:363-450"]}
{"id": "C56", "title": "enableOutputs/disableOutputs report and set the pins", "statement": "enableOutputs (disableOutputs) returns true if and only if every external enable pin handled by a function was confirmed; the pins of the controller get the active (inactive) level, other pins are not touched.", "quantifier": "every pin configuration, every external function, every state of the pins", "why_tests_cant": "external pin functions with arbitrary answers", "anchors": ["src/FastAccelStepper.cpp:690-743"]}
{"id": "C57", "title": "setDelayToDisable rounds down, but never below two ticks", "statement": "The stored number of task ticks is 1 for a delay of 0, otherwise the maximum of 2 and delay / DELAY_MS_BASE.", "quantifier": "all delays 0..65535 ms, all architectures", "why_tests_cant": "all values", "anchors": ["src/FastAccelStepper.cpp:606-613"]}
{"id": "C58", "title": "forwardStep/backwardStep perform exactly one step of an idle motor", "statement": "On an idle stepper the call adds exactly one command with one step in the given direction (after the configured delays), on a running stepper it does nothing.", "quantifier": "every history, every configuration, both directions", "why_tests_cant": "all histories (e.g. after a forced stop)", "anchors": ["src/FastAccelStepper.cpp:892-910", "src/FastAccelStepper.h:520-526"]}
{"id": "C59", "title": "forceStopAndNewPosition stops at once with the new position", "statement": "After the call nothing is running, no command is queued by any later pass of the task or interrupt, and position and target are the new position until the next call of the user.", "quantifier": "every state, position and schedule of passes and interrupts", "why_tests_cant": "all schedules", "anchors": ["src/FastAccelStepper.cpp:674-689"]}
{"id": "C60", "title": "The sign of getCurrentAcceleration matches the motion", "statement": "A positive value means speeding up while counting up or slowing down while counting down, a negative value the opposite, zero means unchanged speed; the magnitude is at most the configured acceleration.", "quantifier": "every ramp state and round", "why_tests_cant": "all ramp states", "anchors": ["src/RampGenerator.cpp:262-274", "src/RampConstAcceleration.cpp:61-529"]}
{"id": "C61", "title": "setEnablePin never assigns one pin to both levels", "statement": "After any sequence of setEnablePin calls the low active and the high active pin differ, the pin of the last call is used.", "quantifier": "every sequence of calls", "why_tests_cant": "all sequences", "anchors": ["src/FastAccelStepper.cpp:555-585"]}
{"id": "C62", "title": "Moves in negative direction without direction pin are refused", "statement": "Without a direction pin move, moveTo and runBackward return MOVE_ERR_NO_DIRECTION_PIN for motion in the negative direction.", "quantifier": "every state and distance", "why_tests_cant": "documented for all three calls, tested for none", "anchors": ["src/FastAccelStepper.cpp:614-638", "src/FastAccelStepper.h:185-190"]}
{"id": "C63", "title": "A pass of the task plans ahead far enough", "statement": "After a pass of the background task the ramp has ended, or the queue is full, or it holds at least two commands and the forward planning time.", "quantifier": "every state of ramp and queue", "why_tests_cant": "all states", "anchors": ["src/FastAccelStepper.cpp:363-450"]}
{"id": "C64", "title": "stopMove uses the acceleration set last", "statement": "setAcceleration(a), applySpeedAcceleration(), stopMove() during a motion with a step every t ticks: the motor stops T^2/(2 a t^2) steps away (1 percent and one step).", "quantifier": "every state in motion, every acceleration", "why_tests_cant": "all values", "anchors": ["src/RampGenerator.cpp:118-215", "src/RampCalculator.h:129-143"]}
{"id": "C65", "title": "Accepted calls have the documented effect", "statement": "A valid move/run call returns MOVE_OK, ends a stop in progress, leaves the present speed untouched, starts the ramp if there is something to do, and the next round uses the requested target; move is relative to the target of the ongoing move and to the current position at standstill.", "quantifier": "every state and argument", "why_tests_cant": "all states", "anchors": ["src/RampGenerator.cpp:32-101", "src/FastAccelStepper.h:488-500"]}
{"id": "C66", "title": "moveByAcceleration follows the sign of its argument", "statement": "A positive acceleration runs forward, a negative one backward (or to a stop), each with the given magnitude; zero keeps the current speed.", "quantifier": "every state and argument", "why_tests_cant": "all states", "anchors": ["src/FastAccelStepper.cpp:642-664", "src/FastAccelStepper.h:529-540"]}
{"id": "C67", "title": "A change of the origin does not influence the motion", "statement": "setCurrentPosition and setPositionAfterCommandsCompleted shift the target of a motion in progress together with the position: the motor makes the same commands as without the call, and the reported end position is shifted.", "quantifier": "every state of the ramp generator, every new position, every later run", "why_tests_cant": "all states, all later runs, wrap-around of 32 bit positions", "anchors": ["src/FastAccelStepper.cpp:850-866", "src/RampGenerator.cpp:102-106"]}
{"id": "C68", "title": "Speed limit follows the number of steppers", "statement": "After each successful stepperConnectToPin on AVR every connected stepper has the speed limit advertised for the number of connected steppers (50000 / 37000 / 20000 steps per second for 1 / 2 / 3); on the other architectures the number does not matter.", "quantifier": "every history of connects and work of the steppers, every pin layout", "why_tests_cant": "all histories; the PC tests have no AVR limits", "anchors": ["src/StepperISR_avr.cpp:346-361", "src/FastAccelStepper.cpp:112-125", "README.md:112-130"]}
{"id": "C69", "title": "Reported current speed is that of the motion", "statement": "getCurrentSpeedInUs and getCurrentSpeedInMilliHz return 0 at standstill, otherwise period or frequency of the running command (or of the ramp, as documented) with the sign of the direction.", "quantifier": "every queue history, every state of the ramp, both values of realtime, any uninitialised memory", "why_tests_cant": "all histories and states; the PC tests do not cover SAM arithmetic", "anchors": ["src/FastAccelStepper.cpp:759-795", "src/StepperISR.cpp:284-310", "src/RampGenerator.h:97-103", "src/FastAccelStepper.h:397-420"]}
{"id": "C70", "title": "Sign of the reported acceleration", "statement": "getCurrentAcceleration is 0 while idle or coasting, positive while the speed changes towards positive values and negative while it changes towards negative values.", "quantifier": "every state and configuration of the ramp generator, every command", "why_tests_cant": "all states", "anchors": ["src/RampGenerator.cpp:262-274", "src/FastAccelStepper.h:439-445"]}
{"id": "C71", "title": "Jump start", "statement": "With setJumpStart(j) a move from standstill begins at the speed of ramp step j (v = sqrt(2*a*j)), at most at the configured speed, moves straight to its target and ends there.", "quantifier": "every architecture, acceleration, speed, jump, start and target position, direction of the last move, contents of uninitialised memory", "why_tests_cant": "the only test with a jump start is one long forward move from the initial state", "anchors": ["src/RampGenerator.cpp:168-183", "src/RampConstAcceleration.cpp:120-131", "src/FastAccelStepper.h:470-484"]}
{"id": "C72", "title": "Linear acceleration follows the documented speeds", "statement": "After setAcceleration(a) and setLinearAcceleration(s_h) the speed after s steps from standstill is sqrt(1.5*a)/s_h^(1/6)*s^(2/3) below s_h steps, sqrt(1.5*a*s_h) at s_h steps and sqrt(2*a*(s-s_h/4)) behind, within 1 percent; the ramp length for a speed is the inverse; the speed grows monotonically.", "quantifier": "every architecture, acceleration 1..2^31-1, s_h, ramp step and period", "why_tests_cant": "the space is about 2^96; tests use a few configurations", "anchors": ["src/RampCalculator.h:165-233", "src/PoorManFloat.h:30-40", "src/FastAccelStepper.h:447-484"]}
{"id": "C73", "title": "ESP-IDF 4 RMT drivers: symbols are the commanded steps", "statement": "For every accepted command the RMT words written by the ESP-IDF 4 drivers contain no zero-length half symbol before the end, exactly the commanded number of pulses, pulse k rising k*ticks after the start, and last steps*ticks ticks in total; over all histories the pulses sent plus those waiting are the accepted steps.", "quantifier": "every accepted command (steps 1..255, ticks, pauses), both memory halves, both drivers (ESP32/S2 and C3/S3), every history of commands and interrupts", "why_tests_cant": "the drivers only run on the hardware; unit tests replace them by a stub", "anchors": ["src/StepperISR_idf4_esp32_rmt.cpp:30-200", "src/StepperISR_idf4_esp32c3_rmt.cpp:30-232", "src/StepperISR_idf4_esp32s3_rmt.cpp:30-232"]}
{"id": "C74", "title": "ESP-IDF 4 RMT drivers: direction pin while steps are sent", "statement": "Whenever a part of the symbol memory with steps is sent, the direction pin has the commanded level at its beginning and is not changed by the interrupt that occurs meanwhile. A change of direction after a part with steps is preceded by a part without edges that lasts at least the minimum command time.", "quantifier": "every architecture, both drivers, every history of addQueueEntry (in pieces), interrupts, forceStop and pin configuration, contents of uninitialised memory", "why_tests_cant": "depends on interrupt timing relative to the symbol memory; not run in unit tests", "anchors": ["src/StepperISR_idf4_esp32_rmt.cpp:57-84", "src/StepperISR_idf4_esp32_rmt.cpp:387-497"]}
{"id": "C75", "title": "ESP-IDF 4 RMT drivers: a transmission ends", "statement": "Without further commands the transmitter stops after finitely many parts, with the queue empty and not running, after exactly the accepted steps; forceStop() ends it after at most two further parts without steps; the queue never stays running with the transmitter off; the transmission ends with a pause of at least MIN_CMD_TICKS, during which no commands are taken.", "quantifier": "every history of addQueueEntry (in pieces), interrupts and forceStop", "why_tests_cant": "the hang needs particular interleavings of the task and the RMT interrupt", "anchors": ["src/StepperISR_idf4_esp32_rmt.cpp:219-259", "src/StepperISR_idf4_esp32_rmt.cpp:387-510", "src/StepperISR_idf4_esp32c3_rmt.cpp:273-319"]}
{"id": "C76", "title": "forceStop() adds no further command", "statement": "After forceStop() no further command is put into the queue, also if it interrupts a pass of the background task in the middle; the commands in the queue are carried out and the ramp ends at their end position.", "quantifier": "every state, every later sequence of passes and interrupts, every position of the call inside a pass", "why_tests_cant": "all interleavings of the call with the task and all states of queue and ramp", "anchors": ["src/FastAccelStepper.h:562-569", "src/FastAccelStepper.cpp:665-673"]}
{"id": "C77", "title": "The reported maximum speed can be set", "statement": "getMaxSpeedInHz/MilliHz/Us report the speed limit; the corresponding setSpeed call accepts the reported value. getSpeedInUs reports the configured period in us, rounded down, exactly if it was set in us.", "quantifier": "every speed limit, every configured speed, every architecture", "why_tests_cant": "rounding and 32 bit overflow for 2^16 limits and 2^32 speeds", "anchors": ["src/FastAccelStepper.cpp:796-849", "src/FastAccelStepper.h:356-362", "src/RampGenerator.h:37-62"]}
{"id": "C78", "title": "Configuration calls have their documented effect and no other", "statement": "A new stepper has no pins, no auto enable, no delays and 20 ms forward planning; setDirectionPin sets the pin to the level of the upward direction, which is what the queue relies on; setForwardPlanningTimeInMs stores exactly ms milliseconds; setAutoEnable changes the mode only.", "quantifier": "every stepper, pin, polarity, planning time and architecture", "why_tests_cant": "all configurations; integer overflow of the planning time", "anchors": ["src/FastAccelStepper.cpp:499-592", "src/FastAccelStepper.h:615-618"]}
{"id": "C79", "title": "getPeriodInTicksAfterCommandsCompleted is the time of a step", "statement": "Returns 0 for a stopped motor; otherwise the ticks of the last step command of the ramp together with the pauses belonging to it.", "quantifier": "every state of the ramp generator and every command it issues", "why_tests_cant": "all states of the ramp, periods up to 2^32 ticks", "anchors": ["src/FastAccelStepper.cpp:747-758", "src/FastAccelStepper.h:722-729"]}
{"id": "C80", "title": "MCPWM/PCNT driver emits exactly the commanded pulses", "statement": "Each cycle of the timer has the pulse, the level of the direction pin and the duration that the commands put into the queue ask for, in order, nothing missing and nothing extra.", "quantifier": "every history of addQueueEntry calls (interrupted at any point), timer events and interrupts", "why_tests_cant": "needs real hardware; depends on when commands are queued relative to pulses and on the latch of the pulse counter", "anchors": ["src/StepperISR_idf4_esp32_mcpwm_pcnt.cpp:91-307", "src/StepperISR_idf4_esp32_mcpwm_pcnt.cpp:511-541", "src/StepperISR.cpp:5-151"]}
{"id": "C81", "title": "The correction for late interrupts keeps the number of steps", "statement": "If the interrupt is late and pulses have been counted already, apply_command adjusts the limit such that the command still has its number of steps, wherever a pulse comes in; and the adjustment is reachable.", "quantifier": "every point where a pulse may come in, every counter value, every history", "why_tests_cant": "windows of a few processor cycles inside an interrupt handler", "anchors": ["src/StepperISR_idf4_esp32_mcpwm_pcnt.cpp:155-242"]}
{"id": "C82", "title": "Position with MCPWM/PCNT is the position of the motor", "statement": "getCurrentPosition (start position of the oldest command plus or minus the pulse counter, read twice if the counter is zero) equals the number of pulses up minus down that have been emitted.", "quantifier": "every history and every instant of the reading", "why_tests_cant": "race between reading and interrupt (issue #68); no pulse counter in the simulation", "anchors": ["src/StepperISR.cpp:153-232", "src/StepperISR_idf4_esp32_mcpwm_pcnt.cpp:565-572"]}
{"id": "C83", "title": "MCPWM/PCNT: commands come to an end, forceStop stops within a cycle", "statement": "A running queue ends after the cycles of its commands with the timer off and the queue empty. After forceStop at most one cycle follows, whatever interrupts occur; new commands afterwards are carried out exactly.", "quantifier": "every history before the stop, every order of interrupts after it", "why_tests_cant": "all interleavings of forceStop with hardware events", "anchors": ["src/StepperISR_idf4_esp32_mcpwm_pcnt.cpp:245-307", "src/StepperISR_idf4_esp32_mcpwm_pcnt.cpp:538-557"]}
{"id": "C84", "title": "External direction pin: steps are made at the commanded level", "statement": "With a direction pin behind an external function, every step is made while the pin has the level its command asks for, and no step is made twice: the entry that turns the direction is repeated until the task has switched the pin.", "quantifier": "every order of queueing, interrupts, task calls and answers of the external function", "why_tests_cant": "interleavings of task, interrupt and the pieces of addQueueEntry; level at every single step", "anchors": ["src/StepperISR.cpp:74-110", "src/StepperISR.h:125-136", "src/FastAccelStepper.cpp:335-353", "src/StepperISR_avr.cpp:73-77"]}
{"id": "C85", "title": "External direction pin: the direction turns at pauses only", "statement": "A command with steps is accepted by the queue only behind a command of the same direction; a turn is made by two pauses of 500 us in the new direction, put in front of the command.", "quantifier": "every history of calls, interrupts and refusals", "why_tests_cant": "refusals between the pauses and the command, in any order", "anchors": ["src/FastAccelStepper.cpp:266-320"]}
{"id": "C86", "title": "SAM driver: the pulses are the commanded ones", "statement": "Every command with steps becomes that many rising edges of the step pin at the level of the direction pin it asks for, in order, nothing missing and nothing extra.", "quantifier": "every history of addQueueEntry calls (interrupted at any point), PWM periods and interrupts", "why_tests_cant": "needs real hardware; depends on the order of interrupts, pauses and turns", "anchors": ["src/StepperISR_due.cpp:327-409", "src/StepperISR_due.cpp:121-302", "src/StepperISR_due.cpp:605-687", "src/StepperISR.cpp:5-151"]}
{"id": "C87", "title": "SAM driver: periods and pauses are exact", "statement": "The periods of the PWM channel are exactly the ones commanded: as many per command as it has steps, one without pulse per pause, all with the commanded duration.", "quantifier": "every history of calls, periods and interrupts served within a bounded time", "why_tests_cant": "pauses depend on the time between interrupts (100 us rule) and on leftover status bits", "anchors": ["src/StepperISR_due.cpp:195-215", "src/StepperISR_due.cpp:327-409", "src/StepperISR_due.cpp:605-687"]}
{"id": "C88", "title": "SAM driver: forceStop stops, and later commands are carried out", "statement": "After forceStop no pulse starts until the next command, whatever interrupts occur; commands given afterwards produce exactly their pulses.", "quantifier": "every state before the stop, every order of interrupts after it", "why_tests_cant": "all interleavings of forceStop with periods and interrupts", "anchors": ["src/StepperISR_due.cpp:689-697", "src/StepperISR_due.cpp:327-409"]}
{"id": "C89", "title": "SAM driver: position and end", "statement": "The position read equals the pulses made, at most one less while the interrupt of the last pulse is waiting; a queue with all its periods made is neither running nor filled.", "quantifier": "every history of calls, periods and interrupts", "why_tests_cant": "exactness at every single instant between pulse and interrupt", "anchors": ["src/StepperISR_due.cpp:327-409", "src/StepperISR.cpp:153-190"]}
{"id": "C90", "title": "SAM: step pins and PWM channels", "statement": "No two connected steppers share a PWM channel, the interrupt finds the queue of its channel, a pin is accepted exactly if it has a channel, the channel is free and fewer than six steppers exist, and the documented groups of pins are the channels.", "quantifier": "all sequences of stepperConnectToPin", "why_tests_cant": "all orders of connecting and refusing pins", "anchors": ["src/StepperISR_due.cpp:418-468", "src/StepperISR_due.cpp:699-710", "src/FastAccelStepper.cpp:70-126", "src/FastAccelStepper.h:136"]}
{"id": "C91", "title": "AVR: a move on the step pin", "statement": "After moveTo() or move() of a standing stepper, whatever the task and the timer interrupt do, the step pin has at most |d| pulses, all with the direction pin at the level of the direction of the move, none before the call, consecutive ones at least the set period apart; they are the pulses of the calculated commands (with pauses woven in), each session with exact timing. When the ramp has ended and the queue has run empty there are exactly |d| pulses and the position is the target.", "quantifier": "every history before the call, every configured stepper, every sequence of task passes, interrupts (also inside addQueueEntry) and ticks behind the call, every distance", "why_tests_cant": "composition of ramp generator, front end, queue and interrupt over all interleavings and distances", "anchors": ["src/FastAccelStepper.cpp:131-196", "src/FastAccelStepper.cpp:614-638", "src/StepperISR.cpp:6-110", "src/StepperISR_avr.cpp"]}
{"id": "C92", "title": "ESP32: free pulse counter", "statement": "attachToPulseCounter(unit, low, high) with -N and N makes readPulseCounter() show the steps since then modulo N (add N if negative); with 0 and 0 it is an int16_t counter; with other limits it is exact while within the limits. The steps are those on the step pin with the sign of the direction pin, whatever other steppers and units do. Units 6 and 7 are not used by the steppers. A failing attach changes nothing.", "quantifier": "every unit, N up to 32767, every sequence of edges, attachments, clears and direction pin changes of all steppers", "why_tests_cant": "the PC test build has no pulse counter; wrap-around over all counts and limits", "anchors": ["src/FastAccelStepper.h:747-799", "src/FastAccelStepper_idf4_esp32_pcnt.cpp:21-91", "src/FastAccelStepper_idf5_esp32_pcnt.cpp:21-137"]}
{"id": "C93", "title": "ESP32: hardware of the steppers", "statement": "Each connected stepper gets its own MCPWM timer and pulse counter or its own RMT channel; no module is used before it is switched on and none is reset while in use.", "quantifier": "every sequence of stepperConnectToPin() calls with every driver choice, every chip layout", "why_tests_cant": "the PC test build has no ESP32 peripherals; all orders of connection", "anchors": ["src/StepperISR_esp32.cpp:8-22", "src/StepperISR_idf4_esp32_mcpwm_pcnt.cpp:26-89", "src/StepperISR_idf4_esp32_mcpwm_pcnt.cpp:347-478", "src/StepperISR_idf4_esp32_rmt.cpp:260-314"]}
{"id": "C94", "title": "ESP32: detachFromPin and reAttachToPin", "statement": "After detachFromPin() of a standing stepper the pin is free, after reAttachToPin() it is driven by exactly one channel again, and no channel is lost.", "quantifier": "every sequence of moves, forced stops, detach and attach calls", "why_tests_cant": "the PC test build has no RMT channels; loss shows up only after several rounds", "anchors": ["src/FastAccelStepper.h:742-746", "src/FastAccelStepper.cpp:1063-1064", "src/StepperISR_idf5_esp32_rmt.cpp:189-345"]}
{"id": "C95", "title": "ESP32: time until the outputs are disabled", "statement": "After setDelayToDisable(ms) the outputs of a stepper that has stopped are switched off ms milliseconds later, up to the granularity of the task.", "quantifier": "every ms, every tick period and task rate, every phase of the task", "why_tests_cant": "the PC tests call the task function without time", "anchors": ["src/FastAccelStepper.cpp:606-612", "src/StepperISR_esp32.cpp:103-124", "src/FastAccelStepper.h:103-123"]}
{"id": "C96", "title": "AVR: a punctual task keeps the queue running", "statement": "If every pass of the cyclic task has ended before the planning time less one longest period, and before the time of 15 shortest commands, after the begin of the pass before it, then a moveTo() or move() of a standing stepper is one uninterrupted run of the timer: no command arrives in the last period or behind it, the pulses are exactly those of the calculated commands (and the pauses for direction and enabling) one after the other from the start of the run, and at the end there are exactly |d| of them.", "quantifier": "every history before the call, every configured stepper, every distance, every schedule of passes that keeps this deadline with every placement of the calls of addQueueEntry inside the passes", "why_tests_cant": "real-time property: all schedules and all placements of timer events between and inside the calls", "anchors": ["src/FastAccelStepper.cpp:363-450", "src/StepperISR.cpp:6-110", "src/StepperISR_avr.cpp", "src/StepperISR_avr.cpp:214-236"]}
{"id": "C97", "title": "The commands of a move do not depend on the schedule", "statement": "The commands which a moveTo() or move() of a standing stepper puts into the queue are one fixed list: the commands calculated by the ramp generator, with one pause of the configured direction delay before each step in another direction than the command before. At any time, with any passes of the cyclic task, any refusals (queue full, device not ready, direction pin busy) and any interrupts, the commands accepted so far are the first ones of this list; when the ramp generator has ended they are all of it. Two schedules of the same call thus give the same list.", "quantifier": "every architecture, history before the call, configured stepper, distance and every schedule of passes, refusals and interrupts after it", "why_tests_cant": "all schedules: a test sees one placement of the refusals between the pause and the step behind it", "anchors": ["src/FastAccelStepper.cpp:228-333", "src/FastAccelStepper.cpp:363-450", "src/FastAccelStepper.h:277-290"]}
{"id": "C98", "title": "AVR: exact pulse times of a move, and its end", "statement": "Under a punctual task (C96) every pulse of a moveTo() or move() of a standing stepper with enabled outputs is made at the time given by the fixed list of commands of C97, counted from 10 ticks after the start of the timer in the first pass, with the level of the direction pin of its command. At any time not before the end of this list (counted from the end of the first pass), while the task is in time, the move is complete: ramp generator inactive, timer off, queue empty, exactly |d| pulses, position equal to the target.", "quantifier": "every history before the call, every configured stepper, every distance, every schedule of passes that keeps the deadline with every placement of the calls of addQueueEntry inside the passes", "why_tests_cant": "real-time property: all schedules and all placements of timer events between and inside the calls", "anchors": ["src/FastAccelStepper.cpp:228-333", "src/FastAccelStepper.cpp:363-450", "src/StepperISR.cpp:6-110", "src/StepperISR_avr.cpp:146-236"]}
{"id": "C99", "title": "Thirteen commands of a ramp in a row last at least 98301 ticks", "statement": "Among the commands which the ramp generator calculates for a moveTo() or move() of a standing stepper, every thirteen consecutive ones without the very last one of the move last together at least 98301 ticks (6.1 ms at 16 MHz), whatever the speed limit and the acceleration. So a full queue can not run empty within milliseconds although single commands may be as short as the minimum command time.", "quantifier": "every architecture, history before the call, configured stepper, distance and every window of the commands of the move", "why_tests_cant": "all accelerations, speeds, distances and windows; the shortest windows (last steps of a ramp, split pauses at the speed limit) are rare", "anchors": ["src/RampConstAcceleration.cpp:61-529", "src/RampCalculator.cpp", "src/RampCalculator.h"]}
{"id": "C100", "title": "AVR: a background task every six milliseconds is in time at every speed", "statement": "With a planning time of at least 161535 ticks (10.1 ms; the default is 20 ms), when each pass of the cyclic task ends before 96000 ticks (6 ms) after the begin of the pass before (on the AVR the task comes every 4.096 ms), every pulse of a moveTo() or move() of a standing stepper with enabled outputs is made at the exact time given by its list of commands, and the move is complete at the end of this list: the queue never runs empty before, up to the highest speed of 25000 steps per second.", "quantifier": "every history before the call, every configured stepper, speed, acceleration and distance, every schedule of passes which keeps the deadline with every placement of the calls inside the passes", "why_tests_cant": "real-time property over all schedules, speeds and accelerations", "anchors": ["src/FastAccelStepper.cpp:363-450", "src/RampConstAcceleration.cpp:61-529", "src/StepperISR.cpp:6-110", "src/StepperISR_avr.cpp:146-236"]}
{"id": "C101", "title": "ESP32 (RMT, ESP-IDF 5): a move on the step line", "statement": "After moveTo() or move() of a standing stepper, whatever the task, the encoder and the end interrupt do, there is no undefined behaviour, and the symbols given to the RMT transmitter are those of the commands of the move (with pauses in between), in order; they have at most |d| rising edges, all with the direction pin at the level of the direction of the move, and the pin is not changed while symbols with steps are sent. When the ramp has ended and the queue has run empty there are exactly |d| rising edges, the symbols are complete, and the position is the target. If each pass of the task is followed by enough calls of the encoder to send the queue, finitely many passes lead to this end.", "quantifier": "every history before the call, every configured stepper, both sizes of the symbol memory, every sequence of task passes, encoder calls, end interrupts (also inside addQueueEntry) and ticks behind the call, every distance", "why_tests_cant": "composition of ramp generator, front end, queue and encoder over all interleavings and distances; the tests have no RMT", "anchors": ["src/FastAccelStepper.cpp:131-196", "src/FastAccelStepper.cpp:614-638", "src/StepperISR.cpp:6-110", "src/StepperISR_idf5_esp32_rmt.cpp:10-187", "src/StepperISR_idf5_esp32_rmt.cpp:257-348"]}
{"id": "C102", "title": "ESP32 (RMT, ESP-IDF 4): a move on the step line", "statement": "After moveTo() or move() of a standing stepper, whatever the task and the interrupts do, there is no undefined behaviour, and the parts sent by the RMT hardware have at most |d| rising edges; each part with steps is sent with the direction pin at the level of the direction of the move, from its begin until after the interrupt behind it. When the ramp has ended, the queue has run empty and the hardware is off, there are exactly |d| rising edges, and the position is the target; as long as the hardware is on after the end of the ramp, finitely many interrupts lead there. If each pass of the task is followed by enough interrupts to send the queue, finitely many passes lead to this end.", "quantifier": "every history before the call, every configured stepper, both variants of the driver, any content of the symbol memory, every sequence of task passes, interrupts (also inside addQueueEntry) and ticks behind the call, every distance", "why_tests_cant": "composition of ramp generator, front end, queue and driver over all interleavings and distances; the tests have no RMT", "anchors": ["src/FastAccelStepper.cpp:131-196", "src/FastAccelStepper.cpp:614-638", "src/StepperISR.cpp:6-110", "src/StepperISR_idf4_esp32_rmt.cpp:24-259", "src/StepperISR_idf4_esp32_rmt.cpp:387-503", "src/StepperISR_idf4_esp32c3_rmt.cpp:52-319", "src/StepperISR_idf4_esp32c3_rmt.cpp:511-654"]}
{"id": "C103", "title": "ESP32 (MCPWM/PCNT): a move as pulses of the timer", "statement": "When the MCPWM/PCNT driver has taken the commands of a move behind the commands before it, and its interrupts come in time, the motor has made the way of the earlier commands plus exactly the distance of the move once the driver has stopped with an empty queue, and a running driver comes to this end.", "quantifier": "every history before the call, every configured stepper, every schedule of the task for the commands, every list of earlier commands and every order of calls, timer and counter events of the driver", "why_tests_cant": "the tests have no MCPWM and no pulse counter; what goes wrong depends on the number of steps before a pause", "anchors": ["src/RampConstAcceleration.cpp:61-529", "src/FastAccelStepper.cpp:131-196", "src/FastAccelStepper.cpp:614-638", "src/StepperISR_idf4_esp32_mcpwm_pcnt.cpp:91-307"]}
{"id": "C104", "title": "SAM driver: a move as pulses of the PWM", "statement": "When the SAM driver (Arduino Due) has taken the commands of a move behind the commands before it, and its interrupts come in time, the pulses are those of the commands, and the motor has made the way of the earlier commands plus exactly the distance of the move once the queue is empty and stopped; with handlers within 95 microseconds the periods are those of the commands too, and the driver comes to this end.", "quantifier": "every history before the call, every configured stepper, every schedule of the task for the commands, every history of the driver before the move and every order of calls, periods and interrupts during it", "why_tests_cant": "the tests do not compile the SAM driver; what goes wrong depends on the pause between direction and step and on a queue which is still running", "anchors": ["src/RampConstAcceleration.cpp:61-529", "src/FastAccelStepper.cpp:131-196", "src/FastAccelStepper.cpp:614-638", "src/StepperISR_due.cpp:121-302", "src/StepperISR_due.cpp:327-409", "src/StepperISR_due.cpp:605-687"]}
{"id": "C105", "title": "keepRunning keeps the motor running into its current direction", "statement": "After keepRunning() the stepper runs continuously into the current direction until it is stopped (documented in FastAccelStepper.h).", "quantifier": "every state of the ramp generator, every number of later commands", "why_tests_cant": "the tests call keepRunning in few states; the stored direction, a pending call and the moment of the call decide", "anchors": ["src/FastAccelStepper.h:504-510", "src/FastAccelStepper.cpp:637", "src/RampCalculator.h:83-116", "src/RampConstAcceleration.h:27", "src/RampConstAcceleration.cpp:61-529", "src/RampGenerator.cpp:118-261"]}

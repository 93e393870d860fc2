(** * Queue: the command queue of one stepper
    Model of src/StepperISR.h (class StepperQueue) and src/StepperISR.cpp.

    The array [entry] is a function from slot numbers to entries; [fasDisableInterrupts]
    is not modelled because every function here is an atomic action, except that
    [addQueueEntry] is also available as the three pieces between which the interrupt
    may run ([add_check]/[add_prepare], [add_commit], [add_start]). *)
From Coq Require Import ZArith Bool List.
From Verif Require Import Base.
Import ListNotations.
Open Scope Z_scope.

(** Result codes: src/FastAccelStepper.h:687-694 *)
Definition AQE_OK : Z := 0.
Definition AQE_QUEUE_FULL : Z := 1.
Definition AQE_DIR_PIN_IS_BUSY : Z := 2.
Definition AQE_WAIT_FOR_ENABLE_PIN_ACTIVE : Z := 3.
Definition AQE_DEVICE_NOT_READY : Z := 4.
Definition AQE_ERROR_TICKS_TOO_LOW : Z := -1.
Definition AQE_ERROR_EMPTY_QUEUE_TO_START : Z := -2.
Definition AQE_ERROR_NO_DIR_PIN_TO_TOGGLE : Z := -3.

(** src/FastAccelStepper.h:256-257 *)
Definition PIN_UNDEFINED : Z := 255.
Definition PIN_EXTERNAL_FLAG : Z := 128.
Definition is_external (pin : Z) : bool := negb (Z.land pin PIN_EXTERNAL_FLAG =? 0).

(** struct queue_entry: src/StepperISR.h:11-31. [e_pos16] is end_pos_last16 or
    start_pos_last16, depending on the architecture. *)
Record entry := mkEntry {
  e_steps : Z;        (* uint8_t *)
  e_toggle : bool;
  e_up : bool;
  e_more : bool;
  e_has : bool;
  e_repeat : bool;
  e_dirstate : bool;
  e_ticks : Z;        (* uint16_t *)
  e_pos16 : Z         (* uint16_t *)
}.

(** class StepperQueue: src/StepperISR.h:33-119. [q_running] stands for isRunning(). *)
Record queue := mkQueue {
  q_ent : Z -> entry;
  q_ignore : bool;
  q_rd : Z;           (* uint8_t *)
  q_wr : Z;           (* uint8_t *)
  q_hcu : bool;       (* dirHighCountsUp *)
  q_pin : Z;          (* dirPin *)
  q_running : bool;
  q_end : queue_end;
  q_max : Z           (* max_speed_in_ticks *)
}.

Definition set_ent f q := mkQueue f (q_ignore q) (q_rd q) (q_wr q) (q_hcu q) (q_pin q)
  (q_running q) (q_end q) (q_max q).
Definition set_ignore b q := mkQueue (q_ent q) b (q_rd q) (q_wr q) (q_hcu q) (q_pin q)
  (q_running q) (q_end q) (q_max q).
Definition set_rd i q := mkQueue (q_ent q) (q_ignore q) i (q_wr q) (q_hcu q) (q_pin q)
  (q_running q) (q_end q) (q_max q).
Definition set_wr i q := mkQueue (q_ent q) (q_ignore q) (q_rd q) i (q_hcu q) (q_pin q)
  (q_running q) (q_end q) (q_max q).
Definition set_dir pin hcu q := mkQueue (q_ent q) (q_ignore q) (q_rd q) (q_wr q) hcu pin
  (q_running q) (q_end q) (q_max q).
Definition set_running b q := mkQueue (q_ent q) (q_ignore q) (q_rd q) (q_wr q) (q_hcu q) (q_pin q)
  b (q_end q) (q_max q).
Definition set_end e q := mkQueue (q_ent q) (q_ignore q) (q_rd q) (q_wr q) (q_hcu q) (q_pin q)
  (q_running q) e (q_max q).
Definition set_max m q := mkQueue (q_ent q) (q_ignore q) (q_rd q) (q_wr q) (q_hcu q) (q_pin q)
  (q_running q) (q_end q) m.

(** array update *)
Definition upd {T : Type} (f : Z -> T) (i : Z) (x : T) : Z -> T :=
  fun j => if j =? i then x else f j.

(** Levels of the output pins *)
Definition pins := Z -> bool.

Section WithArch.
Variable A : arch.
(** SUPPORT_EXTERNAL_DIRECTION_PIN: defined for ESP32 and most AVR, not for SAM and PC *)
Variable EXT : bool.

(** [entry[i & QUEUE_LEN_MASK]]: src/StepperISR.h:9 *)
Definition slot (i : Z) : Z := Z.land i (QUEUE_LEN A - 1).

(** src/StepperISR.cpp:312-349 (_initVars); the entries are uninitialised memory *)
Definition q_init (garbage : Z -> entry) (test : bool) : queue :=
  mkQueue garbage false 0 0 true PIN_UNDEFINED false (mkQueueEnd 0 true true)
    (if test then TICKS_PER_S A / 50000 else TICKS_PER_S A / 1000).

(** src/StepperISR.h:115-124 *)
Definition queueEntries (q : queue) : Z := u8 (q_wr q - q_rd q).
Definition isQueueFull (q : queue) : bool := queueEntries q =? QUEUE_LEN A.
Definition isQueueEmpty (q : queue) : bool := queueEntries q =? 0.

(** the entry at the read index *)
Definition head (q : queue) : entry := q_ent q (slot (q_rd q)).

(** src/StepperISR.cpp:66-69: [command_rate_ticks] (uint32_t) *)
Definition command_rate_ticks (c : command) : Z :=
  if c_steps c >? 1 then u32 (c_ticks c * c_steps c) else c_ticks c.

(** First part of addQueueEntry: src/StepperISR.cpp:11-25, 66-72. [ready] is the
    result of isReadyForCommands(); AQE_OK means the command will be prepared. *)
Definition add_check (ready : bool) (c : command) (q : queue) : Z :=
  if negb ready then AQE_DEVICE_NOT_READY
  else if isQueueFull q then AQE_QUEUE_FULL
  else if command_rate_ticks c <? MIN_CMD_TICKS A then AQE_ERROR_TICKS_TOO_LOW
  else AQE_OK.

(** src/StepperISR.cpp:76-100: the pin is written directly? *)
Definition direct_dir (q : queue) : bool :=
  negb (q_pin q =? PIN_UNDEFINED) && (isQueueEmpty q && negb (q_running q))
  && negb (is_external (q_pin q)).
Definition cmd_dir (c : command) (q : queue) : bool := Bool.eqb (c_up c) (q_hcu q).
Definition dir_differs (c : command) (q : queue) : bool :=
  negb (q_pin q =? PIN_UNDEFINED) && negb (direct_dir q)
  && negb (Bool.eqb (cmd_dir c q) (qe_dir (q_end q))).
Definition to_repeat (c : command) (q : queue) : bool :=
  EXT && dir_differs c q && is_external (q_pin q).

(** src/StepperISR.cpp:111-120 *)
Definition next_pos (c : command) (q : queue) : Z :=
  i32 (if c_up c then qe_pos (q_end q) + c_steps c else qe_pos (q_end q) - c_steps c).
Definition next_end (c : command) (q : queue) : queue_end :=
  mkQueueEnd (next_pos c q) (c_up c) (cmd_dir c q).

(** the new entry: src/StepperISR.cpp:101-118 *)
Definition new_entry (c : command) (q : queue) : entry :=
  mkEntry (c_steps c) (dir_differs c q && negb (to_repeat c q)) (c_up c)
    (c_steps c >? 1) (c_steps c >? 0) (to_repeat c q) (cmd_dir c q) (c_ticks c)
    (u16 (if END_POS A then next_pos c q else qe_pos (q_end q))).

(** Middle part: src/StepperISR.cpp:74-120. Fills the free slot, writes the pin. *)
Definition add_prepare (c : command) (q : queue) (p : pins) : queue * pins :=
  let q1 := set_ent (upd (q_ent q) (slot (q_wr q)) (new_entry c q)) q in
  if direct_dir q
  then (set_end (mkQueueEnd (qe_pos (q_end q)) (qe_up (q_end q)) (cmd_dir c q)) q1,
        upd p (q_pin q) (cmd_dir c q))
  else (q1, p).

(** Critical section: src/StepperISR.cpp:122-133 *)
Definition add_commit (ready : bool) (ne : queue_end) (q : queue) : queue * Z :=
  if q_ignore q then (q, AQE_OK)
  else if ready then (set_end ne (set_wr (u8 (q_wr q + 1)) q), AQE_OK)
  else (q, AQE_DEVICE_NOT_READY).

(** src/StepperISR.cpp:135-141: [true] if startQueue() is called. startQueue() sets
    _isRunning on all architectures (the RMT driver only if the queue is not empty). *)
Definition add_starts (start : bool) (q : queue) : bool := negb (q_running q) && start.
Definition add_start (start : bool) (q : queue) : queue :=
  if add_starts start q then set_running true q else q.

(** Result of a complete addQueueEntry: queue, pins, return code, startQueue called *)
Record added := mkAdded { a_q : queue; a_pins : pins; a_code : Z; a_started : bool }.

(** addQueueEntry with a command, uninterrupted: src/StepperISR.cpp:5-151 *)
Definition q_add (ready1 ready2 : bool) (c : command) (start : bool) (q : queue) (p : pins) : added :=
  if add_check ready1 c q =? AQE_OK then
    let '(q1, p1) := add_prepare c q p in
    let '(q2, code) := add_commit ready2 (next_end c q) q1 in
    if code =? AQE_OK
    then mkAdded (add_start start q2) p1 AQE_OK (add_starts start q2)
    else mkAdded q2 p1 code false
  else mkAdded q p (add_check ready1 c q) false.

(** addQueueEntry(NULL, start): src/StepperISR.cpp:11-22 *)
Definition q_add_null (ready : bool) (start : bool) (q : queue) (p : pins) : added :=
  if negb ready then mkAdded q p AQE_DEVICE_NOT_READY false
  else if start && negb (q_running q) then
    if q_wr q =? q_rd q then mkAdded q p AQE_ERROR_EMPTY_QUEUE_TO_START false
    else mkAdded (set_running true q) p AQE_OK true
  else mkAdded q p AQE_OK false.

(** ** Queries *)
(** src/StepperISR.cpp:188-213: move [pos] by at most a quarter of 2^16 so that its
    upper half belongs to [pos16]; all unsigned 32 bit *)
Definition transition (pos pos16 : Z) : Z :=
  Z.lor (Z.land (Z.shiftr (u16 pos) 12) 12) (Z.shiftr pos16 14).
Definition lift16 (pos pos16 : Z) : Z :=
  let t := transition pos pos16 in
  let pos1 :=
    if (t =? 1) || (t =? 6) || (t =? 11) || (t =? 12) then u32 (pos + 16384)
    else if (t =? 4) || (t =? 9) || (t =? 14) || (t =? 3) then u32 (pos - 16384)
    else pos in
  Z.lor (Z.land pos1 4294901760) pos16.

(** src/StepperISR.cpp:153-236. [done_p] is the pulse counter (ESP32 only); the second
    reading for [done_p = 0] gives the same values when nothing happens in between. *)
Definition getCurrentPosition (done_p : Z) (q : queue) : Z :=
  let pos := u32 (qe_pos (q_end q)) in
  let e := head q in
  if q_rd q =? q_wr q then i32 pos
  else
    let pos1 := lift16 pos (e_pos16 e) in
    let adjust :=
      if e_steps e =? 0 then 0
      else if e_up e then (if END_POS A then - e_steps e else i16 done_p)
      else (if END_POS A then e_steps e else - i16 done_p) in
    i32 (u32 (pos1 + adjust)).

(** The loops over the entries behind the first one, as recursion on the number of
    entries; src/StepperISR.cpp:238-259 *)
Fixpoint ticks_loop (q : queue) (n : nat) (rp : Z) (ticks : Z) : Z :=
  match n with
  | O => ticks
  | S n' =>
    let e := q_ent q (slot rp) in
    let t1 := u32 (ticks + e_ticks e) in
    let t2 := if e_steps e >? 1 then u32 (t1 + u32 (e_ticks e * (e_steps e - 1))) else t1 in
    ticks_loop q n' (u8 (rp + 1)) t2
  end.
Definition ticksInQueue (q : queue) : Z :=
  if q_wr q =? q_rd q then 0
  else ticks_loop q (Z.to_nat (u8 (q_wr q - u8 (q_rd q + 1)))) (u8 (q_rd q + 1)) 0.

(** src/StepperISR.cpp:261-282 *)
Fixpoint has_ticks_loop (q : queue) (n : nat) (rp : Z) (min_ticks : Z) : bool :=
  match n with
  | O => false
  | S n' =>
    let e := q_ent q (slot rp) in
    let tmp := u32 (e_ticks e * fas_max (e_steps e) 1) in
    if tmp >=? min_ticks then true
    else has_ticks_loop q n' (u8 (rp + 1)) (u32 (min_ticks - tmp))
  end.
Definition hasTicksInQueue (min_ticks : Z) (q : queue) : bool :=
  if q_wr q =? q_rd q then false
  else has_ticks_loop q (Z.to_nat (u8 (q_wr q - u8 (q_rd q + 1)))) (u8 (q_rd q + 1)) min_ticks.

(** src/StepperISR.cpp:284-310: (valid, ticks, count_up); [None] where the code does
    not write the field *)
Definition getActualTicksWithDirection (q : queue) : bool * option Z * option bool :=
  if q_wr q =? q_rd q then (true, Some 0, None)
  else
    let e := head q in
    if e_has e then
      let valid := e_more e ||
        (negb (q_wr q =? u8 (q_rd q + 1)) && e_has (q_ent q (slot (u8 (q_rd q + 1))))) in
      (valid, Some (e_ticks e), Some (e_up e))
    else (false, None, None).

(** ** Actions of the interrupt routine on the queue *)
(** some steps of the current entry are done: [e->steps -= k] (AVR k = 1:
    src/StepperISR_avr.cpp:169-172; RMT: src/StepperISR_idf5_esp32_rmt.cpp:176-184) *)
Definition q_dec (k : Z) (q : queue) : queue :=
  let e := head q in
  set_ent (upd (q_ent q) (slot (q_rd q))
    (mkEntry (u8 (e_steps e - k)) (e_toggle e) (e_up e) (e_more e) (e_has e) (e_repeat e)
       (e_dirstate e) (e_ticks e) (e_pos16 e))) q.
(** the current entry is finished: [read_idx = rp + 1] *)
Definition q_pop (q : queue) : queue := set_rd (u8 (q_rd q + 1)) q.
(** forceStop(): [_isRunning = false; read_idx = next_write_idx] (AVR, ESP32) *)
Definition q_clear (q : queue) : queue := set_running false (set_rd (q_wr q) q).

End WithArch.

(** The part of setCurrentPosition() that concerns the queue:
    src/FastAccelStepper.cpp:850-859. The subtraction and addition of int32_t may
    overflow (undefined in C++); they wrap here. *)
Definition q_setCurrentPosition (A : arch) (done_p new_pos : Z) (q : queue) : queue :=
  let delta := i32 (new_pos - getCurrentPosition A done_p q) in
  set_end (mkQueueEnd (i32 (qe_pos (q_end q) + delta)) (qe_up (q_end q)) (qe_dir (q_end q))) q.
(** setPositionAfterCommandsCompleted(): src/FastAccelStepper.cpp:860-869 *)
Definition q_setPositionAfter (new_pos : Z) (q : queue) : queue :=
  set_end (mkQueueEnd new_pos (qe_up (q_end q)) (qe_dir (q_end q))) q.

(** * RmtV4: the ESP32 RMT driver for ESP-IDF 4
    Model of src/StepperISR_idf4_esp32_rmt.cpp (ESP32, ESP32-S2; "old") and
    src/StepperISR_idf4_esp32c3_rmt.cpp, src/StepperISR_idf4_esp32s3_rmt.cpp (ESP32-C3, ESP32-S3; "new";
    the two files differ in register names only). Line numbers refer to the first file, those after
    "new:" to the second one.

    The symbol memory has two parts, which the hardware sends one after the other again and again
    (continuous mode). Whenever it has begun with a part, an interrupt fills the other one with the
    next (part of a) command. Symbols are as in [Rmt]. *)
From Coq Require Import ZArith Bool List.
From Verif Require Import Base Queue QueueHist Rmt.
Import ListNotations.
Open Scope Z_scope.

Section Driver.
(** ESP32-C3 or ESP32-S3? *)
Variable N : bool.
(** PART_SIZE: line 22; new: lines 29-36 *)
Definition psize : Z := if N then 23 else 31.
Notation P := psize.

(** ** The symbols *)
(** two half symbols of [t] ticks altogether: lines 104-108; new: lines 132-136 *)
Definition pair_symbol (t : Z) : Z :=
  Z.lor (u32 (Z.shiftl (Z.shiftr t 1) 16)) (u16 (t - Z.shiftr t 1)).
(** [last_entry] before it is stored: lines 178-187; new: lines 211-221. [two]: the second part is
    filled. The hardware loses one tick at the end of the memory; the new one does not. *)
Definition fin (two : bool) (w : Z) : Z := if two && negb N then u32 (w - 1) else w.

(** A pause: lines 98-108; new: lines 128-141. [ticks] is uint16_t. *)
Definition v4_pause (two : bool) (t : Z) : list Z :=
  if N then [pair_symbol (u16 (t - ((P - 2) * 4 + 8)))] ++ times (P - 2) 131074 ++ [fin two 262148]
  else times (P - 1) 65538 ++ [fin two (pair_symbol (u16 (t - 3 * (P - 1))))].

(** What the last step of a part is shortened by, and the last symbol: lines 155-161; new: 188-194 *)
Definition v4_delta (n : Z) : Z :=
  if N then u32 (Z.shiftl ((P - n) * 4 + 8) 16) else u32 (Z.shiftl (P - n) 18).
Definition v4_filler : Z := if N then 262148 else 131074.
(** Steps: lines 110-177; new: lines 143-210. The symbols written and the steps left. With 65535
    ticks and at least PART_SIZE/2 steps only PART_SIZE - 1 symbols are written. *)
Definition v4_steps (two : bool) (s t : Z) : list Z * Z :=
  if t =? 65535 then
    if s <? P / 2 then
      (concat (times (s - 1) long_step)
         ++ [Z.lor 1073774591 32768; u32 (536879104 - u16 (Z.shiftl (u16 (P - 2 * s)) 5))]
         ++ times (P - 1 - 2 * s) 1048592 ++ [fin two 1048592], 0)
    else
      (concat (times (P / 2 - 1) long_step) ++ [Z.lor 1073774591 32768; fin two 536879104],
       u8 (s - P / 2))
  else if (s <? 2 * P) && negb (s =? P) then
    let n := if s >? P then s / 2 else s in
    (times (n - 1) (step_symbol t)
       ++ [u32 (step_symbol t - v4_delta n)]
       ++ times (P - 1 - n) 131074 ++ [fin two v4_filler], u8 (s - n))
  else (times (P - 1) (step_symbol t) ++ [fin two (step_symbol t)], u8 (s - P)).
(** One part of a command: lines 90-187; new: lines 121-221 *)
Definition v4_part (two : bool) (s t : Z) : list Z * Z :=
  if s =? 0 then (v4_pause two t, 0) else v4_steps two s t.
(** All parts of a command, when nothing else comes in between: the parts alternate *)
Fixpoint v4_parts (n : nat) (two : bool) (s t : Z) : list (bool * list Z) :=
  match n with
  | O => []
  | S n' => let r := v4_part two s t in
            (two, fst r) :: (if snd r =? 0 then [] else v4_parts n' (negb two) (snd r) t)
  end.
(** 255 steps need at most 24 parts *)
Definition v4_encoded (two : bool) (s t : Z) : list (bool * list Z) := v4_parts 26 two s t.

(** ** The driver *)
Section Arch.
Variable A : arch.
Variable EXT : bool.

(** lines 57-62, new: lines 87-93: no command for the first part: about 1 ms.
    0x01020102 = 65537 * (8000 / 31) *)
Definition idle_words : list Z := times P (65537 * (8000 / P)).
(** lines 77-80, new: lines 109-112: pause before a direction change. 61 = 2 * 31 - 1 *)
Definition turn_words : list Z := times P (u32 (65537 * ((MIN_CMD_TICKS A + 2 * P - 1) / (2 * P)))).
(** lines 38-41, new: lines 68-71: the pauses at the end *)
Definition stop_words : list Z := times P (u32 (65537 * ((MIN_CMD_TICKS A + 61) / 62))).

(** A part of the memory. [b_steps]: bufferContainsSteps[]. [b_want] is not in the code: level of the
    direction pin commanded by the entry the part has been filled with. *)
Record buf := mkBuf { b_words : list Z; b_steps : bool; b_want : bool }.
(** [w_r]: queue, pins and _rmtStopped ([r_last] is not used by this driver).
    [w_conti]: tx_conti_mode *)
Record v4 := mkV4 { w_r : rmt; w_conti : bool; w_one : buf; w_two : buf }.
Definition part_of (two : bool) (w : v4) : buf := if two then w_two w else w_one w.
Definition put (two : bool) (b : buf) (w : v4) : v4 :=
  if two then mkV4 (w_r w) (w_conti w) (w_one w) b else mkV4 (w_r w) (w_conti w) b (w_two w).
Definition with_r (r : rmt) (w : v4) : v4 := mkV4 r (w_conti w) (w_one w) (w_two w).
Definition stopped (b : bool) (r : rmt) : rmt := mkRmt (r_q r) (r_pins r) b (r_last r).
Definition mkrun (b : bool) (r : rmt) : rmt := mkRmt (set_running b (r_q r)) (r_pins r) (r_stopped r) (r_last r).
Definition words (ws : list Z) (b : buf) : buf := mkBuf ws (b_steps b) (b_want b).
(** writing [ws] leaves the words behind them as they are *)
Definition over (ws old : list Z) : list Z := ws ++ skipn (length ws) old.

(** stop_rmt(): lines 24-46. The end marker behind the parts is always there. *)
Definition stop4 (both : bool) (w : v4) : v4 :=
  mkV4 (stopped true (w_r w)) false
    (if both then words stop_words (w_one w) else w_one w) (words stop_words (w_two w)).

(** apply_command() for the first or the second part: lines 48-198; new: lines 78-232 *)
Definition apply4 (two : bool) (w : v4) : v4 :=
  let q := r_q (w_r w) in
  if q_rd q =? q_wr q then
    if two then stop4 false w
    else put false (mkBuf idle_words false (b_want (w_one w))) w
  else if e_toggle (head A q) && b_steps (part_of (negb two) w) then
    put two (mkBuf turn_words false (b_want (part_of two w))) w
  else
    let r := toggle_first A (w_r w) in
    let e := head A (r_q r) in
    let x := v4_part two (e_steps e) (e_ticks e) in
    put two (mkBuf (over (fst x) (b_words (part_of two w))) (negb (e_steps e =? 0))
               (Bool.eqb (e_up e) (q_hcu (r_q r))))
      (with_r (mkRmt (if snd x =? 0 then (if e_repeat e then r_q r else q_pop (r_q r))
                      else set_first A (with_steps (snd x) e) (r_q r))
                 (r_pins r) (r_stopped r) (r_last r)) w).

(** The pattern written by the old driver before starting: lines 412-420 *)
Fixpoint alternating (n : nat) (a b : Z) : list Z :=
  match n with O => [] | S n' => a :: alternating n' b a end.
Definition pattern (w : v4) : v4 :=
  if N then w
  else mkV4 (w_r w) (w_conti w)
         (words (alternating (Z.to_nat P) 268406783 2147454975) (w_one w))
         (words (alternating (Z.to_nat P) 2147454975 268406783) (w_two w)).
Definition flags_on (w : v4) : v4 :=
  mkV4 (w_r w) (w_conti w) (mkBuf (b_words (w_one w)) true (b_want (w_one w)))
    (mkBuf (b_words (w_two w)) true (b_want (w_two w))).
(** startQueue_rmt(): lines 387-497; new: lines 511-639. The second component tells whether the
    hardware has been started. The new driver does not reset _rmtStopped at the end. *)
Definition start4 (w : v4) : v4 * bool :=
  let w0 := pattern (with_r (stopped false (mkrun true (w_r w))) w) in
  let q := r_q (w_r w0) in
  if q_rd q =? q_wr q then (w0, false)
  else
    let w1 := flags_on (with_r (toggle_first A (w_r w0)) w0) in
    let w2 := apply4 true (apply4 false w1) in
    (mkV4 (if N then w_r w2 else stopped false (w_r w2)) true (w_one w2) (w_two w2), true).

(** forceStop_rmt(): lines 498-503. [_isRunning] is left to the interrupt. *)
Definition clear4 (r : rmt) : rmt := mkRmt (set_rd (q_wr (r_q r)) (r_q r)) (r_pins r) (r_stopped r) (r_last r).
Definition forceStop4 (w : v4) : v4 := let w1 := stop4 true w in with_r (clear4 (w_r w1)) w1.
(** the same in two pieces: up to line 42, and the rest *)
Definition forceStop4a (w : v4) : v4 :=
  mkV4 (w_r w) false (words stop_words (w_one w)) (words stop_words (w_two w)).
Definition forceStop4b (w : v4) : v4 := with_r (clear4 (stopped true (w_r w))) w.

(** ** Histories *)
(** The hardware: off, sending the first part, sending the second part, or repeating the memory
    without interrupts *)
Inductive phase := Off | One | Two | Loop.
(** A part sent. [x_before], [x_after]: level of the direction pin when the hardware begins with it,
    and after the interrupt that follows; [x_want]: commanded level *)
Record chunk := mkChunk {
  x_two : bool; x_words : list Z; x_pin : bool; x_before : bool; x_after : bool; x_want : bool
}.
Record vst := mkV {
  v_w : v4; v_pc : pc; v_hw : phase; v_acc : list command; v_log : list chunk
}.
Definition v_q (s : vst) : queue := r_q (w_r (v_w s)).
Definition level (w : v4) : bool := r_pins (w_r w) (q_pin (r_q (w_r w))).
(** the hardware begins with a part; [w1] is the state after the interrupt *)
Definition chunk_of (two : bool) (w w1 : v4) : chunk :=
  mkChunk two (b_words (part_of two w)) (has_pin (r_q (w_r w))) (level w) (level w1)
    (b_want (part_of two w)).

Inductive vevent :=
| VBegin (c : command) (start : bool)
| VCommit
| VStart
| VAddNull
| VSent                 (* the hardware is through with a part *)
| VStop                 (* forceStop_rmt() *)
| VStopA | VStopB       (* the same in two pieces *)
| VIgnore (b : bool)
| VSetDir (pin : Z) (hcu : bool)
| VOther (level : bool)
| VSetPos (p : Z).

Definition with_vq (q : queue) (s : vst) : v4 := with_r (with_rq q (w_r (v_w s))) (v_w s).
Definition start_v (s : vst) : vst :=
  let x := start4 (v_w s) in
  mkV (fst x) Free (if snd x then One else Off) (v_acc s)
    (if snd x then v_log s ++ [chunk_of false (fst x) (fst x)] else v_log s).

(** tx_intr_handler(): lines 219-259; new: lines 273-319. [One]: threshold interrupt. [Two]: end
    interrupt of the old hardware (the new one has another threshold interrupt in continuous mode,
    and an end interrupt otherwise). The handler is assumed to be done before the part that has
    just begun has been sent. *)
Definition sent (s : vst) : vst :=
  let w := v_w s in
  match v_hw s with
  | Off | Loop => s
  | One =>
    let w1 := if negb N && r_stopped (w_r w) then w else apply4 false w in
    mkV w1 (v_pc s) Two (v_acc s) (v_log s ++ [chunk_of true w w1])
  | Two =>
    let done := with_r (mkrun false (w_r w)) w in
    if w_conti w then
      if negb N && r_stopped (w_r w)
      then mkV done (v_pc s) Loop (v_acc s) (v_log s ++ [chunk_of false w done])
      else mkV (apply4 true w) (v_pc s) One (v_acc s) (v_log s ++ [chunk_of false w (apply4 true w)])
    else mkV (if N || r_stopped (w_r w) then done else apply4 true w) (v_pc s) Off (v_acc s) (v_log s)
  end.

Definition vstep (ev : vevent) (s : vst) : vst :=
  let w := v_w s in let r := w_r w in let q := r_q r in
  match ev with
  | VBegin c start =>
    match v_pc s with
    | Free =>
      if add_check A (ready_rmt r) c q =? AQE_OK
      then mkV (with_r (mkRmt (fst (add_prepare A EXT c q (r_pins r))) (snd (add_prepare A EXT c q (r_pins r)))
                  (r_stopped r) (r_last r)) w) (Prepared c (next_end c q) start) (v_hw s) (v_acc s) (v_log s)
      else s
    | _ => s
    end
  | VCommit =>
    match v_pc s with
    | Prepared c ne start =>
      let x := add_commit (ready_rmt r) ne q in
      mkV (with_vq (fst x) s) (if snd x =? AQE_OK then Committed start else Free) (v_hw s)
        (if q_ignore q then v_acc s else if ready_rmt r then v_acc s ++ [c] else v_acc s) (v_log s)
    | _ => s
    end
  | VStart =>
    match v_pc s with
    | Committed start =>
      if add_starts start q then start_v s else mkV w Free (v_hw s) (v_acc s) (v_log s)
    | _ => s
    end
  | VAddNull =>
    match v_pc s with
    | Free => if a_started (q_add_null (ready_rmt r) true q (r_pins r)) then start_v s else s
    | _ => s
    end
  | VSent => sent s
  | VStop =>
    match v_pc s with
    | Free => mkV (forceStop4 w) Free (match v_hw s with Loop => Off | h => h end) (v_acc s) (v_log s)
    | _ => s
    end
  | VStopA => mkV (forceStop4a w) (v_pc s) (match v_hw s with Loop => Off | h => h end) (v_acc s) (v_log s)
  | VStopB => mkV (forceStop4b w) (v_pc s) (v_hw s) (v_acc s) (v_log s)
  | VIgnore b => mkV (with_vq (set_ignore b q) s) (v_pc s) (v_hw s) (v_acc s) (v_log s)
  | VSetDir pin hcu =>
    if negb (nonempty q) && negb (q_running q) && is_free (v_pc s)
    then mkV (with_r (mkRmt (set_dir pin hcu q)
               (if (pin =? PIN_UNDEFINED) || is_external pin then r_pins r else upd (r_pins r) pin hcu)
               (r_stopped r) (r_last r)) w) (v_pc s) (v_hw s) (v_acc s) (v_log s)
    else s
  | VOther lv =>
    if negb (nonempty q) && negb (q_running q) && is_free (v_pc s)
    then mkV (with_r (mkRmt q (upd (r_pins r) (q_pin q) lv) (r_stopped r) (r_last r)) w)
           (v_pc s) (v_hw s) (v_acc s) (v_log s)
    else s
  | VSetPos p =>
    match v_pc s with
    | Free => mkV (with_vq (set_end (mkQueueEnd p (qe_up (q_end q)) (qe_dir (q_end q))) q) s) Free
                (v_hw s) (v_acc s) (v_log s)
    | _ => s
    end
  end.
Fixpoint vrun (evs : list vevent) (s : vst) : vst :=
  match evs with [] => s | e :: t => vrun t (vstep e s) end.

(** init_rmt(): lines 260-353. The memory may contain anything. *)
Definition vinit (garbage : Z -> entry) (mem : Z -> Z) (p : pins) (test : bool) : vst :=
  let part a := map (fun k => mem (a + Z.of_nat k)) (seq 0 (Z.to_nat P)) in
  mkV (mkV4 (mkRmt (q_init A garbage test) p true false) false
         (mkBuf (part 0) false false) (mkBuf (part P) false false)) Free Off [] [].

End Arch.
End Driver.

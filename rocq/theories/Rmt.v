(** * Rmt: the ESP32 RMT driver (ESP-IDF 5)
    Model of src/StepperISR_idf5_esp32_rmt.cpp: the encoder callback, which turns the
    queue entries into RMT symbols, and the functions starting and stopping it.

    An RMT symbol is a 32 bit word made of two half symbols, the lower 16 bit being sent
    first. Bit 15 of a half symbol is the level, the other bits are the duration in ticks;
    a duration of 0 marks the end of the transmission. *)
From Coq Require Import ZArith Bool List.
From Verif Require Import Base Queue QueueHist.
Import ListNotations.
Open Scope Z_scope.

(** ** What the hardware makes of the symbols *)
Definition half (h : Z) : bool * Z := (Z.testbit h 15, h mod 32768).
Definition halves (ws : list Z) : list (bool * Z) :=
  flat_map (fun w => [half (w mod 65536); half (w / 65536)]) ws.
(** joins neighbours of the same level *)
Fixpoint join (l : list (bool * Z)) : list (bool * Z) :=
  match l with
  | [] => []
  | (b, d) :: t =>
    match join t with
    | (b', d') :: t' => if Bool.eqb b b' then (b, d + d') :: t' else (b, d) :: (b', d') :: t'
    | [] => [(b, d)]
    end
  end.
(** the signal: levels and durations *)
Definition signal (ws : list Z) : list (bool * Z) := join (halves ws).
(** number of rising edges after level [lvl] *)
Fixpoint rises (lvl : bool) (l : list (bool * Z)) : Z :=
  match l with
  | [] => 0
  | (b, _) :: t => (if b && negb lvl then 1 else 0) + rises b t
  end.
Definition duration (ws : list Z) : Z := fold_right Z.add 0 (map snd (halves ws)).

Section Part.
(** PART_SIZE, line 8: half of the symbol memory; 32 (ESP32, ESP32-S2) or 24 (others),
    src/fas_arch/common_esp32_idf5.h:15-98 *)
Variable P : Z.

Definition times {T} (n : Z) (x : T) : list T := repeat x (Z.to_nat n).

(** ENTER_PAUSE, lines 18-30: the symbols and [last_entry] before it is stored *)
Definition pause_half (t : Z) : Z := u16 (t / (2 * P)).
Definition pause_rest (t : Z) : Z := u16 (t - 2 * (P - 1) * pause_half t).
Definition pause_last (t : Z) : Z :=
  65536 * (pause_rest t / 2) + u16 (pause_rest t - pause_rest t / 2).
Definition pause_main (t : Z) : list Z := times (P - 1) (u32 (65537 * pause_half t)).
(** [uint32_t last_entry], lines 89-92, 174 *)
Definition pause_part (t : Z) : list Z := pause_main t ++ [u32 (pause_last t)].
(** [uint16_t last_entry], lines 57-59 and 72-74 *)
Definition short_part (t : Z) : list Z := pause_main t ++ [u16 (pause_last t)].

(** lines 132-136, 152-156 *)
Definition step_symbol (t : Z) : Z :=
  let l := Z.shiftr t 1 in
  Z.lor (u32 (Z.shiftl l 16)) (Z.lor (u16 (t - l)) 32768).

(** lines 95-162: the symbols of a part with steps and the remaining steps *)
Definition long_step : list Z := [Z.lor 1073774591 32768; 536879104].
Definition steps_part (s t : Z) : list Z * Z :=
  if t =? 65535 then
    if s <? P / 2 then
      (concat (times (s - 1) long_step)
         ++ [Z.lor 1073774591 32768; u32 (536879104 - u16 (Z.shiftl (u16 (P - 2 * s)) 5))]
         ++ times (P - 1 - 2 * s) 1048592 ++ [1048592], 0)
    else
      (concat (times (P / 2 - 1) long_step) ++ [Z.lor 1073774591 32768; 536879104], u8 (s - P / 2))
  else if (s <? 2 * P) && negb (s =? P) then
    let n := if s >? P then s / 2 else s in
    (times (n - 1) (step_symbol t)
       ++ [u32 (step_symbol t - u32 (Z.shiftl (P - n) 18))]
       ++ times (P - 1 - n) 131074 ++ [131074], u8 (s - n))
  else (times (P - 1) (step_symbol t) ++ [step_symbol t], u8 (s - P)).

(** one part of a command, lines 84-174 *)
Definition part (s t : Z) : list Z * Z :=
  if s =? 0 then (pause_part t, 0) else steps_part s t.
(** all parts of one command; [n] bounds the number of parts *)
Fixpoint parts (n : nat) (s t : Z) : list (list Z) :=
  match n with
  | O => []
  | S n' => let r := part s t in
            fst r :: (if snd r =? 0 then [] else parts n' (snd r) t)
  end.
(** 255 steps need at most 22 parts *)
Definition encoded (s t : Z) : list (list Z) := parts 24 s t.

(** ** The driver *)
Section Arch.
Variable A : arch.
Variable EXT : bool.

(** The fields of the driver: src/StepperISR.h:70-78 *)
Record rmt := mkRmt {
  r_q : queue;
  r_pins : pins;
  r_stopped : bool;       (* _rmtStopped *)
  r_last : bool           (* lastChunkContainsSteps *)
}.

Definition untoggle (e : entry) : entry :=
  mkEntry (e_steps e) false (e_up e) (e_more e) (e_has e) (e_repeat e) (e_dirstate e) (e_ticks e) (e_pos16 e).
Definition with_steps (n : Z) (e : entry) : entry :=
  mkEntry n (e_toggle e) (e_up e) (e_more e) (e_has e) (e_repeat e) (e_dirstate e) (e_ticks e) (e_pos16 e).
Definition set_first (e : entry) (q : queue) : queue :=
  set_ent (upd (q_ent q) (slot A (q_rd q)) e) q.

(** lines 66-82, 295-298: the direction pin is toggled on request *)
Definition toggle_first (r : rmt) : rmt :=
  if e_toggle (head A (r_q r))
  then mkRmt (set_first (untoggle (head A (r_q r))) (r_q r))
         (upd (r_pins r) (q_pin (r_q r)) (negb (r_pins r (q_pin (r_q r))))) (r_stopped r) (r_last r)
  else r.

(** lines 84-186 *)
Definition encode_first (r : rmt) : rmt * list Z :=
  let e := head A (r_q r) in
  let (ws, left) := part (e_steps e) (e_ticks e) in
  (mkRmt (if left =? 0 then (if e_repeat e then r_q r else q_pop (r_q r))
          else set_first (with_steps left e) (r_q r))
     (r_pins r) (r_stopped r) (negb (e_steps e =? 0)), ws).

(** encode_commands(): lines 32-187: (new state, symbols, done) *)
Definition encode (free : Z) (r : rmt) : rmt * list Z * bool :=
  if free <? P then (r, [], false)
  else if r_stopped r then (r, [], true)
  else if q_rd (r_q r) =? q_wr (r_q r)
  then (mkRmt (r_q r) (r_pins r) true (r_last r), short_part (MIN_CMD_TICKS A), false)
  else if e_toggle (head A (r_q r)) && r_last r
  then (mkRmt (r_q r) (r_pins r) (r_stopped r) false, short_part (MIN_CMD_TICKS A), false)
  else (encode_first (toggle_first r), false).

(** startQueue_rmt(): lines 257-333, with a channel *)
Definition start_rmt (r : rmt) : rmt :=
  if q_rd (r_q r) =? q_wr (r_q r) then r
  else let r1 := toggle_first r in mkRmt (set_running true (r_q r1)) (r_pins r1) false false.
(** forceStop_rmt(): lines 334-342 *)
Definition stop_rmt (r : rmt) : rmt := mkRmt (q_clear (r_q r)) (r_pins r) true (r_last r).
(** queue_done(): lines 10-16 *)
Definition done_rmt (r : rmt) : rmt := mkRmt (set_running false (r_q r)) (r_pins r) (r_stopped r) (r_last r).
(** isReadyForCommands_rmt(): lines 343-348 *)
Definition ready_rmt (r : rmt) : bool := if q_running (r_q r) then negb (r_stopped r) else true.

(** ** Histories
    As in [QueueHist]: addQueueEntry in pieces, the encoder in between. *)
(** One call of the encoder that gave symbols. [k_first]: the first call of a transmission. *)
Record call := mkCall {
  k_first : bool;
  k_words : list Z;
  k_toggled : bool;       (* the call changed the direction pin *)
  k_pin : bool;           (* has the queue a direction pin of its own *)
  k_level : bool;         (* level of the pin after the call *)
  k_want : bool           (* level commanded by the entry encoded *)
}.
Record rst := mkR {
  g_r : rmt;
  g_pc : pc;
  g_fresh : bool;                 (* transmission started, encoder not yet called *)
  g_acc : list command;           (* commands taken into the queue *)
  g_log : list call
}.

Inductive revent :=
| RBegin (c : command) (start : bool)
| RCommit
| RStart
| RAddNull
| REncode (free : Z)
| RDone
| RStop
| RIgnore (b : bool)
| RSetDir (pin : Z) (hcu : bool)
| ROther (level : bool)
| RSetPos (p : Z).

Definition with_rq q r := mkRmt q (r_pins r) (r_stopped r) (r_last r).
Definition start_g (s : rst) : rst :=
  mkR (start_rmt (g_r s)) Free (g_fresh s || nonempty (r_q (g_r s))) (g_acc s) (g_log s).

(** the call of the encoder and its record *)
Definition call_of (s : rst) (free : Z) : call :=
  let r := g_r s in let r1 := fst (fst (encode free r)) in
  mkCall (g_fresh s) (snd (fst (encode free r)))
    (negb (Bool.eqb (r_pins r1 (q_pin (r_q r))) (r_pins r (q_pin (r_q r)))))
    (has_pin (r_q r)) (r_pins r1 (q_pin (r_q r)))
    (Bool.eqb (e_up (head A (r_q r))) (q_hcu (r_q r))).

Definition rstep (ev : revent) (s : rst) : rst :=
  let r := g_r s in let q := r_q r in
  match ev with
  | RBegin c start =>
    match g_pc s with
    | Free =>
      if add_check A (ready_rmt r) c q =? AQE_OK
      then mkR (mkRmt (fst (add_prepare A EXT c q (r_pins r))) (snd (add_prepare A EXT c q (r_pins r)))
                  (r_stopped r) (r_last r)) (Prepared c (next_end c q) start)
             (g_fresh s) (g_acc s) (g_log s)
      else s
    | _ => s
    end
  | RCommit =>
    match g_pc s with
    | Prepared c ne start =>
      let x := add_commit (ready_rmt r) ne q in
      mkR (with_rq (fst x) r) (if snd x =? AQE_OK then Committed start else Free) (g_fresh s)
        (if q_ignore q then g_acc s else if ready_rmt r then g_acc s ++ [c] else g_acc s) (g_log s)
    | _ => s
    end
  | RStart =>
    match g_pc s with
    | Committed start => if add_starts start q then start_g s else mkR r Free (g_fresh s) (g_acc s) (g_log s)
    | _ => s
    end
  | RAddNull =>
    match g_pc s with
    | Free => if a_started (q_add_null (ready_rmt r) true q (r_pins r)) then start_g s else s
    | _ => s
    end
  | REncode free =>
    if q_running q then
      match snd (fst (encode free r)) with
      | [] => mkR (fst (fst (encode free r))) (g_pc s) (g_fresh s) (g_acc s) (g_log s)
      | _ => mkR (fst (fst (encode free r))) (g_pc s) false (g_acc s) (g_log s ++ [call_of s free])
      end
    else s
  | RDone =>
    (* the driver reports the end only after the encoder has reported it *)
    if q_running q && r_stopped r then mkR (done_rmt r) (g_pc s) false (g_acc s) (g_log s) else s
  | RStop =>
    match g_pc s with
    | Free => mkR (stop_rmt r) Free false (g_acc s) (g_log s)
    | _ => s
    end
  | RIgnore b => mkR (with_rq (set_ignore b q) r) (g_pc s) (g_fresh s) (g_acc s) (g_log s)
  | RSetDir pin hcu =>
    if negb (nonempty q) && negb (q_running q) && is_free (g_pc s)
    then mkR (mkRmt (set_dir pin hcu q)
               (if (pin =? PIN_UNDEFINED) || is_external pin then r_pins r else upd (r_pins r) pin hcu)
               (r_stopped r) (r_last r)) (g_pc s) (g_fresh s) (g_acc s) (g_log s)
    else s
  | ROther level =>
    if negb (nonempty q) && negb (q_running q) && is_free (g_pc s)
    then mkR (mkRmt q (upd (r_pins r) (q_pin q) level) (r_stopped r) (r_last r)) (g_pc s) (g_fresh s)
           (g_acc s) (g_log s)
    else s
  | RSetPos p =>
    match g_pc s with
    | Free => mkR (with_rq (set_end (mkQueueEnd p (qe_up (q_end q)) (qe_dir (q_end q))) q) r) Free
                (g_fresh s) (g_acc s) (g_log s)
    | _ => s
    end
  end.

Fixpoint rrun (evs : list revent) (s : rst) : rst :=
  match evs with [] => s | e :: t => rrun t (rstep e s) end.

(** init_rmt(): lines 189-226 *)
Definition rinit (garbage : Z -> entry) (p : pins) (test : bool) : rst :=
  mkR (mkRmt (q_init A garbage test) p true false) Free false [] [].

End Arch.
End Part.

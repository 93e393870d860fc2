(** * MoveTimed: moveTimed()
    Model of src/FastAccelStepper.cpp:914-1062. *)
From Coq Require Import ZArith Bool List Lia.
From Verif Require Import Base RampCalc RampGen Queue Stepper.
Import ListNotations.
Open Scope Z_scope.

(** src/FastAccelStepper.h:660-663 *)
Definition MOVE_TIMED_OK : Z := 0.
Definition MOVE_TIMED_BUSY : Z := 5.
Definition MOVE_TIMED_EMPTY : Z := 6.
Definition MOVE_TIMED_TOO_LARGE_ERROR : Z := -4.

(** ** The commands, which the three loops try to queue

    They do not depend on the results of addQueueEntry, except that the loops stop with the
    first nonzero one; so they are computed first. Every command comes with the value which
    is added to *actual_duration. *)

(** Pauses: lines 936-958 *)
Definition pause_piece (d : Z) : Z :=
  if d <=? 65535 then d else if d >=? 131072 then 65535 else Z.shiftr d 1.
Fixpoint pause_cmds (fuel : nat) (d : Z) : list (command * Z) :=
  match fuel with
  | O => []
  | S n => if d >? 0
           then (mkCommand (pause_piece d) 0 true, pause_piece d) :: pause_cmds n (d - pause_piece d)
           else []
  end.

(** One slow step: lines 989-1011; [k] is cmd.steps. For a remaining duration of 131072 the
    value stored in cmd.ticks is 0; as such a command is never accepted, the loop ends with
    it (in the model: [fuel]). *)
Definition slow_piece (d : Z) : Z :=
  if d >? 131072 then 65535 else if d >? 65535 then u16 (d / 2) else u16 d.
Fixpoint slow_cmds (fuel : nat) (up : bool) (k : Z) (d : Z) : list (command * Z) :=
  match fuel with
  | O => []
  | S n => if negb (d =? 0)
           then (mkCommand (slow_piece d) k up, slow_piece d) :: slow_cmds n up 0 (u32 (d - slow_piece d))
           else []
  end.
Definition piece_fuel (d : Z) : nat := Z.to_nat (d / 32768 + 1).
Fixpoint repeat_cmds (n : nat) (l : list (command * Z)) : list (command * Z) :=
  match n with O => [] | S m => l ++ repeat_cmds m l end.

(** Fast steps: lines 1032-1060; [ticks] is cmd.ticks, [missing] an int16_t *)
Definition fast_chunk (steps : Z) : Z :=
  if steps >? 510 then 255 else if steps >? 255 then steps / 2 else steps.
Fixpoint fast_cmds (fuel : nat) (up : bool) (steps ticks missing : Z) : list (command * Z) :=
  match fuel with
  | O => []
  | S n =>
    if steps >? 0 then
      let more := steps <=? missing in
      let t := if more then u16 (ticks + 1) else ticks in
      (mkCommand t (fast_chunk steps) up, u32 (t * steps))
      :: fast_cmds n up (steps - fast_chunk steps) t (if more then 0 else missing)
    else []
  end.
Definition fast_fuel (steps : Z) : nat := Z.to_nat (steps / 128 + 1).

Section Send.
Variable A : arch.
Variable W : Type.
(** addQueueEntry(&cmd, start), addQueueEntry(NULL, true), queueEntries() of the stepper *)
Variable add : command -> W -> W * Z.
Variable null : W -> W.
Variable entries : W -> Z.

(** the loops: state, first nonzero return value or 0, *actual_duration *)
Fixpoint send (l : list (command * Z)) (w : W) (act : Z) : W * Z * Z :=
  match l with
  | [] => (w, AQE_OK, act)
  | (c, d) :: l' =>
    let r := add c w in
    if snd r =? AQE_OK then send l' (fst r) (u32 (act + d)) else (fst r, snd r, act)
  end.

(** Tests and commands for a move: [inl] return code, [inr] commands. [steps] and [duration]
    are not both zero; [free] is freeEntries (uint8_t). Arithmetic of
    int and uint32_t with 32 bit int; the negation of -32768 gives -32768 (on AVR, where int
    has 16 bits, it is undefined). *)
Definition mt_plan (steps duration free : Z) : Z + list (command * Z) :=
  if steps =? 0 then
    if Z.shiftr duration 16 >=? QUEUE_LEN A then inl MOVE_TIMED_TOO_LARGE_ERROR
    else if Z.shiftr duration 16 >=? free then inl MOVE_TIMED_BUSY
    else inr (pause_cmds (piece_fuel duration) duration)
  else
    let up := negb (steps <? 0) in
    let steps := if steps <? 0 then i16 (- steps) else steps in
    let rate := duration / u32 steps in
    if rate >? 65535 then
      let cmds_per_step := u16 (Z.shiftr rate 16 + 1) in
      if cmds_per_step >=? QUEUE_LEN A then inl MOVE_TIMED_TOO_LARGE_ERROR
      else if steps >=? QUEUE_LEN A then inl MOVE_TIMED_TOO_LARGE_ERROR
      else
        let cmds := u8 (steps * cmds_per_step) in
        if cmds >=? QUEUE_LEN A then inl MOVE_TIMED_TOO_LARGE_ERROR
        else if cmds >? free then inl MOVE_TIMED_BUSY
        else inr (repeat_cmds (Z.to_nat steps) (slow_cmds (piece_fuel rate) up 1 rate))
    else if steps >? QUEUE_LEN A * 255 then inl MOVE_TIMED_TOO_LARGE_ERROR
    else if steps >? free * 255 then inl MOVE_TIMED_BUSY
    else
      let missing := i16 (duration - u32 (rate * u32 steps)) in
      inr (fast_cmds (fast_fuel steps) up steps rate missing).

(** Result: state, return code, *actual_duration ([None]: not written) *)
Definition moveTimed (steps duration : Z) (start : bool) (w : W) : W * Z * option Z :=
  let ret_ok := if entries w =? 0 then MOVE_TIMED_EMPTY else MOVE_TIMED_OK in
  if (steps =? 0) && (duration =? 0) then ((if start then null w else w), ret_ok, None)
  else
    match mt_plan steps duration (u8 (QUEUE_LEN A - entries w)) with
    | inl code => (w, code, Some 0)
    | inr l =>
      let r := send l w 0 in
      (fst (fst r), (if snd (fst r) =? AQE_OK then ret_ok else snd (fst r)), Some (snd r))
    end.
End Send.

(** * P_User: calls of the user, C54 to C67 and C38 *)
From Coq Require Import ZArith Bool List Lia Reals.
From Verif Require Import Base Pmf RampCalc RampCalcFacts RampGen RampStep RampRun Queue QueueFacts QueueHist
  Stepper StepperHist FrontHist FrontProp FrontFill FrontTask FrontStart FrontMove UserHist UserRamp UserFront UserPlan UserShift.
Import ListNotations.
Open Scope Z_scope.
Ltac Zify.zify_post_hook ::= idtac.

(** ** Objects of the examples *)
Definition no_entry : Z -> entry := fun _ => mkEntry 0 false false false false false false 0 0.
Definition low : pins := fun _ => false.
Definition at_pos (p : Z) : queue_end := mkQueueEnd p true true.
Definition olds1 : nat -> next_command := fun _ => mkNext (mkCommand 0 0 true) (mkRw 0 0 0 0).
Definition olds2 : nat -> next_command := fun _ => mkNext (mkCommand 9 9 false) (mkRw 1 2 3 4).
(** a generator with acceleration [a] steps/s^2 and one step every [M] ticks *)
Definition set_up (a M : Z) : rampgen := rg_setSpeedInTicks M (fst (rg_setAcceleration a (rg_init 0))).
(** the generator and the planned position after [n] rounds *)
Definition rounds (A : arch) (n : nat) (g : rampgen) (qe : queue_end) : option (rampgen * queue_end) :=
  match ramp_run A true olds1 n g qe with Some (_, g, qe) => Some (g, qe) | None => None end.
(** direction pin 5, low active enable pin 6 *)
Definition a_motor (dirpin : Z) (g : rampgen) : stepper :=
  st_rg g (st_auto true 1 (st_enpins 6 PIN_UNDEFINED (st_dir dirpin true 0 (s_init arch_avr 0 9)))).
Definition motor0 (dirpin : Z) (g : rampgen) : stepper * hq := finit arch_avr no_entry low low 320 (a_motor dirpin g).

(** ** C54: without speed and acceleration nothing moves

    In every history of calls and rounds, in which the speed or the acceleration is never
    set, the ramp stays inactive and issues no command; every move is refused with an error. *)
Theorem C54_refused_history : forall A olds l u,
  existsb sets_speed l && existsb sets_accel l = false ->
  exists r, urun A olds l (rg_init u) = Some r
    /\ Forall (fun o => o_active o = false /\ o_cmd o = None /\ o_acceleration o = 0) r
    /\ Forall2 (fun c o => is_move c = true -> o_code o = -2 \/ o_code o = -3) l r.
Proof. exact (fun A olds l u => inert_hist A olds l (rg_init u) false false (quiet_init u)). Qed.
(** A refused call changes nothing, in any state *)
Theorem C54_refused_unchanged : forall g, let code := if valid_speed (rg_params g) then -3 else -2 in
  valid_speed (rg_params g) && valid_acceleration (rg_params g) = false ->
  (forall up, rg_startRun up g = (g, code)) /\ (forall pos qe, rg_moveTo pos qe g = (g, code))
  /\ (forall d, rg_move d g = (g, code)) /\ (forall a, a <= 0 -> rg_setAcceleration a g = (g, -1)).
Proof. exact refused_calls. Qed.
Definition bad_calls : list ucall :=
  [CMove 5; CAccel 0; CSpeed 1000; CRun true; CNext (at_pos 0) true; CMoveTo 7 (at_pos 0); CAccel (-3)].
Example C54_example : existsb sets_speed bad_calls && existsb sets_accel bad_calls = false
  /\ option_map (map o_code) (urun arch_avr olds1 bad_calls (rg_init 5)) = Some [-2; -1; 0; -3; 0; -3; -1].
Proof. vm_compute. auto. Qed.

(** ** C55: uninitialised memory is never seen

    [rg_init] leaves the acceleration undefined, the task leaves its command undefined
    [olds]: whatever they contain, the return codes, commands and queries are the same. *)
Theorem C55_uninitialised_unused : forall A olds1 olds2 a b l, Forall ucall_ok l ->
  urun A olds1 l (rg_init a) = urun A olds2 l (rg_init b).
Proof. exact uninitialised_unused. Qed.
Definition short_move : list ucall := [CSpeed 8000; CAccel 10000; CMove 1; CNext (at_pos 0) true;
  CNext (at_pos 1) true; CNext (at_pos 1) true; CNext (at_pos 1) true; CMove 1].
Example C55_example :
  match urun arch_avr olds1 short_move (rg_init 3) with
  | Some r => map o_active r = [false; false; true; true; true; false; false; true]
      /\ nth 3 (map o_cmd r) None = Some (mkCommand 56608 1 true)
  | None => False
  end.
Proof. vm_compute. auto. Qed.
(** Exception: stepsToStop() of a ramp which has not issued a command since its last end *)
Theorem C55_steps_to_stop_refuted : exists l,
  match ufinal arch_avr olds1 l (rg_init 0), ufinal arch_avr olds2 l (rg_init 0) with
  | Some g1, Some g2 => isRampGeneratorActive g1 = true /\ rg_stepsToStop g1 <> rg_stepsToStop g2
  | _, _ => False
  end.
Proof. exists short_move. vm_compute. split; [reflexivity|discriminate]. Qed.

(** ** C56: results and levels of enableOutputs and disableOutputs *)
Theorem C56_enable_result : forall ext s p,
  snd (enableOutputs ext s p) = true <->
  forall pin level, (pin, level) = (s_low s, false) \/ (pin, level) = (s_high s, true) ->
    pin <> PIN_UNDEFINED -> is_external pin = true -> forall f, ext = Some f -> f pin level = level.
Proof. exact enable_result. Qed.
Theorem C56_disable_result : forall ext s q p, disable_allowed s q = true ->
  (snd (disableOutputs ext s q p) = true <->
   forall pin level, (pin, level) = (s_low s, true) \/ (pin, level) = (s_high s, false) ->
    pin <> PIN_UNDEFINED -> is_external pin = true -> forall f, ext = Some f -> f pin level = level).
Proof. exact disable_result. Qed.
Theorem C56_enable_levels : forall ext s p, let p' := fst (enableOutputs ext s p) in
  (driven (s_high s) -> p' (s_high s) = true)
  /\ (driven (s_low s) -> s_low s <> s_high s -> p' (s_low s) = false)
  /\ (forall x, x <> s_low s -> x <> s_high s -> p' x = p x).
Proof. exact enable_levels. Qed.
Theorem C56_disable_levels : forall ext s q p, disable_allowed s q = true ->
  let p' := snd (fst (disableOutputs ext s q p)) in
  (driven (s_high s) -> p' (s_high s) = false)
  /\ (driven (s_low s) -> s_low s <> s_high s -> p' (s_low s) = true)
  /\ (forall x, x <> s_low s -> x <> s_high s -> p' x = p x).
Proof. exact disable_levels. Qed.
(** low active pin 6, high active pin 7; an external high active pin whose function refuses *)
Example C56_example :
  let s := st_enpins 6 7 (a_motor 5 (rg_init 0)) in let q := fqueue (motor0 5 (rg_init 0)) in
  let e := st_enpins 6 (PIN_EXTERNAL_FLAG + 7) (a_motor 5 (rg_init 0)) in
  disable_allowed s q = true /\ driven (s_low s) /\ driven (s_high s)
  /\ map (fst (enableOutputs None s (fun _ => true))) [5; 6; 7] = [true; false; true]
  /\ map (snd (fst (disableOutputs None s q low))) [5; 6; 7] = [false; true; false]
  /\ snd (enableOutputs (Some (fun _ _ => false)) e low) = false
  /\ snd (enableOutputs (Some (fun _ v => v)) e low) = true.
Proof. vm_compute. repeat split; try reflexivity; discriminate. Qed.

(** ** C57: the delay of the automatic disable in ticks of the task, at least 2 *)
Theorem C57_delay_to_disable : forall A ms s, In A all_archs -> 0 <= ms ->
  s_off (setDelayToDisable A ms s) = (if ms =? 0 then 1 else Z.max 2 (ms / DELAY_MS_BASE A)).
Proof. exact delay_to_disable. Qed.
Example C57_example : map (fun ms => s_off (setDelayToDisable arch_avr ms (a_motor 5 (rg_init 0)))) [0; 1; 5; 100; 65535]
  = [1; 2; 2; 25; 16383].
Proof. vm_compute. reflexivity. Qed.

(** ** C58: a single step of an idle motor

    After any history with the device ready, forwardStep and backwardStep add pauses
    (delays) and one single step *)
Theorem C58_single_step_partial : forall A EXT garbage p ep m s0 evs ext up ws, In A all_archs ->
  conf_ok s0 -> Forall fev_ok evs ->
  let x := frun A EXT evs (finit A garbage p ep m s0) in
  let s := fst x in let q := fqueue x in
  conf24 A s -> queueEntries q = 0 -> q_running q = false -> isRampGeneratorActive (s_rg s) = false ->
  q_ignore q = false -> Forall StepperHist.ready ws -> responsive s ext -> distinct_pins s -> q_max q <= MIN_CMD_TICKS A ->
  (s_dirpin s = PIN_UNDEFINED -> up = true) ->
  let r := performOneStep A hq (hacc A EXT) ext false up s (set_w ws (snd x)) in
  snd r = AQE_OK /\ exists pauses, Forall (fun c => c_steps c = 0 /\ c_up c = up) pauses
    /\ h_acc (hq_h (snd (fst r))) = accepted_cmds x ++ pauses ++ [mkCommand (MIN_CMD_TICKS A) 1 up].
Proof.
  exact (fun A EXT garbage p ep m s0 evs ext up ws HA Hc He Hc24 Hn Hrun Hact Hi Hw Hr Hd Hm Hp =>
    one_step A EXT HA ext up _ _ (good_w A ws _ (proj1 (history_good A EXT HA garbage p ep m s0 evs Hc He)))
      Hc24 Hn Hrun Hact Hi Hw Hr Hd Hm Hp).
Qed.
(** a running motor is left alone *)
Theorem C58_running_unchanged : forall A EXT ext busy up s t, s_isRunning s (h_q (hq_h t)) = true ->
  performOneStep A hq (hacc A EXT) ext busy up s t = (s, t, AQE_OK).
Proof. exact (fun A EXT ext busy up s t => one_step_running A EXT ext busy up s t). Qed.
Definition forward_step (x : stepper * hq) : stepper * hq * Z :=
  performOneStep arch_avr hq (hacc arch_avr false) None false true (fst x) (snd x).
Example C58_example :
  let x := motor0 5 (rg_init 0) in
  conf24 arch_avr (fst x) /\ queueEntries (fqueue x) = 0 /\ q_ignore (fqueue x) = false /\ distinct_pins (fst x)
  /\ accepted_cmds (fst (forward_step x)) = [mkCommand 640 1 true]
  /\ s_isRunning (fst (fst (forward_step x))) (fqueue (fst (forward_step x))) = true.
Proof. vm_compute. intuition (try discriminate). Qed.
(** After forceStopAndNewPosition(), forwardStep() returns OK and does nothing. *)
Theorem C58_after_force_stop_refuted : exists x,
  let y := force_stop_at arch_avr false 0 x in
  s_isRunning (fst y) (fqueue y) = false /\ snd (forward_step y) = AQE_OK
  /\ accepted_cmds (fst (forward_step y)) = [] /\ accepted_cmds x = [].
Proof. exists (motor0 5 (set_up 10000 8000)). vm_compute. auto. Qed.

(** On AVR with three steppers the speed limit is 20 kHz: 800 ticks. The step of 640 ticks is
    refused, and the code returned by addQueueEntry is dropped: a single step is impossible. *)
Definition third_stepper : stepper * hq :=
  finit arch_avr no_entry low low (800) (a_motor 5 (rg_init 0)).
Theorem C58_three_steppers_refuted : exists x,
  q_max (fqueue x) = 800 /\ s_isRunning (fst x) (fqueue x) = false /\ snd (forward_step x) = AQE_ERROR_TICKS_TOO_LOW
  /\ accepted_cmds (fst (forward_step x)) = [] /\ accepted_cmds x = [].
Proof. exists third_stepper. vm_compute. auto. Qed.

(** ** C59: forceStopAndNewPosition

    From the call on nothing moves, whatever the task and the interrupts do; the position is
    the new one. What was left in the queue is dropped. *)
Theorem C59_force_stop : forall A EXT pos x l, -2147483648 <= pos < 2147483648 ->
  h_pc (hq_h (snd x)) = Free ->
  exists y, trun A EXT l (force_stop_at A EXT pos x) = Some y
    /\ s_isRunning (fst y) (fqueue y) = false
    /\ (forall done_p, getCurrentPosition A done_p (fqueue y) = pos)
    /\ rg_targetPosition (s_rg (fst y)) = pos
    /\ accepted_cmds y = accepted_cmds x
    /\ h_left (hq_h (snd y)) = h_left (hq_h (snd x)) ++ pend_cmds (h_done (hq_h (snd x))) (pend A (fqueue x)).
Proof. exact force_stop_lemma. Qed.
(** [force_stop_at] is the modelled call *)
Theorem C59_force_stop_call : forall A EXT pos x, h_pc (hq_h (snd x)) = Free ->
  let r := s_forceStopAndNewPosition pos (fst x) (fqueue x) in
  fst (force_stop_at A EXT pos x) = fst r /\ fqueue (force_stop_at A EXT pos x) = snd r.
Proof. exact (fun A EXT pos x H => conj eq_refl (force_stop_queue A EXT pos x H)). Qed.
Definition some_pass : task := TFill None (fun _ => false) 40 (olds2 O) [].
Definition moving : option (stepper * hq) :=
  trun arch_avr false [some_pass]
    (fst (s_moveTo 1000 (a_motor 5 (set_up 10000 8000)) (fqueue (motor0 5 (rg_init 0)))), snd (motor0 5 (rg_init 0))).
Example C59_example :
  match moving with
  | Some x => s_isRunning (fst x) (fqueue x) = true /\ h_pc (hq_h (snd x)) = Free /\ length (accepted_cmds x) = 7%nat
    /\ match trun arch_avr false [some_pass; TIsr [EPop; EStop]; some_pass] (force_stop_at arch_avr false 77 x) with
       | Some y => getCurrentPosition arch_avr 0 (fqueue y) = 77
       | None => False
       end
  | None => False
  end.
Proof. vm_compute. auto. Qed.

(** ** C60: the sign of getCurrentAcceleration

    Counting up, a positive value means that the motor does not become slower and a negative
    one that it does not become faster (both up to the speed limit); counting down the signs
    are exchanged. Zero: the speed is unchanged. *)
Theorem C60_acceleration_sign_partial : forall A qe old g g' n, rg_getNextCommand A qe old g = Some (g', n) ->
  let M := min_travel_ticks (parameters (ro_config (rg_ro g'))) in
  let h := rg_afterCommandEnqueued n g' in
  let T0 := rw_curr_ticks (rg_rw g) in let T1 := rw_curr_ticks (rg_rw h) in
  let acc := rg_getCurrentAcceleration h in
  c_ticks (n_cmd n) <> 0 -> rw_pause_left (rg_rw g) = 0 -> T0 <> TICKS_FOR_STOPPED_MOTOR -> 0 <= T0 ->
  0 <= M <= 2147483648 -> rw_pause_left (rg_rw h) < 2147483648 -> 0 < rg_acceleration g < 2147483648 ->
  (acc = 0 -> T1 = T0)
  /\ (acc > 0 -> if c_up (n_cmd n) then T1 <= T0 else Z.min T0 M <= T1)
  /\ (acc < 0 -> if c_up (n_cmd n) then Z.min T0 M <= T1 else T1 <= T0)
  /\ Z.abs acc <= rg_acceleration g.
Proof. exact sign_lemma. Qed.
Example C60_example :
  match rounds arch_avr 6 (fst (rg_moveTo (-200) (at_pos 0) (set_up 10000 8000))) (at_pos 0) with
  | Some (g, qe) =>
    rw_pause_left (rg_rw g) = 0 /\ rw_curr_ticks (rg_rw g) <> TICKS_FOR_STOPPED_MOTOR
    /\ match rg_getNextCommand arch_avr qe (olds1 O) g with
       | Some (g', n) => c_ticks (n_cmd n) <> 0 /\ c_up (n_cmd n) = false
           /\ rg_getCurrentAcceleration (rg_afterCommandEnqueued n g') = -10000
           /\ rw_curr_ticks (rg_rw (rg_afterCommandEnqueued n g')) < rw_curr_ticks (rg_rw g)
       | None => False
       end
  | None => False
  end.
Proof. vm_compute. repeat split; congruence. Qed.

(** ** C61: setEnablePin never gives both roles to one pin *)
Theorem C61_enable_pins_distinct : forall l A u step p, let s := set_pins l (s_init A u step) p in
  driven (s_low s) -> s_low s <> s_high s.
Proof. exact (fun l A u step p => set_pins_distinct l (s_init A u step) p (fun H => match proj1 H eq_refl with end)). Qed.
Theorem C61_enable_pin_set : forall ext pin low s p, (driven (s_low s) -> s_low s <> s_high s) ->
  let s' := fst (setEnablePin ext pin low s p) in if low then s_low s' = pin else s_high s' = pin.
Proof. exact (fun ext pin low s p H => proj2 (setEnablePin_distinct ext pin low s p H)). Qed.
Example C61_example :
  let s l := set_pins l (s_init arch_avr 0 9) low in
  let r l := (s_low (s l), s_high (s l)) in
  r [(None, 6, true); (None, 7, false)] = (6, 7) /\ r [(None, 6, true); (None, 6, false)] = (PIN_UNDEFINED, 6)
  /\ driven (s_low (s [(None, 6, true)])).
Proof. vm_compute. intuition discriminate. Qed.

(** ** C62: moves in the negative direction without a direction pin

    move() refuses them *)
Theorem C62_move_refused : forall d s, s_dirpin s = PIN_UNDEFINED -> d < 0 -> s_move d s = (s, -1).
Proof. exact move_no_dir. Qed.
Example C62_example : s_move (-1) (a_motor PIN_UNDEFINED (set_up 10000 8000)) = (a_motor PIN_UNDEFINED (set_up 10000 8000), -1)
  /\ snd (s_move (-1) (a_motor 5 (set_up 10000 8000))) = MOVE_OK.
Proof. vm_compute. auto. Qed.
(** moveTo() and runBackward() accept them, contrary to their description; the motor never
    moves and the ramp is stopped with an error of the queue nobody sees. *)
Theorem C62_other_moves_refuted : exists x, s_dirpin (fst x) = PIN_UNDEFINED
  /\ snd (s_run false (fst x)) = MOVE_OK
  /\ let r := s_moveTo (-5) (fst x) (fqueue x) in snd r = MOVE_OK
  /\ isRampGeneratorActive (s_rg (fst r)) = true
  /\ match trun arch_avr false [some_pass] (fst r, snd x) with
     | Some y => s_isRunning (fst y) (fqueue y) = false /\ accepted_cmds y = []
     | None => False
     end.
Proof. exists (motor0 PIN_UNDEFINED (set_up 10000 8000)). vm_compute. auto 10. Qed.

(** ** C63: how far a pass of fill_queue plans ahead

    After a pass on a ready queue without interrupts: the ramp has ended, or has no command,
    or the queue is full, or it contains at least two commands and the planning time. *)
Theorem C63_plans_ahead_partial : forall A EXT garbage p ep m s0 evs ext fuel old s' t', In A all_archs ->
  conf_ok s0 -> Forall fev_ok evs ->
  let x := frun A EXT evs (finit A garbage p ep m s0) in
  let s := fst x in
  (forall pins, snd (enableOutputs ext s pins) = true) -> is_external (s_dirpin s) = false ->
  checkValidConfig (rg_params (s_rg s)) = MOVE_OK -> QUEUE_LEN A < Z.of_nat fuel ->
  fill_queue A hq (hacc A EXT) ext (fun _ => false) fuel old s (set_w [] (snd x)) = Some (s', t') ->
  isRampGeneratorActive (s_rg s') = false \/ no_command A s' \/ queueEntries (h_q (hq_h t')) = QUEUE_LEN A
  \/ 2 <= queueEntries (h_q (hq_h t')) /\ s_plan s' <= total (pending A t').
Proof.
  exact (fun A EXT garbage p ep m s0 evs ext fuel old s' t' HA Hc He H1 H2 H3 H4 H5 =>
    fair_pass A EXT HA ext fuel old _ _ s' t' (good_w A [] _ (proj1 (history_good A EXT HA garbage p ep m s0 evs Hc He)))
      eq_refl (proj2 (history_good A EXT HA garbage p ep m s0 evs Hc He)) H1 H2 H3 H4 H5).
Qed.
Example C63_example :
  match moving with
  | Some (s, t) => isRampGeneratorActive (s_rg s) = true /\ s_plan s = 320000
      /\ queueEntries (h_q (hq_h t)) = 7 /\ total (pending arch_avr t) = 365856
  | None => False
  end.
Proof. vm_compute. auto. Qed.

(** ** C64: a new acceleration counts for the stop

    setAcceleration(a), applySpeedAcceleration(), stopMove() during a motion with a step
    every [t] ticks: the motor stops [T^2 / (2 a t^2)] steps away, up to 1/100 and one step. *)
Theorem C64_stop_with_new_acceleration : forall A a g qe old g' n, In A all_archs -> s_h (rg_params g) = 0 ->
  1 <= a < 2147483648 -> valid_acceleration (rg_params g) = false \/ pmfl_accel (rg_params g) <> pmfl_from_u32 a ->
  ro_force_immediate (rg_ro g) = false ->
  let t := rw_curr_ticks (rg_rw g) in t <> TICKS_FOR_STOPPED_MOTOR -> 1 <= t < 4294967296 ->
  let ideal := (IZR (TICKS_PER_S A) * IZR (TICKS_PER_S A) / (2 * IZR a * (IZR t * IZR t)))%R in
  (ideal <= 4260000000)%R ->
  rg_getNextCommand A qe old (rg_initiateStop (rg_applySpeedAcceleration (fst (rg_setAcceleration a g)))) = Some (g', n) ->
  exists steps, rg_targetPosition g' = i32 (if qe_up qe then qe_pos qe + steps else qe_pos qe - steps)
    /\ (Rabs (IZR steps - ideal) <= ideal / 100 + 1)%R.
Proof.
  exact (fun A a g qe old g' n HA Hs Ha Hd Hi Hc Ht Hid E =>
    ex_intro _ _ (conj (accel_stop A a g qe old g' n Hs Ha Hd Hi Hc E)
      (C07_steps_accurate_lemma A a (set_parameters (rg_params g) (ro_config (rg_ro g))) _ HA Hs Ha Ht Hid))).
Qed.
(** 2000 steps/s, acceleration changed from 10000 to 40000 steps/s^2: 50 instead of 203 steps *)
Example C64_example :
  match rounds arch_avr 120 (fst (rg_startRun true (set_up 10000 8000))) (at_pos 0) with
  | Some (g, qe) => rw_curr_ticks (rg_rw g) = 8000 /\ qe_up qe = true
    /\ match rg_getNextCommand arch_avr qe (olds1 O) (rg_initiateStop (rg_applySpeedAcceleration (fst (rg_setAcceleration 40000 g)))),
             rg_getNextCommand arch_avr qe (olds1 O) (rg_initiateStop g) with
       | Some (h, _), Some (h', _) => rg_targetPosition h - qe_pos qe = 50 /\ rg_targetPosition h' - qe_pos qe = 203
       | _, _ => False
       end
  | None => False
  end.
Proof. vm_compute. auto. Qed.

(** ** C65: accepted calls

    They end a stop in progress, do not touch the present motion and start the ramp if
    needed. *)
Theorem C65_accepted : forall g, valid_speed (rg_params g) = true -> valid_acceleration (rg_params g) = true ->
  let same (r : rampgen * Z) := snd r = MOVE_OK /\ rg_isStopping (fst r) = false
    /\ (isRampGeneratorActive g = true -> rg_rw (fst r) = rg_rw g)
    /\ ro_config (rg_ro (fst r)) = ro_config (rg_ro g)
    /\ ro_target_pos (rg_ro (fst r)) = ro_target_pos (rg_ro g) in
  (forall up, let r := rg_startRun up g in same r /\ isRampGeneratorActive (fst r) = true)
  /\ (forall pos qe, let r := rg_moveTo pos qe g in
       let target := if isRampGeneratorActive g && negb (rg_isRunningContinuously g)
                     then rg_targetPosition g else qe_pos qe in
       same r /\ isRampGeneratorActive (fst r) = isRampGeneratorActive g || negb (pos =? target))
  /\ (forall d, let r := rg_move d g in same r
       /\ isRampGeneratorActive (fst r) = isRampGeneratorActive g || negb (d =? 0)).
Proof. exact accepted_calls. Qed.
(** the target of the next round *)
Theorem C65_moveTo_target : forall A pos qe qe' old g g' n,
  valid_speed (rg_params g) = true -> valid_acceleration (rg_params g) = true -> ro_force_immediate (rg_ro g) = false ->
  rg_getNextCommand A qe' old (fst (rg_moveTo pos qe g)) = Some (g', n) -> rg_targetPosition g' = i32 pos.
Proof. exact moveTo_target. Qed.
Theorem C65_move_target : forall A d qe old g g' n,
  valid_speed (rg_params g) = true -> valid_acceleration (rg_params g) = true ->
  any_change (rg_params g) = false -> ro_force_immediate (rg_ro g) = false ->
  rg_getNextCommand A qe old (fst (rg_move d g)) = Some (g', n) ->
  rg_targetPosition g' = i32 ((if rg_isRunningContinuously g then qe_pos qe else rg_targetPosition g) + d).
Proof. exact move_target. Qed.
Example C65_example :
  match rounds arch_avr 5 (fst (rg_moveTo 100 (at_pos 0) (set_up 10000 8000))) (at_pos 0) with
  | Some (g, qe) => any_change (rg_params g) = false /\ isRampGeneratorActive g = true /\ rg_targetPosition g = 100
      /\ match rg_getNextCommand arch_avr qe (olds1 O) (fst (rg_move 11 g)) with
         | Some (g', _) => rg_targetPosition g' = 111
         | None => False
         end
  | None => False
  end.
Proof. vm_compute. auto. Qed.
(** At standstill move() is relative to the target of the last move, not to the position
    (moved on by a raw command or forwardStep()): move(10) from position 1 ends at 10. *)
Theorem C65_move_at_standstill_refuted : exists a M,
  let g := set_up a M in isRampGeneratorActive g = false /\ snd (rg_move 10 g) = MOVE_OK
  /\ match rounds arch_avr 60 (fst (rg_move 10 g)) (at_pos 1) with
     | Some (g', qe) => isRampGeneratorActive g' = false /\ qe_pos qe = 10
     | None => False
     end.
Proof. exists 10000, 8000. vm_compute. auto. Qed.

(** ** C66: moveByAcceleration *)
Theorem C66_direction_partial : forall a rev s q, a <> 0 -> -2147483648 < a < 2147483648 ->
  valid_speed (rg_params (s_rg s)) = true ->
  exists s', s_moveByAcceleration a rev s q = Some (s', MOVE_OK)
    /\ rg_acceleration (s_rg s') = Z.abs a /\ valid_acceleration (rg_params (s_rg s')) = true
    /\ (if (0 <? a) || rev && negb (s_dirpin s =? PIN_UNDEFINED)
        then isRampGeneratorActive (s_rg s') = true /\ keep_running (rg_params (s_rg s')) = true
             /\ keep_running_count_up (rg_params (s_rg s')) = (0 <? a) /\ rg_isStopping (s_rg s') = false
        else isRampGeneratorActive (s_rg s') = isRampGeneratorActive (s_rg s) /\ ro_force_stop (rg_ro (s_rg s')) = true)
    /\ (isRampGeneratorActive (s_rg s) = true -> rg_rw (s_rg s') = rg_rw (s_rg s)).
Proof. exact by_acceleration. Qed.
(** "acceleration = 0 => keep current speed": at 2.8 steps/s of 16 steps/s with 4 steps/s^2,
    the speed rises. *)
Theorem C66_keep_speed_refuted : exists A n m q, In A all_archs /\
  match rounds A n (fst (rg_startRun true (set_up 4 1000000))) (at_pos 0) with
  | Some (g, qe) =>
    match s_moveByAcceleration 0 true (a_motor 5 g) q with
    | Some (s, code) => code = MOVE_OK /\
      match rounds A m (s_rg s) qe with
      | Some (g', _) => isRampGeneratorActive g' = true /\ 0 < rw_curr_ticks (rg_rw g') < rw_curr_ticks (rg_rw g)
          /\ rg_acceleration g' = 1
      | None => False
      end
    | None => False
    end
  | None => False
  end.
Proof.
  exists arch_avr, 87%nat, 250%nat, (fqueue (motor0 5 (rg_init 0))). vm_compute. repeat split; auto 10.
Qed.

(** INT32_MIN: its negation is undefined behaviour. *)
Theorem C66_smallest_refuted : exists a, -2147483648 <= a < 0 /\ forall rev s q, s_moveByAcceleration a rev s q = None.
Proof. exists (-2147483648). split; [lia|reflexivity]. Qed.

(** ** C38: several relative moves before the task runs add up *)
Theorem C38_moves_add_up : forall A ds qe old g g' n, ds <> [] ->
  valid_speed (rg_params g) = true -> valid_acceleration (rg_params g) = true ->
  any_change (rg_params g) = false -> ro_force_immediate (rg_ro g) = false ->
  rg_getNextCommand A qe old (fold_left (fun g d => fst (rg_move d g)) ds g) = Some (g', n) ->
  rg_targetPosition g' = i32 ((if rg_isRunningContinuously g then qe_pos qe else rg_targetPosition g)
                              + fold_right Z.add 0 ds).
Proof. exact moves_target. Qed.
Definition during (f : rampgen -> rampgen) : option Z :=
  match rounds arch_avr 5 (fst (rg_moveTo 50 (at_pos 0) (set_up 10000 8000))) (at_pos 0) with
  | Some (g, qe) =>
    match rg_getNextCommand arch_avr qe (olds1 O) (f g) with
    | Some (g', _) => Some (rg_targetPosition g')
    | None => None
    end
  | None => None
  end.
Example C38_moves_example : during (fun g => fst (rg_move 3 (fst (rg_move (-20) (fst (rg_move 10 g)))))) = Some 43
  /\ during (fun g => fst (rg_moveTo 8 (at_pos 0) (fst (rg_move 10 g)))) = Some 8.
Proof. vm_compute. auto. Qed.

(** ** C67: a change of the origin does not influence the motion in progress

    [same_motion k r1 r2]: the same commands, speeds and directions, with positions and
    targets moved by [k]. *)
Theorem C67_current_position_partial : forall A strict done_p pos s q n olds, no_absolute (s_rg s) ->
  let r := s_setCurrentPosition A done_p pos s q in
  same_motion (i32 (pos - getCurrentPosition A done_p q))
    (ramp_run A strict olds n (s_rg s) (q_end q)) (ramp_run A strict olds n (s_rg (fst r)) (q_end (snd r))).
Proof. exact set_position_motion. Qed.
Theorem C67_position_after_partial : forall A strict pos s q n olds, -2147483648 <= pos < 2147483648 ->
  -2147483648 <= qe_pos (q_end q) < 2147483648 -> no_absolute (s_rg s) ->
  let r := s_setPositionAfter pos s q in
  same_motion (i32 (pos - qe_pos (q_end q)))
    (ramp_run A strict olds n (s_rg s) (q_end q)) (ramp_run A strict olds n (s_rg (fst r)) (q_end (snd r))).
Proof. exact position_after_motion. Qed.
(** a move to 100, after one round of the task the position is moved by 150: ends at 250 *)
Definition at_150 (rounds_before : nat) : option Z :=
  let x := motor0 5 (rg_init 0) in
  match ramp_run arch_avr true olds1 rounds_before (fst (rg_moveTo 100 (at_pos 0) (set_up 10000 8000))) (at_pos 0) with
  | Some (_, g, qe) =>
    let r := s_setPositionAfter (qe_pos qe + 150) (st_rg g (fst x)) (set_end qe (fqueue x)) in
    match ramp_run arch_avr true olds1 200 (s_rg (fst r)) (q_end (snd r)) with
    | Some (_, g', qe') => if isRampGeneratorActive g' then None else Some (qe_pos qe')
    | None => None
    end
  | None => None
  end.
Example C67_example : at_150 1 = Some 250 /\ at_150 7 = Some 250.
Proof. vm_compute. auto. Qed.
(** If the task has not run since the moveTo(), the motor moves backwards to 100. *)
Theorem C67_pending_moveTo_refuted : exists n m p, at_150 n = Some p /\ at_150 m <> Some p.
Proof. exists O, 1%nat, 100. vm_compute. split; [reflexivity|discriminate]. Qed.

Print Assumptions C54_refused_history.
Print Assumptions C54_refused_unchanged.
Print Assumptions C55_uninitialised_unused.
Print Assumptions C55_steps_to_stop_refuted.
Print Assumptions C56_enable_result.
Print Assumptions C56_disable_result.
Print Assumptions C56_enable_levels.
Print Assumptions C56_disable_levels.
Print Assumptions C57_delay_to_disable.
Print Assumptions C58_single_step_partial.
Print Assumptions C58_running_unchanged.
Print Assumptions C58_after_force_stop_refuted.
Print Assumptions C58_three_steppers_refuted.
Print Assumptions C59_force_stop.
Print Assumptions C59_force_stop_call.
Print Assumptions C60_acceleration_sign_partial.
Print Assumptions C61_enable_pins_distinct.
Print Assumptions C61_enable_pin_set.
Print Assumptions C62_move_refused.
Print Assumptions C62_other_moves_refuted.
Print Assumptions C63_plans_ahead_partial.
Print Assumptions C64_stop_with_new_acceleration.
Print Assumptions C65_accepted.
Print Assumptions C65_moveTo_target.
Print Assumptions C65_move_target.
Print Assumptions C65_move_at_standstill_refuted.
Print Assumptions C66_direction_partial.
Print Assumptions C66_keep_speed_refuted.
Print Assumptions C66_smallest_refuted.
Print Assumptions C38_moves_add_up.
Print Assumptions C67_current_position_partial.
Print Assumptions C67_position_after_partial.
Print Assumptions C67_pending_moveTo_refuted.

(** * P_Conf: C77 to C79, configuration calls and the period of the ramp *)
From Coq Require Import ZArith Bool List Lia.
From Verif Require Import Base RampCalc RampGen RampRun Queue QueueHist Stepper StepperSet StepperConf RampPeriod P_Set.
Import ListNotations.
Open Scope Z_scope.
Ltac Zify.zify_post_hook ::= idtac.

(** ** C77: the reported maximum speed can be used

    [q_max] is the speed limit in ticks per step. *)
Theorem C77_hz : forall A s q, In A all_archs -> 0 < q_max q < 65536 ->
  exists f, getMaxSpeedInHz A q = Some f
    /\ f * q_max q <= TICKS_PER_S A < (f + 1) * q_max q
    /\ accepted (setSpeedInHz A f s q)
    /\ q_max q <= speed_of (fst (setSpeedInHz A f s q)).
Proof. exact max_hz_lemma. Qed.
(** 16 MHz timer *)
Theorem C77_mhz_partial : forall A s q, TICKS_PER_S A = 16000000 -> 20 < q_max q < 65536 ->
  exists f, getMaxSpeedInMilliHz A q = Some f
    /\ accepted (setSpeedInMilliHz A f s q)
    /\ q_max q <= speed_of (fst (setSpeedInMilliHz A f s q)).
Proof. exact max_mhz_back. Qed.
(** The period in us is rounded down, i.e. to a speed above the limit. *)
Theorem C77_us_partial : forall A s q, In A all_archs -> 0 < q_max q < 65536 ->
  let r := getMaxSpeedInUs A q in
  r * TICKS_PER_US A <= q_max q < (r + 1) * TICKS_PER_US A
  /\ (accepted (setSpeedInUs A r s q) <-> q_max q mod TICKS_PER_US A = 0).
Proof. exact max_us_lemma. Qed.
(** Two AVR steppers, 426 ticks: setSpeedInUs(getMaxSpeedInUs()) is refused *)
Theorem C77_us_refuted : exists t, let q := set_max t a_queue in
  getMaxSpeedInUs arch_avr q = 26 /\ refused (setSpeedInUs arch_avr 26 a_stepper q) a_stepper.
Proof. exists 426. vm_compute. auto. Qed.
(** SAM: 420 ticks are reported as 9095548 mHz (50000000 are right) *)
Theorem C77_sam_refuted : exists t, getMaxSpeedInMilliHz arch_sam (set_max t a_queue) = Some 9095548
  /\ rounded (1000 * TICKS_PER_S arch_sam) t 50000000.
Proof. exists 420. vm_compute. repeat split; congruence. Qed.
(** reading back in mHz never divides by zero; no speed set yet: 0 *)
Theorem C77_unset : forall A s, exists f, rg_getSpeedInMilliHz A (s_rg s) = Some f
  /\ (speed_of s = 0 -> f = 0).
Proof.
  intros A s. unfold rg_getSpeedInMilliHz. fold (speed_of s).
  destruct (Z.eqb_spec (speed_of s) 0) as [E|E]; [exists 0; auto|].
  unfold divForMilliHz. destruct (Z.eqb_spec (speed_of s) 0); [contradiction|].
  eexists. split; [reflexivity|]. intros; contradiction.
Qed.
(** reading back in us: rounded down, exact if set in us *)
Theorem C77_read_us : forall A s, In A all_archs -> let r := rg_getSpeedInUs A (s_rg s) in
  r * TICKS_PER_US A <= speed_of s < (r + 1) * TICKS_PER_US A.
Proof. exact us_read. Qed.
Theorem C77_set_read_us : forall A us s q, In A all_archs -> is_u32 us ->
  accepted (setSpeedInUs A us s q) -> rg_getSpeedInUs A (s_rg (fst (setSpeedInUs A us s q))) = us.
Proof. exact us_back. Qed.
Example C77_example : let q := set_max 426 a_queue in
  getMaxSpeedInHz arch_avr q = Some 37558 /\ getMaxSpeedInMilliHz arch_avr q = Some 37558684
  /\ speed_of (fst (setSpeedInHz arch_avr 37558 a_stepper q)) = 426
  /\ rg_getSpeedInUs arch_sam (s_rg (fst (setSpeedInUs arch_sam 1234 a_stepper q))) = 1234.
Proof. vm_compute. auto. Qed.

(** ** C78: configuration of a new stepper *)
(** defaults: no pins, no auto enable, no delays, 20 ms forward planning, nothing configured *)
Theorem C78_defaults : forall A g step, In A all_archs -> let s := s_init A g step in
  s_steppin s = step /\ s_dirpin s = PIN_UNDEFINED /\ s_hcu s = true
  /\ s_low s = PIN_UNDEFINED /\ s_high s = PIN_UNDEFINED /\ s_auto s = false
  /\ s_dirdelay s = 0 /\ s_ondelay s = 0 /\ s_off s = 1 /\ s_cnt s = 0
  /\ 50 * s_plan s = TICKS_PER_S A
  /\ isRampGeneratorActive (s_rg s) = false /\ valid_speed (rg_params (s_rg s)) = false
  /\ valid_acceleration (rg_params (s_rg s)) = false.
Proof. intros A g step. revert A. apply arch_cases; repeat split. Qed.
(** The direction pin is an output with the level of the upward direction; for an external pin
    the callback gets this level. *)
Theorem C78_direction_pin : forall A ext pin hcu us s q p, pin <> PIN_UNDEFINED -> is_external pin = false ->
  snd (setDirectionPin A ext pin hcu us s q p) = upd p pin hcu.
Proof. exact set_dir_level. Qed.
Theorem C78_direction_external : forall A f pin hcu us s q p, pin <> PIN_UNDEFINED -> is_external pin = true ->
  snd (setDirectionPin A (Some f) pin hcu us s q p) = upd p pin (f pin hcu).
Proof. exact set_dir_level_ext. Qed.
(** On the queue and the pins setDirectionPin() is the event [ESetDir] of C20 *)
Theorem C78_direction_event : forall A EXT ext pin hcu us s h, idle_q h = true -> is_external pin = false ->
  let r := setDirectionPin A ext pin hcu us s (h_q h) (h_pins h) in
  let h' := hstep A EXT (ESetDir pin hcu) h in
  h_q h' = snd (fst r) /\ h_pins h' = snd r.
Proof. exact set_dir_event. Qed.
(** The call changes direction pin, polarity and delay (C11) only. *)
Theorem C78_direction_frame : forall A ext pin hcu us s q p,
  let s' := fst (fst (setDirectionPin A ext pin hcu us s q p)) in
  s_dirpin s' = pin /\ s_hcu s' = hcu /\ s_rg s' = s_rg s /\ s_steppin s' = s_steppin s
  /\ s_auto s' = s_auto s /\ s_low s' = s_low s /\ s_high s' = s_high s
  /\ s_ondelay s' = s_ondelay s /\ s_off s' = s_off s /\ s_cnt s' = s_cnt s /\ s_plan s' = s_plan s.
Proof. intros. repeat split. Qed.
(** ms milliseconds, for every value of the uint8_t argument *)
Theorem C78_planning_time : forall A ms s, In A all_archs -> 0 <= ms < 256 ->
  1000 * s_plan (setForwardPlanningTimeInMs A ms s) = ms * TICKS_PER_S A.
Proof. exact plan_lemma. Qed.
Theorem C78_auto_enable : forall b s, let s' := setAutoEnable b s in
  s_auto s' = b /\ (b = true -> s_off s' <> 0) /\ (s_off s <> 0 -> s_off s' = s_off s)
  /\ s_rg s' = s_rg s /\ s_dirpin s' = s_dirpin s /\ s_low s' = s_low s /\ s_high s' = s_high s
  /\ s_ondelay s' = s_ondelay s /\ s_cnt s' = s_cnt s /\ s_plan s' = s_plan s.
Proof.
  intros b s. cbn. repeat split; intros; destruct b; cbn; try discriminate; try reflexivity;
  destruct (Z.eqb_spec (s_off s) 0); try assumption; try contradiction; try reflexivity; discriminate.
Qed.
Example C78_example :
  let s := setForwardPlanningTimeInMs arch_sam 255 (setAutoEnable true a_stepper) in
  let r := setDirectionPin arch_sam None 5 false 1000 s a_queue (fun _ => true) in
  s_plan (fst (fst r)) = 5355000 /\ snd r 5 = false /\ snd r 6 = true /\ s_auto (fst (fst r)) = true
  /\ s_dirdelay (fst (fst r)) = 21000 /\ is_external 5 = false.
Proof. vm_compute. auto 10. Qed.

(** ** C79: getPeriodInTicksAfterCommandsCompleted()

    "Returns 0 for stopped motor", otherwise the time of a step: the ticks of the last step
    command and of the pauses belonging to it. The case of C35_exact_period_refuted is
    excluded. *)
Theorem C79_stopped : forall s, isRampGeneratorActive (s_rg s) = false -> s_periodAfter s = 0.
Proof. intros s H. unfold s_periodAfter. rewrite H. reflexivity. Qed.
Theorem C79_step_partial : forall A qe old s g1 n,
  rg_getNextCommand A qe old (s_rg s) = Some (g1, n) -> c_steps (n_cmd n) <> 0 -> c_ticks (n_cmd n) <> 0 ->
  let c := ro_config (rg_ro g1) in
  let M := min_travel_ticks (parameters c) in
  0 <= rw_curr_ticks (rg_rw (s_rg s)) < 4294967296 -> 0 <= M < 4294967296 -> 0 <= rw_prus (rg_rw g1) ->
  M <= 65535 \/ rw_prus (rg_rw g1) <> max_ramp_up_steps c ->
  let s' := st_rg (rg_afterCommandEnqueued n g1) s in
  s_periodAfter s' = c_ticks (n_cmd n) + rw_pause_left (rg_rw (s_rg s')) /\ 0 < c_ticks (n_cmd n)
  /\ 0 <= rw_pause_left (rg_rw (s_rg s')).
Proof. exact period_after. Qed.
(** a command which is part of the pause *)
Theorem C79_pause : forall A qe old s g1 n,
  rg_getNextCommand A qe old (s_rg s) = Some (g1, n) -> c_ticks (n_cmd n) <> 0 ->
  0 < rw_pause_left (rg_rw (s_rg s)) < 4294967296 ->
  let s' := st_rg (rg_afterCommandEnqueued n g1) s in
  c_steps (n_cmd n) = 0 /\ s_periodAfter s' = s_periodAfter s
  /\ rw_pause_left (rg_rw (s_rg s)) = c_ticks (n_cmd n) + rw_pause_left (rg_rw (s_rg s')).
Proof. exact period_pause. Qed.
(** in us: rounded down *)
Theorem C79_us : forall A s, In A all_archs ->
  s_periodUsAfter A s * TICKS_PER_US A <= s_periodAfter s < (s_periodUsAfter A s + 1) * TICKS_PER_US A.
Proof.
  intros A s HA. destruct (ticks_ok A HA) as (_ & _ & _ & T1 & _). unfold s_periodUsAfter, s_periodAfter, TICKS_TO_US.
  destruct (isRampGeneratorActive (s_rg s)); [|lia]. set (t := rw_curr_ticks _).
  pose proof (Z.div_mod t (TICKS_PER_US A) ltac:(lia)). pose proof (Z.mod_pos_bound t (TICKS_PER_US A) ltac:(lia)). lia.
Qed.
Definition slow_motor : stepper :=
  let g := rg_setSpeedInTicks 200000 (fst (rg_setAcceleration 10000 (rg_init 0))) in
  st_rg (fst (rg_moveTo 100 (mkQueueEnd 0 true true) g)) a_stepper.
(** the periods reported, with the ticks and steps of the commands *)
Fixpoint report_periods (n : nat) (s : stepper) (qe : queue_end) : list (Z * Z * Z) :=
  match n with
  | O => []
  | S n => match rg_getNextCommand arch_avr qe (mkNext (mkCommand 0 0 true) (mkRw 0 0 0 0)) (s_rg s) with
           | None => []
           | Some (g1, m) =>
             let s' := st_rg (rg_afterCommandEnqueued m g1) s in
             (c_steps (n_cmd m), c_ticks (n_cmd m), s_periodAfter s')
               :: report_periods n s' (mkQueueEnd (qe_pos qe + c_steps (n_cmd m)) true true)
           end
  end.
Example C79_example : report_periods 4 slow_motor (mkQueueEnd 0 true true) =
  [(1, 65535, 200000); (0, 65535, 200000); (0, 34465, 200000); (0, 34465, 200000)]
  /\ s_periodAfter a_stepper = 0.
Proof. vm_compute. auto. Qed.
(** between moveTo() and the next pass of the task the motor stands, the value is 4294967295 *)
Theorem C79_start_refuted : exists g,
  rg_moveTo 1000 (mkQueueEnd 0 true true) (rg_setSpeedInTicks 1000 (fst (rg_setAcceleration 1000 (rg_init 0)))) = (g, MOVE_OK)
  /\ rw_curr_ticks (rg_rw g) = TICKS_FOR_STOPPED_MOTOR
  /\ s_periodAfter (st_rg g a_stepper) = 4294967295.
Proof. eexists. split; [vm_compute; reflexivity|]. vm_compute. auto. Qed.

Print Assumptions C77_hz.
Print Assumptions C77_mhz_partial.
Print Assumptions C77_us_partial.
Print Assumptions C77_us_refuted.
Print Assumptions C77_sam_refuted.
Print Assumptions C77_unset.
Print Assumptions C77_read_us.
Print Assumptions C77_set_read_us.
Print Assumptions C78_defaults.
Print Assumptions C78_direction_pin.
Print Assumptions C78_direction_external.
Print Assumptions C78_direction_event.
Print Assumptions C78_direction_frame.
Print Assumptions C78_planning_time.
Print Assumptions C78_auto_enable.
Print Assumptions C79_stopped.
Print Assumptions C79_step_partial.
Print Assumptions C79_pause.
Print Assumptions C79_us.
Print Assumptions C79_start_refuted.

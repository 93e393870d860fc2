(** * P_Report: C69 and C70, current speed and acceleration *)
From Coq Require Import ZArith Bool List Lia.
From Verif Require Import Base Pmf RampCalc RampGen RampStep RampRun RampReport Queue QueueFacts QueuePos
  QueueHist QueueProp Stepper Report.
Import ListNotations.
Open Scope Z_scope.
Ltac Zify.zify_post_hook ::= idtac.

(** ** Objects of the examples *)
Definition no_entry : Z -> entry := fun _ => mkEntry 0 false false false false false false 0 0.
Definition low : pins := fun _ => false.
Definition at_pos (p : Z) : queue_end := mkQueueEnd p true true.
Definition olds1 : nat -> next_command := fun _ => mkNext (mkCommand 0 0 true) (mkRw 0 0 0 0).
Definition set_up (a M : Z) : rampgen := rg_setSpeedInTicks M (fst (rg_setAcceleration a (rg_init 0))).
Definition motor (g : rampgen) : stepper := st_rg g (s_init arch_avr 0 9).
Definition call (c : command) : list event := [EBegin c true true; ECommit true; EStartQ].
Definition after (evs : list event) : hst := hrun arch_avr false evs (hinit arch_avr no_entry low false).

(** ** C69: getCurrentSpeedInUs() and getCurrentSpeedInMilliHz()

    [motion]: the running command if the queue shows the speed (more than one step, or another
    step follows), otherwise the motion of the ramp; nothing for an empty queue. The result has
    the sign of the direction. [up0] is the uninitialised variable of the caller. *)
Theorem C69_us : forall A EXT garbage p test evs realtime up0 s, In A all_archs -> Forall ev_ok evs ->
  let h := hrun A EXT evs (hinit A garbage p test) in
  let m := motion realtime (pend_cmds (h_done h) (pend A (h_q h))) (s_rg s) in
  0 <= rw_state (rg_rw (s_rg s)) ->
  (forall t up, m = Some (t, up) -> 0 <= t < 4294967296) ->
  s_currentSpeedInUs A realtime up0 s (h_q h) = signed m (fun t => 1000000 * t / TICKS_PER_S A).
Proof.
  exact (fun A EXT garbage p test evs realtime up0 s HA H0 =>
    current_us A HA _ realtime up0 s (inv_run A EXT HA evs _ (inv_init A HA garbage p test) H0)).
Qed.
(** SAM: 250 * TICKS_PER_S does not fit into 32 bits *)
Theorem C69_mhz_partial : forall A EXT garbage p test evs realtime up0 s, In A all_archs -> Forall ev_ok evs ->
  250 * TICKS_PER_S A < 4294967296 ->
  let h := hrun A EXT evs (hinit A garbage p test) in
  0 <= rw_state (rg_rw (s_rg s)) ->
  match motion realtime (pend_cmds (h_done h) (pend A (h_q h))) (s_rg s) with
  | None => s_currentSpeedInMilliHz A realtime up0 s (h_q h) = 0
  | Some (t, up) => 8 <= t ->
     exists v, 0 <= v /\ v * t <= 1000 * TICKS_PER_S A < (v + 4) * t
       /\ s_currentSpeedInMilliHz A realtime up0 s (h_q h) = if up then v else - v
  end.
Proof.
  exact (fun A EXT garbage p test evs realtime up0 s HA H0 HT =>
    current_mhz A HA _ realtime up0 s HT (inv_run A EXT HA evs _ (inv_init A HA garbage p test) H0)).
Qed.
(** 10 steps backward are running *)
Definition backward : list event := [ESetDir 5 true] ++ call (mkCommand 5000 10 false) ++ [EDec 1].
Example C69_example :
  motion true (pend_cmds (h_done (after backward)) (pend arch_avr (h_q (after backward)))) (set_up 1 2)
    = Some (5000, false)
  /\ s_currentSpeedInUs arch_avr true true (motor (set_up 1 2)) (h_q (after backward)) = -312
  /\ s_currentSpeedInMilliHz arch_avr true true (motor (set_up 1 2)) (h_q (after backward)) = -3200000.
Proof. vm_compute. auto. Qed.
(** SAM: 5000 ticks are 4200000 mHz *)
Definition backward_sam : hst :=
  hrun arch_sam false backward (hinit arch_sam no_entry low false).
Theorem C69_sam_refuted : exists evs s, Forall ev_ok evs /\
  let h := hrun arch_sam false evs (hinit arch_sam no_entry low false) in
  motion true (pend_cmds (h_done h) (pend arch_sam (h_q h))) (s_rg s) = Some (5000, false)
  /\ s_currentSpeedInMilliHz arch_sam true true s (h_q h) = -764024.
Proof.
  exists backward, (motor (set_up 1 2)). split.
  - repeat (constructor; [cbn; unfold cmd_ok; cbn; try lia; try exact I|]). constructor.
  - vm_compute. auto.
Qed.
(** "< 0 while position counting down": between the call of moveTo and the next run of the task
    the ramp has no direction yet, a move upwards is reported with a negative value *)
Theorem C69_start_refuted : exists g, rg_moveTo 1000 (at_pos 0) (set_up 1000 1000) = (g, MOVE_OK)
  /\ s_currentSpeedInUs arch_avr false true (motor g) (h_q (after [])) = -268435455.
Proof. exists (fst (rg_moveTo 1000 (at_pos 0) (set_up 1000 1000))). vm_compute. auto. Qed.
(** "= 0 while not moving": slow raw commands (a step, a pause) are reported as standstill *)
Definition slow : list event := call (mkCommand 65535 1 true) ++ call (mkCommand 65535 0 true).
Theorem C69_slow_refuted : exists evs s, Forall ev_ok evs /\
  map c_steps (pend_cmds (h_done (after evs)) (pend arch_avr (h_q (after evs)))) = [1; 0]
  /\ s_currentSpeedInUs arch_avr true true s (h_q (after evs)) = 0.
Proof.
  exists slow, (motor (set_up 1000 1000)). split.
  - repeat (constructor; [cbn; unfold cmd_ok; cbn; try lia; try exact I|]). constructor.
  - vm_compute. auto.
Qed.

(** ** C70: the sign of getCurrentAcceleration()

    One command of the ramp, from the period [C] ([TICKS_FOR_STOPPED_MOTOR]: standstill) to the
    period [T]: 0 is reported for an unchanged speed, the direction of the motion for a speed
    which does not decrease, the other direction for one which does not increase. Every kind of
    ramp. Not covered: deceleration reported when starting, and the step on which the ramp length
    for a reduced speed is reached while being slower than this speed. *)
Theorem C70_sign_partial : forall A qe old g g1 n,
  rg_getNextCommand A qe old g = Some (g1, n) ->
  c_steps (n_cmd n) <> 0 -> c_ticks (n_cmd n) <> 0 ->
  let c := ro_config (rg_ro g1) in
  let M := min_travel_ticks (parameters c) in
  let g2 := rg_afterCommandEnqueued n g1 in
  let C := rw_curr_ticks (rg_rw g) in
  let T := rw_curr_ticks (rg_rw g2) in
  let a := rg_getCurrentAcceleration g2 in
  0 <= C < 4294967296 -> 0 <= M < 4294967296 -> 0 <= rw_prus (rg_rw g1) ->
  0 < rg_acceleration g < 2147483648 ->
  (a = 0 /\ T = C
   \/ a = (if c_up (n_cmd n) then rg_acceleration g else - rg_acceleration g) /\ T <= C
   \/ a = (if c_up (n_cmd n) then - rg_acceleration g else rg_acceleration g)
      /\ (C <> TICKS_FOR_STOPPED_MOTOR ->
          rw_prus (rg_rw g1) <> max_ramp_up_steps c \/ C <= M <= 65535 -> C <= T)).
Proof. exact reported_acceleration. Qed.
Theorem C70_idle : forall g, isRampGeneratorActive g = false -> rg_getCurrentAcceleration g = 0.
Proof.
  unfold isRampGeneratorActive, rg_getCurrentAcceleration, RAMP_STATE_IDLE. intros g H.
  apply negb_false_iff, Z.eqb_eq in H. rewrite H. reflexivity.
Qed.
(** speed and acceleration of a move of 40 steps backward, command by command *)
Fixpoint watch (A : arch) (n : nat) (g : rampgen) (qe : queue_end) : list (Z * Z) :=
  match n with
  | O => []
  | S n => match ramp_run A true olds1 1 g qe with
           | Some (_, g', qe') => (rw_curr_ticks (rg_rw g'), rg_getCurrentAcceleration g') :: watch A n g' qe'
           | None => []
           end
  end.
Example C70_example :
  map snd (watch arch_avr 40 (fst (rg_moveTo (-40) (at_pos 0) (set_up 10000 30000))) (at_pos 0))
    = repeat (-10000) 17 ++ repeat 0 10 ++ repeat 10000 13.
Proof. vm_compute. reflexivity. Qed.
(** a move of two steps upwards with a high acceleration: negative from the start *)
Theorem C70_start_refuted : exists g, rg_moveTo 2 (at_pos 0) (set_up 100000000 100) = (g, MOVE_OK)
  /\ watch arch_esp32 1 g (at_pos 0) = [(1600, -100000000)].
Proof. exists (fst (rg_moveTo 2 (at_pos 0) (set_up 100000000 100))). vm_compute. auto. Qed.
(** "the actual acceleration": a new value of setAcceleration() is reported before it is applied *)
Definition watch_change (f : rampgen -> rampgen) : Z * list Z :=
  match ramp_run arch_avr true olds1 5 (fst (rg_moveTo 400 (at_pos 0) (set_up 10000 3000))) (at_pos 0) with
  | Some (_, g, qe) =>
    (rg_getCurrentAcceleration (f g),
     match ramp_run arch_avr true olds1 20 (f g) qe with Some (l, _, _) => map c_ticks l | None => [] end)
  | None => (0, [])
  end.
Theorem C70_value_refuted : exists v, let set g := fst (rg_setAcceleration v g) in
  fst (watch_change (fun g => g)) = 10000 /\ fst (watch_change set) = v /\ v <> 10000
  /\ snd (watch_change set) = snd (watch_change (fun g => g)) /\ snd (watch_change set) <> [].
Proof. exists 77. vm_compute. repeat split; discriminate. Qed.

Print Assumptions C69_us.
Print Assumptions C69_mhz_partial.
Print Assumptions C69_sam_refuted.
Print Assumptions C69_start_refuted.
Print Assumptions C69_slow_refuted.
Print Assumptions C70_sign_partial.
Print Assumptions C70_idle.
Print Assumptions C70_start_refuted.
Print Assumptions C70_value_refuted.

(** * P_AvrStack: a move on the AVR, from the call to the pulses on the step pin: C91 *)
From Coq Require Import ZArith Bool List Lia.
From Verif Require Import Base RampCalc RampGen RampRun RampMove RampSafe RampAcc RampUser RampPlan
  Queue QueueFacts QueueHist Stepper StepperHist FrontHist FrontProp FrontFill FrontTask FrontStart FrontMove
  AvrIsr AvrStack P_End.
Import ListNotations.
Open Scope Z_scope.

Theorem C91_moveTo_on_the_pin_partial : forall EXT garbage p ep m s0 evs a M pos,
  conf_ok s0 -> Forall fev_ok evs -> -2147483648 <= pos < 2147483648 ->
  let x := frun arch_avr EXT evs (dinit EXT garbage p ep m s0) in
  let q := fqueue x in
  let d := i32 (pos - qe_pos (q_end q)) in
  AvrIsr.plain EXT q -> q_running q = false -> pend arch_avr q = [] -> ready_to_move arch_avr (fst x) q a M d ->
  exists s1 cs, s_moveTo pos (fst x) q = (s1, MOVE_OK) /\ total_steps cs = Z.abs d /\
  forall t tasks y, vtrun EXT tasks (s1, v_begin t (snd x)) = Some y -> vq_ok (snd y) = true ->
  let v := vq_v (snd y) in let log := vq_log (snd y) in
  on_the_pin (dir_of q (0 <? d)) M t (Z.abs d) log
  /\ in_sessions (dir_of q) t cs log
  /\ (isRampGeneratorActive (s_rg (fst y)) = false -> v_irq v = false -> pend arch_avr (v_q v) = [] ->
      Z.of_nat (length log) = Z.abs d /\ forall done_p, getCurrentPosition arch_avr done_p (v_q v) = pos).
Proof. exact moveTo_pin. Qed.
Theorem C91_move_on_the_pin_partial : forall EXT garbage p ep m s0 evs a M delta,
  conf_ok s0 -> Forall fev_ok evs -> -2147483648 <= delta < 2147483648 -> delta <> 0 ->
  let x := frun arch_avr EXT evs (dinit EXT garbage p ep m s0) in
  let q := fqueue x in
  let g := s_rg (fst x) in
  let target := i32 (base_target g (q_end q) + pending_move g + delta) in
  let d := i32 (target - qe_pos (q_end q)) in
  AvrIsr.plain EXT q -> q_running q = false -> pend arch_avr q = [] -> ready_to_move arch_avr (fst x) q a M d ->
  (s_dirpin (fst x) = PIN_UNDEFINED -> 0 <= delta) ->
  exists s1 cs, s_move delta (fst x) = (s1, MOVE_OK) /\ total_steps cs = Z.abs d /\
  forall t tasks y, vtrun EXT tasks (s1, v_begin t (snd x)) = Some y -> vq_ok (snd y) = true ->
  let v := vq_v (snd y) in let log := vq_log (snd y) in
  on_the_pin (dir_of q (0 <? d)) M t (Z.abs d) log
  /\ in_sessions (dir_of q) t cs log
  /\ (isRampGeneratorActive (s_rg (fst y)) = false -> v_irq v = false -> pend arch_avr (v_q v) = [] ->
      Z.of_nat (length log) = Z.abs d /\ forall done_p, getCurrentPosition arch_avr done_p (v_q v) = target).
Proof. exact move_pin. Qed.

(** ** Example: the stepper of C51 with its direction pin *)
Definition motor1 : stepper * hq := dinit false no_entry low low 320 a_motor.
Definition at_time (t : Z) : vweather := mkVw 0 0 0 t.
Definition v_pass (t : Z) : vtask :=
  VFill None (fun _ => false) 40 (mkNext (mkCommand 7 7 true) (mkRw 0 0 0 0)) (repeat (at_time t) 40).
Fixpoint passes_and_isrs (n k : nat) (t : Z) : list vtask :=
  match n with O => [] | S n' => v_pass t :: VIsrs k :: passes_and_isrs n' k t end.
Definition after_call (s : stepper) (x : stepper * hq) (pos : Z) : stepper * vq :=
  (fst (s_moveTo pos s (fqueue x)), v_begin 100 (snd x)).
Lemma motor1_ready : ready_to_move arch_avr (fst motor1) (fqueue motor1) 10000 8000 (-8).
Proof. constructor; [split; [|right]| |right|..]; vm_compute; intuition congruence. Qed.
Example C91_example : conf_ok a_motor /\ AvrIsr.plain false (fqueue motor1) /\ q_running (fqueue motor1) = false /\
  pend arch_avr (fqueue motor1) = [] /\ dir_of (fqueue motor1) false = Some false /\
  match vtrun false (passes_and_isrs 6 4 1000) (after_call a_motor motor1 (-8)) with
  | Some y => vq_ok (snd y) = true /\ isRampGeneratorActive (s_rg (fst y)) = false /\ v_irq (vq_v (snd y)) = false
      /\ pend arch_avr (v_q (vq_v (snd y))) = []
      /\ map fst (vq_log (snd y)) = [17010; 130226; 210290; 275634; 332242; 397586; 477650; 590866]
      /\ Forall (fun x => snd x = Some false) (vq_log (snd y))
  | None => False
  end.
Proof. vm_compute. intuition (congruence || (repeat constructor)). Qed.

(** Without [vq_ok]: with the shortest planning time a task pass falls into the last period
    of the queue. The pulses of the move are not spaced by the period of the speed limit
    (2000 ticks): two of them are 10 ticks apart. *)
Definition b_motor : stepper :=
  st_rg (rg_setSpeedInTicks 2000 (fst (rg_setAcceleration 1000000 (rg_init 0))))
    (setForwardPlanningTimeInMs arch_avr 4 (st_dir 5 true 3200 (s_init arch_avr 0 9))).
Definition motor2 : stepper * hq := dinit false no_entry low low 320 b_motor.
Lemma motor2_ready : ready_to_move arch_avr (fst motor2) (fqueue motor2) 1000000 2000 40.
Proof. constructor; [split; [|right]| |right|..]; vm_compute; intuition congruence. Qed.
Theorem C91_refill_in_last_period_refuted : exists s0 tasks,
  let x := dinit false no_entry low low 320 s0 in
  conf_ok s0 /\ AvrIsr.plain false (fqueue x) /\ q_running (fqueue x) = false /\ pend arch_avr (fqueue x) = [] /\
  ready_to_move arch_avr (fst x) (fqueue x) 1000000 2000 40 /\
  match vtrun false tasks (after_call s0 x 40) with
  | Some y => isRampGeneratorActive (s_rg (fst y)) = false /\ v_irq (vq_v (snd y)) = false
      /\ pend arch_avr (v_q (vq_v (snd y))) = [] /\ length (vq_log (snd y)) = 40%nat
      /\ firstn 3 (skipn 33 (map fst (vq_log (snd y)))) = [145242; 150902; 150912]
  | None => False
  end.
Proof.
  exists b_motor, [v_pass 1000; VIsrs 26; v_pass 300000; VIsrs 30; v_pass 1000000].
  intros x. split; [vm_compute; intuition congruence|].
  split; [reflexivity|]. split; [reflexivity|]. split; [reflexivity|]. split; [exact motor2_ready|].
  vm_compute. repeat split.
Qed.

Print Assumptions C91_moveTo_on_the_pin_partial.
Print Assumptions C91_move_on_the_pin_partial.
Print Assumptions C91_refill_in_last_period_refuted.

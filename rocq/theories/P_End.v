(** * P_End: moves from the call to the position of the motor: C51, C52, C53 *)
From Coq Require Import ZArith Bool List Lia.
From Verif Require Import Base RampCalc RampGen RampRun RampMove RampSafe RampAcc RampUser RampPlan
  Queue QueueFacts QueueHist Stepper StepperHist FrontHist FrontProp FrontFill FrontTask FrontStart FrontMove.
Import ListNotations.
Open Scope Z_scope.

Definition no_entry : Z -> entry := fun _ => mkEntry 0 false false false false false false 0 0.
Definition low : pins := fun _ => false.
(** direction pin 5 with a delay of 200 us, low active enable pin 6 with a delay of 1 ms,
    acceleration 10000 steps/s^2, one step every 8000 ticks *)
Definition a_motor : stepper :=
  st_rg (rg_setSpeedInTicks 8000 (fst (rg_setAcceleration 10000 (rg_init 0))))
    (st_ondelay 16000 (st_auto true 1 (st_enpins 6 PIN_UNDEFINED (st_dir 5 true 3200 (s_init arch_avr 0 9))))).
Definition motor0 : stepper * hq := finit arch_avr no_entry low low 320 a_motor.
(** a pass with the device not ready for the second command, interrupts, ... *)
Definition not_ready : weather := mkWeather false false [] [] [] [].
Definition a_pass (ws : list weather) : task :=
  TFill None (fun _ => false) 40 (mkNext (mkCommand 7 7 true) (mkRw 0 0 0 0)) ws.
Definition drain : task := TIsr (repeat EPop 16 ++ [EStop]).

(** ** C51: what a move does to the queue and to the motor *)
Theorem C51_moveTo_carried_out_partial : forall A EXT garbage p ep m s0 evs a M pos, In A all_archs ->
  conf_ok s0 -> Forall fev_ok evs -> -2147483648 <= pos < 2147483648 ->
  let x := frun A EXT evs (finit A garbage p ep m s0) in
  let d := i32 (pos - qe_pos (q_end (fqueue x))) in
  ready_to_move A (fst x) (fqueue x) a M d ->
  exists s1 cs, s_moveTo pos (fst x) (fqueue x) = (s1, MOVE_OK)
    /\ total_steps cs = Z.abs d /\ Forall (valid_cmd A) cs /\ Forall (moves_only (0 <? d)) cs /\ speed_ok M cs
    /\ carries A EXT (0 <? d) cs pos (s1, snd x).
Proof.
  exact (fun A EXT garbage p ep m s0 evs a M pos HA Hc He Hpos Hr =>
    match moveTo_carried A EXT HA _ _ a M (proj1 (history_good A EXT HA garbage p ep m s0 evs Hc He)) pos Hpos Hr with
    | ex_intro _ s1 (ex_intro _ cs (ex_intro _ n (conj H1 (conj H2 (conj H3 (conj H4 (conj H5 (conj H6 _)))))))) =>
      ex_intro _ s1 (ex_intro _ cs (conj H1 (conj H2 (conj H3 (conj H4 (conj H5 H6))))))
    end).
Qed.
Theorem C51_move_carried_out_partial : forall A EXT garbage p ep m s0 evs a M delta, In A all_archs ->
  conf_ok s0 -> Forall fev_ok evs -> -2147483648 <= delta < 2147483648 -> delta <> 0 ->
  let x := frun A EXT evs (finit A garbage p ep m s0) in
  let g := s_rg (fst x) in
  let target := i32 (base_target g (q_end (fqueue x)) + pending_move g + delta) in
  let d := i32 (target - qe_pos (q_end (fqueue x))) in
  ready_to_move A (fst x) (fqueue x) a M d -> (s_dirpin (fst x) = PIN_UNDEFINED -> 0 <= delta) ->
  exists s1 cs, s_move delta (fst x) = (s1, MOVE_OK)
    /\ total_steps cs = Z.abs d /\ Forall (valid_cmd A) cs /\ Forall (moves_only (0 <? d)) cs /\ speed_ok M cs
    /\ carries A EXT (0 <? d) cs target (s1, snd x).
Proof.
  exact (fun A EXT garbage p ep m s0 evs a M delta HA Hc He Hpos H0 Hr Hd =>
    match move_carried A EXT HA _ _ a M (proj1 (history_good A EXT HA garbage p ep m s0 evs Hc He)) delta Hpos H0 Hr Hd with
    | ex_intro _ s1 (ex_intro _ cs (ex_intro _ n (conj H1 (conj H2 (conj H3 (conj H4 (conj H5 (conj H6 _)))))))) =>
      ex_intro _ s1 (ex_intro _ cs (conj H1 (conj H2 (conj H3 (conj H4 (conj H5 H6))))))
    end).
Qed.
Definition moved_to (pos : Z) : stepper * hq := (fst (s_moveTo pos a_motor (fqueue motor0)), snd motor0).
Lemma motor_ready : ready_to_move arch_avr (fst motor0) (fqueue motor0) 10000 8000 (-3).
Proof.
  constructor; [split; [|right]| |right|..]; vm_compute; intuition congruence.
Qed.
Example C51_example : exists cs,
  total_steps cs = 3 /\ carries arch_avr false false cs (-3) (moved_to (-3)).
Proof.
  destruct (C51_moveTo_carried_out_partial arch_avr false no_entry low low 320 a_motor [] 10000 8000 (-3))
    as (s1 & cs & H1 & H2 & _ & _ & _ & H3).
  1,2: vm_compute; intuition congruence.
  { constructor. }
  { lia. }
  { exact motor_ready. }
  exists cs. split; [exact H2|].
  assert (E : s1 = fst (s_moveTo (-3) a_motor (fqueue motor0))).
  { change (s1 = fst (s_moveTo (-3) (fst (frun arch_avr false [] motor0)) (fqueue motor0))).
    unfold motor0. cbn [frun]. cbn [frun] in H1. now rewrite H1. }
  unfold moved_to. rewrite <- E. exact H3.
Qed.
Example C51_example_run :
  option_map (fun y => (accepted_cmds y, getCurrentPosition arch_avr 0 (fqueue y), isRampGeneratorActive (s_rg (fst y)), q_running (fqueue y)))
    (trun arch_avr false [a_pass [fair; not_ready]; drain; a_pass [fair; fair; not_ready]; drain; a_pass []; drain; a_pass []]
       (moved_to (-3)))
  = Some (repeat (mkCommand 16000 0 false) 3 ++
      [mkCommand 56608 1 false; mkCommand 56608 0 false; mkCommand 56608 1 false; mkCommand 56608 0 false;
       mkCommand 56608 1 false; mkCommand 56608 0 false], -3, false, false).
Proof. vm_compute. reflexivity. Qed.

(** A speed of 25 kHz (640 ticks), allowed for a single stepper on AVR; two further
    steppers are connected (C68: limit 800). The move is accepted, the first command above 20 kHz
    is refused and ends the ramp: the motor stops from full speed at 191. *)
Definition fast_motor : stepper :=
  st_rg (rg_setSpeedInTicks 640 (fst (rg_setAcceleration 1000000 (rg_init 0)))) a_motor.
Definition fast0 : stepper * hq := finit arch_avr no_entry low low 800 fast_motor.
Theorem C51_limit_lowered_refuted : exists s1 ts,
  ready_to_move arch_avr fast_motor (fqueue (finit arch_avr no_entry low low 320 fast_motor)) 1000000 640 1000
  /\ q_max (fqueue fast0) = 800
  /\ s_moveTo 1000 fast_motor (fqueue fast0) = (s1, MOVE_OK)
  /\ option_map (fun y => (getCurrentPosition arch_avr 0 (fqueue y), isRampGeneratorActive (s_rg (fst y)), q_running (fqueue y)))
       (trun arch_avr false ts (s1, snd fast0)) = Some (191, false, false).
Proof.
  exists (fst (s_moveTo 1000 fast_motor (fqueue fast0))), (concat (repeat [a_pass []; drain] 4)). split.
  { constructor; [split; [|right]| |right|..]; vm_compute; intuition congruence. }
  split; [reflexivity|]. split; vm_compute; reflexivity.
Qed.

(** ** C52: a move is completed

    The ramp ends after a bounded number of passes over an empty queue, with interrupts at
    any time. *)
Theorem C52_moveTo_completes_partial : forall A EXT garbage p ep m s0 evs a M pos, In A all_archs ->
  conf_ok s0 -> Forall fev_ok evs -> -2147483648 <= pos < 2147483648 ->
  let x := frun A EXT evs (finit A garbage p ep m s0) in
  ready_to_move A (fst x) (fqueue x) a M (i32 (pos - qe_pos (q_end (fqueue x)))) ->
  conf24 A (fst x) -> distinct_pins (fst x) ->
  exists s1 n, s_moveTo pos (fst x) (fqueue x) = (s1, MOVE_OK) /\ completes A EXT n (s1, snd x).
Proof.
  exact (fun A EXT garbage p ep m s0 evs a M pos HA Hc He Hpos Hr H24 Hd =>
    match moveTo_carried A EXT HA _ _ a M (proj1 (history_good A EXT HA garbage p ep m s0 evs Hc He)) pos Hpos Hr with
    | ex_intro _ s1 (ex_intro _ cs (ex_intro _ n (conj H1 (conj _ (conj _ (conj _ (conj _ (conj _ (conj H7 _))))))))) =>
      ex_intro _ s1 (ex_intro _ n (conj H1 (H7 H24 Hd)))
    end).
Qed.
Lemma motor_conf : conf24 arch_avr (fst motor0) /\ distinct_pins (fst motor0).
Proof. vm_compute. intuition congruence. Qed.
Example C52_example : exists n, completes arch_avr false n (moved_to (-3)).
Proof.
  destruct (C52_moveTo_completes_partial arch_avr false no_entry low low 320 a_motor [] 10000 8000 (-3))
    as (s1 & n & H1 & H2).
  1,2: vm_compute; intuition congruence.
  { constructor. }
  { lia. }
  { exact motor_ready. }
  1,2: apply motor_conf.
  exists n. assert (E : s1 = fst (s_moveTo (-3) a_motor (fqueue motor0))).
  { change (s1 = fst (s_moveTo (-3) (fst (frun arch_avr false [] motor0)) (fqueue motor0))).
    unfold motor0. cbn [frun]. cbn [frun] in H1. now rewrite H1. }
  unfold moved_to. rewrite <- E. exact H2.
Qed.

(** ** C53: the queue is started

    With a device which is ready, the queue is empty or running after every pass. *)
Theorem C53_queue_started_partial : forall A EXT garbage p ep m s0 evs a M pos, In A all_archs ->
  conf_ok s0 -> Forall fev_ok evs -> -2147483648 <= pos < 2147483648 ->
  let x := frun A EXT evs (finit A garbage p ep m s0) in
  ready_to_move A (fst x) (fqueue x) a M (i32 (pos - qe_pos (q_end (fqueue x)))) ->
  conf24 A (fst x) -> pend A (fqueue x) = [] \/ q_running (fqueue x) = true ->
  exists s1, s_moveTo pos (fst x) (fqueue x) = (s1, MOVE_OK) /\ keeps_going A EXT (s1, snd x).
Proof.
  exact (fun A EXT garbage p ep m s0 evs a M pos HA Hc He Hpos Hr H24 Hd =>
    match moveTo_carried A EXT HA _ _ a M (proj1 (history_good A EXT HA garbage p ep m s0 evs Hc He)) pos Hpos Hr with
    | ex_intro _ s1 (ex_intro _ cs (ex_intro _ n (conj H1 (conj _ (conj _ (conj _ (conj _ (conj _ (conj _ H8))))))))) =>
      ex_intro _ s1 (conj H1 (H8 H24 Hd))
    end).
Qed.
Example C53_example :
  option_map (fun y => (length (pend arch_avr (fqueue y)), q_running (fqueue y)))
    (trun arch_avr false [a_pass []] (moved_to (-3))) = Some (7%nat, true).
Proof. vm_compute. reflexivity. Qed.
(** Enable delay 25 ms: the device is not ready once, after the pauses of the enable delay
    have been queued. The queue is never started, the move does not end. *)
Definition b_motor : stepper :=
  st_rg (rg_setSpeedInTicks 8000 (fst (rg_setAcceleration 10000 (rg_init 0))))
    (st_ondelay 400000 (st_auto true 1 (st_enpins 6 PIN_UNDEFINED (st_dir 5 true 3200 (s_init arch_esp32 0 9))))).
Definition motor1 : stepper * hq := finit arch_esp32 no_entry low low 80 b_motor.
Theorem C53_queue_started_refuted : exists pos tasks,
  let x := (fst (s_moveTo pos b_motor (fqueue motor1)), snd motor1) in
  ready_to_move arch_esp32 b_motor (fqueue motor1) 10000 8000 pos /\ conf24 arch_esp32 b_motor
  /\ exists y, trun arch_esp32 false tasks x = Some y
  /\ forall later, exists z, trun arch_esp32 false later y = Some z
     /\ isRampGeneratorActive (s_rg (fst z)) = true /\ q_running (fqueue z) = false
     /\ 0 < queueEntries (fqueue z) /\ h_left (hq_h (snd z)) = [].
Proof.
  exists 3, [a_pass [fair; fair; fair; fair; fair; fair; fair; not_ready]].
  split. { constructor; [split; [|right]| |right|..]; vm_compute; intuition congruence. }
  split. { vm_compute. intuition congruence. }
  eexists. split; [vm_compute; reflexivity|]. intros later.
  match goal with |- exists z, trun _ _ _ ?y = _ /\ _ => assert (S : stuck arch_esp32 y) by (vm_compute; auto) end.
  destruct (stuck_run arch_esp32 false later _ S) as (z & E & (S1 & S2 & S3 & _) & _ & K).
  exists z. auto.
Qed.

Print Assumptions C51_moveTo_carried_out_partial.
Print Assumptions C51_move_carried_out_partial.
Print Assumptions C51_limit_lowered_refuted.
Print Assumptions C52_moveTo_completes_partial.
Print Assumptions C53_queue_started_partial.
Print Assumptions C53_queue_started_refuted.

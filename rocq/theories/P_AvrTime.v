(** * P_AvrTime: a move on the AVR under a punctual task: C96, C98 *)
From Coq Require Import ZArith Bool List Lia.
From Verif Require Import Base RampCalc RampGen RampRun RampMove RampSafe RampAcc RampUser RampPlan
  Queue QueueFacts QueueHist Stepper StepperHist FrontHist FrontProp FrontFill FrontTask FrontStart FrontMove FrontPause
  AvrIsr AvrStack AvrTime P_End P_AvrStack.
Import ListNotations.
Open Scope Z_scope.

(** [BB mm PL]: the smaller of the planning time less one longest command period, and of 15
    periods of [mm] ticks *)
Theorem C96_moveTo_one_run_partial : forall EXT garbage p ep m s0 evs a M mm pos,
  conf_ok s0 -> Forall fev_ok evs -> -2147483648 <= pos < 2147483648 ->
  let x := frun arch_avr EXT evs (dinit EXT garbage p ep m s0) in
  let q := fqueue x in
  let d := i32 (pos - qe_pos (q_end q)) in
  let PL := s_plan (fst x) in
  AvrIsr.plain EXT q -> q_running q = false -> pend arch_avr q = [] -> ready_to_move arch_avr (fst x) q a M d ->
  conf24 arch_avr (fst x) -> pconf mm (fst x) -> 0 <= mm <= Z.min M 32767 -> 0 < PL <= 2147483648 ->
  exists s1 cs, s_moveTo pos (fst x) q = (s1, MOVE_OK) /\ total_steps cs = Z.abs d /\
  forall t tasks, punctual (Z.min (PL - 65535) (15 * mm)) t None tasks -> Forall (able mm PL (fst x)) tasks ->
  exists y, wtrun EXT tasks (s1, v_begin t (snd x)) = Some y /\ vq_ok (snd y) = true /\
  let v := vq_v (snd y) in let log := vq_log (snd y) in
  let all := isRampGeneratorActive (s_rg (fst y)) = false /\ v_irq v = false /\ pend arch_avr (v_q v) = [] in
  on_the_pin (dir_of q (0 <? d)) M t (Z.abs d) log
  /\ in_session (dir_of q) t cs log all
  /\ (all -> Z.of_nat (length log) = Z.abs d /\ forall done_p, getCurrentPosition arch_avr done_p (v_q v) = pos).
Proof. exact moveTo_punctual. Qed.
Theorem C96_move_one_run_partial : forall EXT garbage p ep m s0 evs a M mm delta,
  conf_ok s0 -> Forall fev_ok evs -> -2147483648 <= delta < 2147483648 -> delta <> 0 ->
  let x := frun arch_avr EXT evs (dinit EXT garbage p ep m s0) in
  let q := fqueue x in
  let g := s_rg (fst x) in
  let target := i32 (base_target g (q_end q) + pending_move g + delta) in
  let d := i32 (target - qe_pos (q_end q)) in
  let PL := s_plan (fst x) in
  AvrIsr.plain EXT q -> q_running q = false -> pend arch_avr q = [] -> ready_to_move arch_avr (fst x) q a M d ->
  (s_dirpin (fst x) = PIN_UNDEFINED -> 0 <= delta) ->
  conf24 arch_avr (fst x) -> pconf mm (fst x) -> 0 <= mm <= Z.min M 32767 -> 0 < PL <= 2147483648 ->
  exists s1 cs, s_move delta (fst x) = (s1, MOVE_OK) /\ total_steps cs = Z.abs d /\
  forall t tasks, punctual (Z.min (PL - 65535) (15 * mm)) t None tasks -> Forall (able mm PL (fst x)) tasks ->
  exists y, wtrun EXT tasks (s1, v_begin t (snd x)) = Some y /\ vq_ok (snd y) = true /\
  let v := vq_v (snd y) in let log := vq_log (snd y) in
  let all := isRampGeneratorActive (s_rg (fst y)) = false /\ v_irq v = false /\ pend arch_avr (v_q v) = [] in
  on_the_pin (dir_of q (0 <? d)) M t (Z.abs d) log
  /\ in_session (dir_of q) t cs log all
  /\ (all -> Z.of_nat (length log) = Z.abs d /\ forall done_p, getCurrentPosition arch_avr done_p (v_q v) = target).
Proof. exact move_punctual. Qed.

(** ** Example: the task of the AVR runs every 65536 ticks (4.096 ms), planning time 20 ms *)
Definition c_motor : stepper :=
  st_rg (rg_setSpeedInTicks 8000 (fst (rg_setAcceleration 10000 (rg_init 0))))
    (st_dir 5 true 8000 (s_init arch_avr 0 9)).
Definition motor3 : stepper * hq := dinit false no_entry low low 320 c_motor.
Definition w_pass (t : Z) : wtask :=
  WFill None 64 (mkNext (mkCommand 7 7 true) (mkRw 0 0 0 0)) t
    [mkVt (t + 300) (t + 350) (t + 360); mkVt (t + 900) (t + 950) (t + 960)] (t + 9000).
Fixpoint w_tasks (n : nat) (t : Z) : list wtask :=
  match n with O => [] | S n' => w_pass t :: WTick None (t + 10000) :: w_tasks n' (t + 65536) end.
Lemma motor3_ready : ready_to_move arch_avr (fst motor3) (fqueue motor3) 10000 8000 (-8).
Proof. constructor; [split; [|right]| |right|..]; vm_compute; intuition congruence. Qed.
Lemma enables_none s : s_low s = PIN_UNDEFINED -> s_high s = PIN_UNDEFINED -> enables None s.
Proof. intros H1 H2 p. unfold enableOutputs. rewrite H1, H2. reflexivity. Qed.
Example C96_example : conf_ok c_motor /\ AvrIsr.plain false (fqueue motor3) /\ q_running (fqueue motor3) = false /\
  pend arch_avr (fqueue motor3) = [] /\ conf24 arch_avr (fst motor3) /\ pconf 5000 (fst motor3) /\
  s_plan (fst motor3) = 320000 /\ BB 5000 320000 = 75000 /\ punctual 75000 100 None (w_tasks 12 200) /\
  Forall (able 5000 320000 (fst motor3)) (w_tasks 12 200) /\
  match wtrun false (w_tasks 12 200) (after_call c_motor motor3 (-8)) with
  | Some y => vq_ok (snd y) = true /\ isRampGeneratorActive (s_rg (fst y)) = false /\ v_irq (vq_v (snd y)) = false
      /\ pend arch_avr (v_q (vq_v (snd y))) = []
      /\ map fst (vq_log (snd y)) = [17210; 130426; 210490; 275834; 332442; 397786; 477850; 591066]
      /\ Forall (fun x => snd x = Some false) (vq_log (snd y))
  | None => False
  end.
Proof.
  split; [vm_compute; intuition congruence|]. split; [reflexivity|]. split; [reflexivity|]. split; [reflexivity|].
  split; [vm_compute; intuition congruence|]. split; [vm_compute; intuition congruence|]. split; [reflexivity|].
  split; [reflexivity|]. split; [vm_compute; intuition congruence|].
  split.
  { unfold w_tasks, w_pass. repeat apply Forall_cons; try apply Forall_nil; try exact I;
      (split; [apply enables_none; reflexivity|vm_compute; discriminate]). }
  vm_compute. intuition (congruence || (repeat constructor)).
Qed.

(** ** C98: the exact pulses, and the end of the move

    [W]: the commands with the pauses of the direction delay. The pulses made so far are the
    first ones of the train of [W] which begins 10 ticks after the start in the first pass.
    At the time [xe], not before the end of [W] and with the task still in time, the move is
    complete. *)
Theorem C98_moveTo_exact_pulses_partial : forall EXT garbage p ep m s0 evs a M mm pos,
  conf_ok s0 -> Forall fev_ok evs -> -2147483648 <= pos < 2147483648 ->
  let x := frun arch_avr EXT evs (dinit EXT garbage p ep m s0) in
  let q := fqueue x in
  let d := i32 (pos - qe_pos (q_end q)) in
  let PL := s_plan (fst x) in
  AvrIsr.plain EXT q -> q_running q = false -> pend arch_avr q = [] -> ready_to_move arch_avr (fst x) q a M d ->
  conf24 arch_avr (fst x) -> pconf mm (fst x) -> 0 <= mm <= Z.min M 32767 -> 0 < PL <= 2147483648 ->
  fed (fst x) -> is_external (s_dirpin (fst x)) = false ->
  exists s1 cs, s_moveTo pos (fst x) q = (s1, MOVE_OK) /\ total_steps cs = Z.abs d /\
  let W := with_pauses (s_dirdelay (fst x)) (qe_up (q_end q)) cs in
  let B := Z.min (PL - 65535) (15 * mm) in
  forall t tasks xe, punctual B t None (tasks ++ [WServe xe]) -> Forall (able mm PL (fst x)) tasks ->
  exists y, wtrun EXT (tasks ++ [WServe xe]) (s1, v_begin t (snd x)) = Some y /\ vq_ok (snd y) = true /\
  let v := vq_v (snd y) in let log := vq_log (snd y) in
  let all := isRampGeneratorActive (s_rg (fst y)) = false /\ v_irq v = false /\ pend arch_avr (v_q v) = [] in
  exact_train (dir_of q) t (first_end tasks) W log all
  /\ (forall f1 tl, first_end tasks = Some f1 -> last_begin None tasks = Some tl -> xe < tl + B ->
      end_time (f1 + 10) W <= xe -> all /\ Z.of_nat (length log) = Z.abs d /\ forall done_p, getCurrentPosition arch_avr done_p (v_q v) = pos).
Proof. exact moveTo_on_time. Qed.
Theorem C98_move_exact_pulses_partial : forall EXT garbage p ep m s0 evs a M mm delta,
  conf_ok s0 -> Forall fev_ok evs -> -2147483648 <= delta < 2147483648 -> delta <> 0 ->
  let x := frun arch_avr EXT evs (dinit EXT garbage p ep m s0) in
  let q := fqueue x in
  let g := s_rg (fst x) in
  let target := i32 (base_target g (q_end q) + pending_move g + delta) in
  let d := i32 (target - qe_pos (q_end q)) in
  let PL := s_plan (fst x) in
  AvrIsr.plain EXT q -> q_running q = false -> pend arch_avr q = [] -> ready_to_move arch_avr (fst x) q a M d ->
  (s_dirpin (fst x) = PIN_UNDEFINED -> 0 <= delta) ->
  conf24 arch_avr (fst x) -> pconf mm (fst x) -> 0 <= mm <= Z.min M 32767 -> 0 < PL <= 2147483648 ->
  fed (fst x) -> is_external (s_dirpin (fst x)) = false ->
  exists s1 cs, s_move delta (fst x) = (s1, MOVE_OK) /\ total_steps cs = Z.abs d /\
  let W := with_pauses (s_dirdelay (fst x)) (qe_up (q_end q)) cs in
  let B := Z.min (PL - 65535) (15 * mm) in
  forall t tasks xe, punctual B t None (tasks ++ [WServe xe]) -> Forall (able mm PL (fst x)) tasks ->
  exists y, wtrun EXT (tasks ++ [WServe xe]) (s1, v_begin t (snd x)) = Some y /\ vq_ok (snd y) = true /\
  let v := vq_v (snd y) in let log := vq_log (snd y) in
  let all := isRampGeneratorActive (s_rg (fst y)) = false /\ v_irq v = false /\ pend arch_avr (v_q v) = [] in
  exact_train (dir_of q) t (first_end tasks) W log all
  /\ (forall f1 tl, first_end tasks = Some f1 -> last_begin None tasks = Some tl -> xe < tl + B ->
      end_time (f1 + 10) W <= xe -> all /\ Z.of_nat (length log) = Z.abs d /\ forall done_p, getCurrentPosition arch_avr done_p (v_q v) = target).
Proof. exact move_on_time. Qed.
(** The move of [C96_example]: the task is in time at 740000, the last command ends before *)
Definition eight : list command :=
  [mkCommand 56608 1 false; mkCommand 56608 0 false; mkCommand 40032 1 false; mkCommand 40032 0 false;
   mkCommand 65344 1 false; mkCommand 56608 1 false; mkCommand 65344 1 false; mkCommand 40032 1 false; mkCommand 40032 0 false;
   mkCommand 56608 1 false; mkCommand 56608 0 false; mkCommand 56608 1 false; mkCommand 56608 0 false].
Example C98_example : fed (fst motor3) /\ is_external (s_dirpin (fst motor3)) = false /\
  punctual 75000 100 None (w_tasks 12 200 ++ [WServe 740000]) /\ first_end (w_tasks 12 200) = Some 9200 /\
  last_begin None (w_tasks 12 200) = Some 721096 /\
  with_pauses (s_dirdelay (fst motor3)) (qe_up (q_end (fqueue motor3))) eight = mkCommand 8000 0 false :: eight /\
  end_time (9200 + 10) (mkCommand 8000 0 false :: eight) = 704282 /\
  option_map (fun y => (vq_log (snd y), getCurrentPosition arch_avr 0 (v_q (vq_v (snd y)))))
    (wtrun false (w_tasks 12 200 ++ [WServe 740000]) (after_call c_motor motor3 (-8)))
  = Some (pulses (9200 + 10) (dir_of (fqueue motor3)) (mkCommand 8000 0 false :: eight), -8).
Proof.
  split; [right; left; vm_compute; discriminate|]. split; [reflexivity|]. split; [vm_compute; intuition congruence|].
  repeat (split; [vm_compute; reflexivity|]). vm_compute. reflexivity.
Qed.

Print Assumptions C96_moveTo_one_run_partial.
Print Assumptions C96_move_one_run_partial.
Print Assumptions C98_moveTo_exact_pulses_partial.
Print Assumptions C98_move_exact_pulses_partial.

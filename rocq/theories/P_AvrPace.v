(** * P_AvrPace: the pace of the commands of a move, and a deadline of the task which does not
    depend on the speed: C99, C100 *)
From Coq Require Import ZArith Bool List Lia.
From Verif Require Import Base RampCalc RampGen RampRun RampMove RampSafe RampAcc RampUser RampPlan
  Queue QueueFacts QueueHist Stepper StepperHist FrontHist FrontProp FrontFill FrontTask FrontStart FrontMove FrontPause
  AvrIsr AvrStack AvrTime AvrPace P_End P_AvrStack P_AvrTime.
Import ListNotations.
Open Scope Z_scope.

(** ** C99: thirteen commands in a row

    [dsum w]: the ticks from the begin of the first command of [w] to the end of the last one *)
Theorem C99_moveTo_pace_partial : forall A EXT garbage p ep m s0 evs a M pos, In A all_archs ->
  conf_ok s0 -> Forall fev_ok evs -> -2147483648 <= pos < 2147483648 ->
  let x := frun A EXT evs (finit A garbage p ep m s0) in
  let d := i32 (pos - qe_pos (q_end (fqueue x))) in
  ready_to_move A (fst x) (fqueue x) a M d ->
  MIN_CMD_TICKS A = 640 /\ s_h (rg_params (s_rg (fst x))) = 0 \/ 2 * MIN_CMD_TICKS A <= M ->
  exists s1 cs, s_moveTo pos (fst x) (fqueue x) = (s1, MOVE_OK)
    /\ total_steps cs = Z.abs d /\ carries A EXT (0 <? d) cs pos (s1, snd x)
    /\ forall l0 w r, cs = l0 ++ w ++ r -> r <> [] -> (13 <= length w)%nat -> 98301 <= dsum w.
Proof. exact (fun A EXT garbage p ep m s0 evs a M pos HA => moveTo_paces A EXT HA garbage p ep m s0 evs a M pos). Qed.
Theorem C99_move_pace_partial : forall A EXT garbage p ep m s0 evs a M delta, In A all_archs ->
  conf_ok s0 -> Forall fev_ok evs -> -2147483648 <= delta < 2147483648 -> delta <> 0 ->
  let x := frun A EXT evs (finit A garbage p ep m s0) in
  let g := s_rg (fst x) in
  let target := i32 (base_target g (q_end (fqueue x)) + pending_move g + delta) in
  let d := i32 (target - qe_pos (q_end (fqueue x))) in
  ready_to_move A (fst x) (fqueue x) a M d -> (s_dirpin (fst x) = PIN_UNDEFINED -> 0 <= delta) ->
  MIN_CMD_TICKS A = 640 /\ s_h (rg_params (s_rg (fst x))) = 0 \/ 2 * MIN_CMD_TICKS A <= M ->
  exists s1 cs, s_move delta (fst x) = (s1, MOVE_OK)
    /\ total_steps cs = Z.abs d /\ carries A EXT (0 <? d) cs target (s1, snd x)
    /\ forall l0 w r, cs = l0 ++ w ++ r -> r <> [] -> (13 <= length w)%nat -> 98301 <= dsum w.
Proof. exact (fun A EXT garbage p ep m s0 evs a M delta HA => move_paces A EXT HA garbage p ep m s0 evs a M delta). Qed.

(** The highest speed of the AVR: 25000 steps per second, 10^6 steps/s^2 *)
Definition f_motor : stepper :=
  st_rg (rg_setSpeedInTicks 640 (fst (rg_setAcceleration 1000000 (rg_init 0))))
    (st_dir 5 true 8000 (s_init arch_avr 0 9)).
Definition motor4 : stepper * hq := dinit false no_entry low low 320 f_motor.
Lemma motor4_ready : ready_to_move arch_avr (fst motor4) (fqueue motor4) 1000000 640 (-800).
Proof. constructor; [split; [|right]| |right|..]; vm_compute; intuition congruence. Qed.
Definition ramp800 : list command :=
  map (fun p => mkCommand (fst p) (snd p) false)
  [(11320, 1); (6536, 2); (4276, 4); (3024, 7); (2312, 10); (1861, 13); (1539, 17); (1316, 20); (1143, 24); (1012, 27);
   (907, 31); (819, 35); (746, 39); (686, 42); (640, 46); (640, 50); (640, 50); (640, 64); (692, 50); (759, 46); (844, 42);
   (947, 37); (1080, 33); (1258, 29); (1512, 25); (1914, 21); (2596, 16); (4276, 12); (4276, 7)].
Example C99_example : conf_ok f_motor /\ ready_to_move arch_avr (fst motor4) (fqueue motor4) 1000000 640 (-800) /\
  s_h (rg_params (s_rg (fst motor4))) = 0 /\
  option_map (fun y => (accepted_cmds y, isRampGeneratorActive (s_rg (fst y))))
    (trun arch_avr false (concat (repeat [a_pass []; drain] 4)) (fst (s_moveTo (-800) f_motor (fqueue motor4)), snd motor4))
  = Some (mkCommand 8000 0 false :: ramp800, false) /\
  dsum (firstn 13 ramp800) = 303092.
Proof.
  split; [vm_compute; intuition congruence|]. split; [exact motor4_ready|]. split; [reflexivity|].
  split; vm_compute; reflexivity.
Qed.
(** ** C100: a task which comes every six milliseconds is in time

    As C98, with 96000 ticks instead of [B], for all speeds and accelerations *)
Theorem C100_moveTo_six_ms_partial : forall EXT garbage p ep m s0 evs a M mm pos,
  conf_ok s0 -> Forall fev_ok evs -> -2147483648 <= pos < 2147483648 ->
  let x := frun arch_avr EXT evs (dinit EXT garbage p ep m s0) in
  let q := fqueue x in
  let d := i32 (pos - qe_pos (q_end q)) in
  let PL := s_plan (fst x) in
  AvrIsr.plain EXT q -> q_running q = false -> pend arch_avr q = [] -> ready_to_move arch_avr (fst x) q a M d ->
  conf24 arch_avr (fst x) -> pconf mm (fst x) -> 0 <= mm <= Z.min M 32767 -> 161535 <= PL <= 2147483648 ->
  fed (fst x) -> is_external (s_dirpin (fst x)) = false -> s_h (rg_params (s_rg (fst x))) = 0 \/ 1280 <= M ->
  exists s1 cs, s_moveTo pos (fst x) q = (s1, MOVE_OK) /\ total_steps cs = Z.abs d /\
  let W := with_pauses (s_dirdelay (fst x)) (qe_up (q_end q)) cs in
  forall t tasks xe, punctual 96000 t None (tasks ++ [WServe xe]) -> Forall (able mm PL (fst x)) tasks ->
  exists y, wtrun EXT (tasks ++ [WServe xe]) (s1, v_begin t (snd x)) = Some y /\ vq_ok (snd y) = true /\
  let v := vq_v (snd y) in let log := vq_log (snd y) in
  let all := isRampGeneratorActive (s_rg (fst y)) = false /\ v_irq v = false /\ pend arch_avr (v_q v) = [] in
  exact_train (dir_of q) t (first_end tasks) W log all
  /\ (forall f1 tl, first_end tasks = Some f1 -> last_begin None tasks = Some tl -> xe < tl + 96000 ->
      end_time (f1 + 10) W <= xe -> all /\ Z.of_nat (length log) = Z.abs d /\ forall done_p, getCurrentPosition arch_avr done_p (v_q v) = pos).
Proof. exact moveTo_paced. Qed.
Theorem C100_move_six_ms_partial : forall EXT garbage p ep m s0 evs a M mm delta,
  conf_ok s0 -> Forall fev_ok evs -> -2147483648 <= delta < 2147483648 -> delta <> 0 ->
  let x := frun arch_avr EXT evs (dinit EXT garbage p ep m s0) in
  let q := fqueue x in
  let g := s_rg (fst x) in
  let target := i32 (base_target g (q_end q) + pending_move g + delta) in
  let d := i32 (target - qe_pos (q_end q)) in
  let PL := s_plan (fst x) in
  AvrIsr.plain EXT q -> q_running q = false -> pend arch_avr q = [] -> ready_to_move arch_avr (fst x) q a M d ->
  (s_dirpin (fst x) = PIN_UNDEFINED -> 0 <= delta) ->
  conf24 arch_avr (fst x) -> pconf mm (fst x) -> 0 <= mm <= Z.min M 32767 -> 161535 <= PL <= 2147483648 ->
  fed (fst x) -> is_external (s_dirpin (fst x)) = false -> s_h (rg_params (s_rg (fst x))) = 0 \/ 1280 <= M ->
  exists s1 cs, s_move delta (fst x) = (s1, MOVE_OK) /\ total_steps cs = Z.abs d /\
  let W := with_pauses (s_dirdelay (fst x)) (qe_up (q_end q)) cs in
  forall t tasks xe, punctual 96000 t None (tasks ++ [WServe xe]) -> Forall (able mm PL (fst x)) tasks ->
  exists y, wtrun EXT (tasks ++ [WServe xe]) (s1, v_begin t (snd x)) = Some y /\ vq_ok (snd y) = true /\
  let v := vq_v (snd y) in let log := vq_log (snd y) in
  let all := isRampGeneratorActive (s_rg (fst y)) = false /\ v_irq v = false /\ pend arch_avr (v_q v) = [] in
  exact_train (dir_of q) t (first_end tasks) W log all
  /\ (forall f1 tl, first_end tasks = Some f1 -> last_begin None tasks = Some tl -> xe < tl + 96000 ->
      end_time (f1 + 10) W <= xe -> all /\ Z.of_nat (length log) = Z.abs d /\ forall done_p, getCurrentPosition arch_avr done_p (v_q v) = target).
Proof. exact move_paced. Qed.
Definition w_pass2 (t : Z) : wtask :=
  WFill None 500 (mkNext (mkCommand 7 7 true) (mkRw 0 0 0 0)) t
    [mkVt (t + 300) (t + 350) (t + 360); mkVt (t + 900) (t + 950) (t + 960)] (t + 9000).
Fixpoint w_tasks2 (n : nat) (t : Z) : list wtask :=
  match n with O => [] | S n' => w_pass2 t :: WTick None (t + 10000) :: w_tasks2 n' (t + 65536) end.
(** Steps of 640 ticks: the bound of C98 would be 9600 ticks, the task comes every 65536 *)
Example C100_example : fed (fst motor4) /\ is_external (s_dirpin (fst motor4)) = false /\
  AvrIsr.plain false (fqueue motor4) /\ q_running (fqueue motor4) = false /\ pend arch_avr (fqueue motor4) = [] /\
  conf24 arch_avr (fst motor4) /\ pconf 640 (fst motor4) /\ s_plan (fst motor4) = 320000 /\
  punctual 96000 100 None (w_tasks2 14 200 ++ [WServe 920000]) /\ Forall (able 640 320000 (fst motor4)) (w_tasks2 14 200) /\
  first_end (w_tasks2 14 200) = Some 9200 /\ last_begin None (w_tasks2 14 200) = Some 852168 /\
  end_time (9200 + 10) (mkCommand 8000 0 false :: ramp800) = 896411 /\
  option_map (fun y => (vq_ok (snd y), length (vq_log (snd y)), getCurrentPosition arch_avr 0 (v_q (vq_v (snd y)))))
    (wtrun false (w_tasks2 14 200 ++ [WServe 920000]) (after_call f_motor motor4 (-800)))
  = Some (true, 800%nat, -800).
Proof.
  split; [right; left; vm_compute; discriminate|]. split; [reflexivity|]. split; [reflexivity|]. split; [reflexivity|]. split; [reflexivity|].
  split; [vm_compute; intuition congruence|]. split; [vm_compute; intuition congruence|]. split; [reflexivity|].
  split; [vm_compute; intuition congruence|].
  split.
  { unfold w_tasks2, w_pass2. repeat apply Forall_cons; try apply Forall_nil; try exact I;
      (split; [apply enables_none; reflexivity|vm_compute; discriminate]). }
  repeat (split; [vm_compute; reflexivity|]). vm_compute. reflexivity.
Qed.

Print Assumptions C99_moveTo_pace_partial.
Print Assumptions C99_move_pace_partial.
Print Assumptions C100_moveTo_six_ms_partial.
Print Assumptions C100_move_six_ms_partial.

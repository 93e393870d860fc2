(** * P_McpwmMove: C103, a move on the MCPWM/PCNT driver of the ESP32 *)
From Coq Require Import ZArith Bool List Lia.
From Verif Require Import Base Queue Mcpwm McpwmFacts McpwmProp McpwmMove P_Mcpwm RampCalc RampGen RampRun RampMove RampSafe RampUser RampOne
  QueueFacts QueueHist Stepper StepperHist FrontHist FrontProp FrontFill FrontTask FrontStart FrontMove FrontPause P_End P_Pause.
Import ListNotations.
Open Scope Z_scope.

(** ** C103: the pulses of a move
    The commands of the move are those of C97; [pre]: all commands before. Behind the move they are [even_so_far]
    again: without a direction delay, or in one direction, any number of moves may follow. *)
Theorem C103_moveTo_pulses_partial : forall EXT garbage p ep m s0 evs a M pos,
  conf_ok s0 -> Forall fev_ok evs -> -2147483648 <= pos < 2147483648 ->
  let x := frun arch_esp32 EXT evs (finit arch_esp32 garbage p ep m s0) in
  let d := i32 (pos - qe_pos (q_end (fqueue x))) in
  ready_to_move arch_esp32 (fst x) (fqueue x) a M d -> fed (fst x) -> is_external (s_dirpin (fst x)) = false ->
  6400 <= M ->
  exists s1 cs, s_moveTo pos (fst x) (fqueue x) = (s1, MOVE_OK) /\
    let l := with_pauses (s_dirdelay s1) (qe_up (q_end (fqueue x))) cs in
    (forall tasks, exists y w rest, trun arch_esp32 EXT tasks (s1, snd x) = Some y /\ accepted_cmds y = accepted_cmds x ++ w
        /\ l = w ++ rest /\ (isRampGeneratorActive (s_rg (fst y)) = false -> rest = []))
    /\ forall HCU pre, fits_in pre (s_dirdelay s1) (qe_up (q_end (fqueue x))) (0 <? d) ->
       carried HCU pre l d /\ even_so_far (pre ++ l).
Proof.
  exact (fun EXT garbage p ep m s0 evs a M pos =>
    moveTo_mcpwm arch_esp32 EXT (or_intror (or_intror (or_introl eq_refl))) garbage p ep m s0 evs a M pos).
Qed.
Theorem C103_move_pulses_partial : forall EXT garbage p ep m s0 evs a M delta,
  conf_ok s0 -> Forall fev_ok evs -> -2147483648 <= delta < 2147483648 -> delta <> 0 ->
  let x := frun arch_esp32 EXT evs (finit arch_esp32 garbage p ep m s0) in
  let g := s_rg (fst x) in
  let target := i32 (base_target g (q_end (fqueue x)) + pending_move g + delta) in
  let d := i32 (target - qe_pos (q_end (fqueue x))) in
  ready_to_move arch_esp32 (fst x) (fqueue x) a M d -> (s_dirpin (fst x) = PIN_UNDEFINED -> 0 <= delta) ->
  fed (fst x) -> is_external (s_dirpin (fst x)) = false ->
  6400 <= M ->
  exists s1 cs, s_move delta (fst x) = (s1, MOVE_OK) /\
    let l := with_pauses (s_dirdelay s1) (qe_up (q_end (fqueue x))) cs in
    (forall tasks, exists y w rest, trun arch_esp32 EXT tasks (s1, snd x) = Some y /\ accepted_cmds y = accepted_cmds x ++ w
        /\ l = w ++ rest /\ (isRampGeneratorActive (s_rg (fst y)) = false -> rest = []))
    /\ forall HCU pre, fits_in pre (s_dirdelay s1) (qe_up (q_end (fqueue x))) (0 <? d) ->
       carried HCU pre l d /\ even_so_far (pre ++ l).
Proof.
  exact (fun EXT garbage p ep m s0 evs a M delta =>
    move_mcpwm arch_esp32 EXT (or_intror (or_intror (or_introl eq_refl))) garbage p ep m s0 evs a M delta).
Qed.

(** ** Example: the 3 steps downwards of C97 *)
Definition given (l : list command) : list mevent := concat (map (fun c => m_add c false) l).
Example C103_example : let x := finit arch_esp32 no_entry low low 320 (d_motor arch_esp32) in
  ready_to_move arch_esp32 (fst x) (fqueue x) 10000 8000 (-3) /\ fed (fst x) /\ is_external (s_dirpin (fst x)) = false
  /\ fits_in [] 3200 true (0 <? -3)
  /\ let evs := given turn3 ++ [MNull] in let s := mrun true evs (minit true) in
     Forall mev_ok evs /\ in_time true evs (minit true) /\ m_acc s = turn3 /\ m_run s = true
     /\ travelled true (k_log (m_h (mrun true (rounds 7) s))) = -3 /\ m_run (mrun true (rounds 7) s) = false.
Proof.
  split; [constructor; [split; [|right]| |right|..]; vm_compute; intuition congruence|].
  split; [right; left; vm_compute; discriminate|]. split; [reflexivity|].
  split; [split; [split; [exact I|discriminate]|left; reflexivity]|].
  split; [cbn; repeat constructor; cbn; lia|]. split; [vm_compute; intuition discriminate|]. vm_compute. repeat split.
Qed.

(** ** Two moves
    Acceleration 1000000 steps/s^2, speed 2500 steps/s, direction delay 200 us: 20 steps downwards, and
    back again before the queue is empty. The motor ends at 1; the reported position is 0. *)
Definition motor4 : stepper :=
  st_rg (rg_setSpeedInTicks 6400 (fst (rg_setAcceleration 1000000 (rg_init 0)))) (st_dir 5 true 3200 (s_init arch_esp32 0 9)).
Definition moved (pos : Z) (tasks : list task) (x : stepper * hq) : option (stepper * hq) :=
  trun arch_esp32 false tasks (fst (s_moveTo pos (fst x) (fqueue x)), snd x).
Definition there_and_back : option (stepper * hq) :=
  match moved (-20) [a_pass []] (finit arch_esp32 no_entry low low 320 motor4) with
  | Some x => moved 0 [a_pass []; drain; a_pass []; drain; a_pass []] x
  | None => None
  end.
Theorem C103_reversal_refuted : exists y HCU lev evs,
  there_and_back = Some y /\ isRampGeneratorActive (s_rg (fst y)) = false /\ qe_pos (q_end (fqueue y)) = 0
  /\ Forall mev_ok evs /\ in_time HCU evs (minit lev)
  /\ let s := mrun HCU evs (minit lev) in
     m_acc s = accepted_cmds y /\ m_run s = false /\ m_q s = [] /\ t_on (k_t (m_h s)) = false
     /\ reading s = 0 /\ travelled HCU (k_log (m_h s)) = 1.
Proof.
  destruct there_and_back as [y|] eqn:E; [|vm_compute in E; discriminate E].
  set (l := [mkCommand 3200 0 false; mkCommand 11320 1 false; mkCommand 6536 2 false; mkCommand 6400 4 false;
    mkCommand 6400 6 false; mkCommand 8008 5 false; mkCommand 8008 2 false;
    mkCommand 3200 0 true; mkCommand 11320 1 true; mkCommand 6536 2 true; mkCommand 6400 4 true;
    mkCommand 6400 6 true; mkCommand 8008 5 true; mkCommand 8008 2 true]).
  assert (F : option_map (fun y => (accepted_cmds y, isRampGeneratorActive (s_rg (fst y)), qe_pos (q_end (fqueue y)))) there_and_back
    = Some (l, false, 0)) by (vm_compute; reflexivity).
  rewrite E in F. cbn [option_map] in F. injection F as F1 F2 F3.
  exists y, true, true, (given (firstn 7 l) ++ [MNull] ++ rounds 3 ++ given (skipn 7 l) ++ rounds 50).
  split; [reflexivity|]. split; [exact F2|]. split; [exact F3|].
  split; [cbn; repeat constructor; cbn; lia|]. split; [vm_compute; intuition discriminate|].
  rewrite F1. vm_compute. repeat split.
Qed.

Print Assumptions C103_moveTo_pulses_partial.
Print Assumptions C103_move_pulses_partial.
Print Assumptions C103_reversal_refuted.

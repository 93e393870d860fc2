(** * P_Pause: the exact list of commands of a move: C97 *)
From Coq Require Import ZArith Bool List Lia.
From Verif Require Import Base RampCalc RampGen RampRun RampMove RampSafe RampAcc RampUser RampPlan
  Queue QueueFacts QueueHist Stepper StepperHist FrontHist FrontProp FrontFill FrontTask FrontStart FrontMove FrontPause P_End.
Import ListNotations.
Open Scope Z_scope.

(** ** C97: the commands of a move do not depend on the schedule *)
Theorem C97_moveTo_commands_partial : forall A EXT garbage p ep m s0 evs a M pos, In A all_archs ->
  conf_ok s0 -> Forall fev_ok evs -> -2147483648 <= pos < 2147483648 ->
  let x := frun A EXT evs (finit A garbage p ep m s0) in
  let d := i32 (pos - qe_pos (q_end (fqueue x))) in
  ready_to_move A (fst x) (fqueue x) a M d -> fed (fst x) -> is_external (s_dirpin (fst x)) = false ->
  exists s1 cs, s_moveTo pos (fst x) (fqueue x) = (s1, MOVE_OK)
    /\ total_steps cs = Z.abs d /\ Forall (valid_cmd A) cs /\ Forall (moves_only (0 <? d)) cs /\ speed_ok M cs
    /\ carries A EXT (0 <? d) cs pos (s1, snd x)
    /\ forall tasks, exists y w rest, trun A EXT tasks (s1, snd x) = Some y /\ accepted_cmds y = accepted_cmds x ++ w
        /\ with_pauses (s_dirdelay s1) (qe_up (q_end (fqueue x))) cs = w ++ rest
        /\ (isRampGeneratorActive (s_rg (fst y)) = false -> rest = []).
Proof. exact (fun A EXT garbage p ep m s0 evs a M pos HA => moveTo_exact A EXT HA garbage p ep m s0 evs a M pos). Qed.
Theorem C97_move_commands_partial : forall A EXT garbage p ep m s0 evs a M delta, In A all_archs ->
  conf_ok s0 -> Forall fev_ok evs -> -2147483648 <= delta < 2147483648 -> delta <> 0 ->
  let x := frun A EXT evs (finit A garbage p ep m s0) in
  let g := s_rg (fst x) in
  let target := i32 (base_target g (q_end (fqueue x)) + pending_move g + delta) in
  let d := i32 (target - qe_pos (q_end (fqueue x))) in
  ready_to_move A (fst x) (fqueue x) a M d -> (s_dirpin (fst x) = PIN_UNDEFINED -> 0 <= delta) ->
  fed (fst x) -> is_external (s_dirpin (fst x)) = false ->
  exists s1 cs, s_move delta (fst x) = (s1, MOVE_OK)
    /\ total_steps cs = Z.abs d /\ Forall (valid_cmd A) cs /\ Forall (moves_only (0 <? d)) cs /\ speed_ok M cs
    /\ carries A EXT (0 <? d) cs target (s1, snd x)
    /\ forall tasks, exists y w rest, trun A EXT tasks (s1, snd x) = Some y /\ accepted_cmds y = accepted_cmds x ++ w
        /\ with_pauses (s_dirdelay s1) (qe_up (q_end (fqueue x))) cs = w ++ rest
        /\ (isRampGeneratorActive (s_rg (fst y)) = false -> rest = []).
Proof. exact (fun A EXT garbage p ep m s0 evs a M delta HA => move_exact A EXT HA garbage p ep m s0 evs a M delta). Qed.
(** Two schedules of one call: one list of commands continues the other; complete lists are equal *)
Theorem C97_two_schedules_partial : forall A EXT garbage p ep m s0 evs a M pos l1 l2, In A all_archs ->
  conf_ok s0 -> Forall fev_ok evs -> -2147483648 <= pos < 2147483648 ->
  let x := frun A EXT evs (finit A garbage p ep m s0) in
  ready_to_move A (fst x) (fqueue x) a M (i32 (pos - qe_pos (q_end (fqueue x)))) -> fed (fst x) ->
  is_external (s_dirpin (fst x)) = false ->
  exists y1 y2, let s1 := fst (s_moveTo pos (fst x) (fqueue x)) in
    trun A EXT l1 (s1, snd x) = Some y1 /\ trun A EXT l2 (s1, snd x) = Some y2 /\
    (exists r, accepted_cmds y1 = accepted_cmds y2 ++ r \/ accepted_cmds y2 = accepted_cmds y1 ++ r) /\
    (isRampGeneratorActive (s_rg (fst y1)) = false -> isRampGeneratorActive (s_rg (fst y2)) = false ->
     accepted_cmds y1 = accepted_cmds y2).
Proof. exact (fun A EXT garbage p ep m s0 evs a M pos l1 l2 HA => moveTo_two A EXT HA garbage p ep m s0 evs a M pos l1 l2). Qed.

(** direction pin 5 with a delay of 200 us, no enable delay *)
Definition d_motor (A : arch) : stepper :=
  st_rg (rg_setSpeedInTicks 8000 (fst (rg_setAcceleration 10000 (rg_init 0)))) (st_dir 5 true 3200 (s_init A 0 9)).
Definition d_call (A : arch) (pos : Z) : stepper * hq :=
  let x := finit A no_entry low low 320 (d_motor A) in (fst (s_moveTo pos (d_motor A) (fqueue x)), snd x).
Definition turn3 : list command := mkCommand 3200 0 false ::
  [mkCommand 56608 1 false; mkCommand 56608 0 false; mkCommand 56608 1 false; mkCommand 56608 0 false;
       mkCommand 56608 1 false; mkCommand 56608 0 false].
Example C97_example : let x := finit arch_esp32 no_entry low low 320 (d_motor arch_esp32) in
  conf_ok (d_motor arch_esp32) /\ ready_to_move arch_esp32 (fst x) (fqueue x) 10000 8000 (-3) /\ fed (fst x) /\
  is_external (s_dirpin (fst x)) = false /\
  (forall l, In l [[a_pass [fair; not_ready]; drain; a_pass [fair; fair; not_ready]; a_pass [fair]; drain; a_pass [not_ready]; drain; a_pass []; drain; a_pass []];
                   [a_pass []; drain; a_pass []]] ->
     option_map (fun y => (accepted_cmds y, isRampGeneratorActive (s_rg (fst y)))) (trun arch_esp32 false l (d_call arch_esp32 (-3)))
     = Some (turn3, false)).
Proof.
  split; [vm_compute; intuition congruence|]. split; [constructor; [split; [|right]| |right|..]; vm_compute; intuition congruence|].
  split; [right; left; vm_compute; discriminate|]. split; [reflexivity|].
  intros l [<-|[<-|[]]]; vm_compute; reflexivity.
Qed.

(** With an enable delay which begins with the move: a device not ready for a moment gets the
    pause of the delay again *)
Definition e_motor : stepper := st_ondelay 16000 (st_auto true 1 (st_enpins 6 PIN_UNDEFINED (d_motor arch_esp32))).
Definition e_call (pos : Z) : stepper * hq :=
  let x := finit arch_esp32 no_entry low low 320 e_motor in (fst (s_moveTo pos e_motor (fqueue x)), snd x).
Theorem C97_enable_delay_refuted :
  let result l := option_map (fun y => (accepted_cmds y, isRampGeneratorActive (s_rg (fst y)))) (trun arch_esp32 false l (e_call (-3))) in
  exists l1 l2,
  ready_to_move arch_esp32 e_motor (fqueue (finit arch_esp32 no_entry low low 320 e_motor)) 10000 8000 (-3)
  /\ result l1 = Some (mkCommand 16000 0 false :: tl turn3, false)
  /\ result l2 = Some (repeat (mkCommand 16000 0 false) 2 ++ tl turn3, false).
Proof.
  exists [a_pass []; drain; a_pass []], [a_pass [fair; not_ready]; drain; a_pass []; drain; a_pass []].
  split; [constructor; [split; [|right]| |right|..]; vm_compute; intuition congruence|].
  split; vm_compute; reflexivity.
Qed.

Print Assumptions C97_moveTo_commands_partial.
Print Assumptions C97_move_commands_partial.
Print Assumptions C97_two_schedules_partial.
Print Assumptions C97_enable_delay_refuted.

(** * P_DueMove: C104, a move on the SAM driver (Arduino Due) *)
From Coq Require Import ZArith Bool List Lia.
From Verif Require Import Base Queue RampCalc RampGen RampRun RampMove RampSafe RampUser RampDir
  QueueFacts QueueHist Stepper StepperHist FrontHist FrontProp FrontFill FrontTask FrontStart FrontMove FrontPause P_End P_Pause
  Due DueFacts DueExact DueProp DueMove P_Due.
Import ListNotations.
Open Scope Z_scope.

(** ** C104: the pulses of a move
    The commands of the move are those of C97. All of them, also the pauses, have the direction of the move.
    [due_carried]: the pulses, with port interrupts in time. [due_exactly]: also the periods and the end, with handlers within 2000
    ticks and a queue started with steps. *)
Theorem C104_moveTo_pulses_partial : forall EXT garbage p ep m s0 evs a M pos,
  conf_ok s0 -> Forall fev_ok evs -> -2147483648 <= pos < 2147483648 ->
  let x := frun arch_sam EXT evs (finit arch_sam garbage p ep m s0) in
  let d := i32 (pos - qe_pos (q_end (fqueue x))) in
  ready_to_move arch_sam (fst x) (fqueue x) a M d -> fed (fst x) -> is_external (s_dirpin (fst x)) = false ->
  exists s1 cs, s_moveTo pos (fst x) (fqueue x) = (s1, MOVE_OK) /\
    let l := with_pauses (s_dirdelay s1) (qe_up (q_end (fqueue x))) cs in
    (forall tasks, exists y w rest, trun arch_sam EXT tasks (s1, snd x) = Some y /\ accepted_cmds y = accepted_cmds x ++ w
        /\ l = w ++ rest /\ (isRampGeneratorActive (s_rg (fst y)) = false -> rest = []))
    /\ Forall (fun c => c_up c = (0 <? d)) l /\ forall HCU, due_carried HCU (0 <? d) l d /\ due_exactly HCU (0 <? d) l d.
Proof.
  exact (fun EXT garbage p ep m s0 evs a M pos =>
    moveTo_due arch_sam EXT (or_intror (or_intror (or_intror (or_introl eq_refl)))) ltac:(discriminate) garbage p ep m s0 evs a M pos).
Qed.
Theorem C104_move_pulses_partial : forall EXT garbage p ep m s0 evs a M delta,
  conf_ok s0 -> Forall fev_ok evs -> -2147483648 <= delta < 2147483648 -> delta <> 0 ->
  let x := frun arch_sam EXT evs (finit arch_sam garbage p ep m s0) in
  let g := s_rg (fst x) in
  let target := i32 (base_target g (q_end (fqueue x)) + pending_move g + delta) in
  let d := i32 (target - qe_pos (q_end (fqueue x))) in
  ready_to_move arch_sam (fst x) (fqueue x) a M d -> (s_dirpin (fst x) = PIN_UNDEFINED -> 0 <= delta) ->
  fed (fst x) -> is_external (s_dirpin (fst x)) = false ->
  exists s1 cs, s_move delta (fst x) = (s1, MOVE_OK) /\
    let l := with_pauses (s_dirdelay s1) (qe_up (q_end (fqueue x))) cs in
    (forall tasks, exists y w rest, trun arch_sam EXT tasks (s1, snd x) = Some y /\ accepted_cmds y = accepted_cmds x ++ w
        /\ l = w ++ rest /\ (isRampGeneratorActive (s_rg (fst y)) = false -> rest = []))
    /\ Forall (fun c => c_up c = (0 <? d)) l /\ forall HCU, due_carried HCU (0 <? d) l d /\ due_exactly HCU (0 <? d) l d.
Proof.
  exact (fun EXT garbage p ep m s0 evs a M delta =>
    move_due arch_sam EXT (or_intror (or_intror (or_intror (or_introl eq_refl)))) ltac:(discriminate) garbage p ep m s0 evs a M delta).
Qed.

(** ** Example: 20 steps upwards *)
Definition motor5 : stepper :=
  st_rg (rg_setSpeedInTicks 8400 (fst (rg_setAcceleration 1000000 (rg_init 0)))) (st_dir 5 true 4200 (s_init arch_sam 0 9)).
Definition up20 : list command := [up 14864 1; up 8576 2; up 8400 4; up 8400 6; up 10512 5; up 10512 2].
Definition down20 : list command := [down 14864 1; down 8576 2; down 8400 4; down 8400 6; down 10512 5; down 10512 2].
Definition d_given (l : list command) : list devent := concat (map (fun c => d_add c false) l).
Definition moved (pos : Z) (tasks : list task) (x : stepper * hq) : option (stepper * hq) :=
  trun arch_sam false tasks (fst (s_moveTo pos (fst x) (fqueue x)), snd x).
Definition ev104 : list devent := d_given up20 ++ [DNull] ++ d_first ++ d_rounds 21.
Example C104_example : let x := finit arch_sam no_entry low low 420 motor5 in
  ready_to_move arch_sam (fst x) (fqueue x) 1000000 8400 20 /\ fed (fst x) /\ is_external (s_dirpin (fst x)) = false
  /\ option_map (fun y => (accepted_cmds y, isRampGeneratorActive (s_rg (fst y)))) (moved 20 [a_pass []; drain; a_pass []] x) = Some (up20, false)
  /\ lined_up true true (dinit true 7) /\ given_from up20 ev104 /\ along true (steady 100) ev104 (dinit true 7)
  /\ let s := drun true ev104 (dinit true 7) in
     d_acc s = up20 /\ d_run s = false /\ d_q s = [] /\ DueProp.served s /\ h_log (d_h s) = stream true up20
     /\ travelled true (h_log (d_h s)) = 20.
Proof.
  split; [constructor; [split; [|right]| |right|..]; vm_compute; intuition congruence|].
  split; [right; left; vm_compute; discriminate|]. split; [reflexivity|]. split; [vm_compute; reflexivity|].
  split; [split; [reflexivity|left; split; reflexivity]|].
  split; [unfold given_from; cbn; repeat (apply Forall_cons; [cbn; auto 10|]); apply Forall_nil|]. split; [run_ok|]. run_ok.
Qed.

(** ** Two moves without a direction delay
    20 steps upwards, and back again before the queue is empty: the turn is one from steps to steps. *)
Definition motor6 : stepper := st_rg (s_rg motor5) (st_dir 5 true 0 (s_init arch_sam 0 9)).
Definition before6 : list devent := d_given up20 ++ [DNull] ++ d_first ++ d_rounds 3.
Definition back6 : list devent := d_given down20 ++ d_rounds 40.
Example C104_turn_example :
  option_map (fun y => (accepted_cmds y, isRampGeneratorActive (s_rg (fst y))))
    match moved 20 [a_pass []] (finit arch_sam no_entry low low 420 motor6) with
    | Some x => moved 0 [a_pass []; drain; a_pass []; drain; a_pass []] x
    | None => None
    end = Some (up20 ++ down20, false)
  /\ along true (timely 100) before6 (dinit true 7)
  /\ let s0 := drun true before6 (dinit true 7) in
     can_turn true false back6 s0 /\ ~ lined_up true false s0 /\ Forall (fun e => slowly 100 (e_c e)) (d_q s0)
     /\ given_from down20 back6 /\ along true (steady 100) back6 s0
     /\ let s := drun true back6 s0 in
        d_acc s = d_acc s0 ++ down20 /\ d_run s = false /\ d_q s = [] /\ DueProp.served s /\ travelled true (h_log (d_h s)) = 0.
Proof.
  split; [vm_compute; reflexivity|]. split; [run_ok|]. cbv zeta.
  split; [right; run_ok; match goal with |- exists q' e, ?q = _ /\ _ => exists (removelast q), (last q (mkDe (up 0 0) 0 false)) end; vm_compute; auto|].
  split; [intros [_ [[H _]|H]]; vm_compute in H; discriminate H|].
  split; [vm_compute; repeat (apply Forall_cons; [discriminate|]); apply Forall_nil|].
  split; [unfold given_from; cbn; repeat (apply Forall_cons; [cbn; auto 10|]); apply Forall_nil|]. split; [run_ok|]. run_ok.
Qed.

(** ** Two moves with a direction delay
    20 steps upwards, and back again before the queue is empty: the motor ends at 40; the reported position is 0. *)
Definition there_and_back : option (stepper * hq) :=
  match moved 20 [a_pass []] (finit arch_sam no_entry low low 420 motor5) with
  | Some x => moved 0 [a_pass []; drain; a_pass []; drain; a_pass []] x
  | None => None
  end.
Theorem C104_reversal_refuted : exists y HCU lev t evs,
  there_and_back = Some y /\ isRampGeneratorActive (s_rg (fst y)) = false /\ qe_pos (q_end (fqueue y)) = 0
  /\ along HCU fair evs (dinit lev t)
  /\ let s := drun HCU evs (dinit lev t) in
     d_acc s = accepted_cmds y /\ d_run s = false /\ d_q s = [] /\ h_edge (d_h s) = false
     /\ reading s = 0 /\ travelled HCU (h_log (d_h s)) = 40.
Proof.
  destruct there_and_back as [y|] eqn:E; [|vm_compute in E; discriminate E].
  assert (F : option_map (fun y => (accepted_cmds y, isRampGeneratorActive (s_rg (fst y)), qe_pos (q_end (fqueue y)))) there_and_back
    = Some (up20 ++ [down 4200 0] ++ down20, false, 0)) by (vm_compute; reflexivity).
  rewrite E in F. cbn [option_map] in F. injection F as F1 F2 F3.
  exists y, true, true, 7, (d_given up20 ++ [DNull] ++ d_first ++ d_rounds 3 ++ d_given (down 4200 0 :: down20) ++ d_rounds 40).
  split; [reflexivity|]. split; [exact F2|]. split; [exact F3|].
  split; [run_ok|]. rewrite F1. run_ok.
Qed.

Print Assumptions C104_moveTo_pulses_partial.
Print Assumptions C104_move_pulses_partial.
Print Assumptions C104_reversal_refuted.

(** * P_KeepRun: C105, keepRunning() *)
From Coq Require Import ZArith Bool List Lia.
From Verif Require Import Base RampCalc RampGen RampRun RampMove KeepRun P_User.
Import ListNotations.
Open Scope Z_scope.

(** ** C105: the motor keeps running into its current direction
    No call is waiting for the task, and the direction of the last run or move call, as stored, is the one of the motor. [strict]:
    the queue refuses commands below MIN_CMD_TICKS, and the ramp is stopped then. *)
Theorem C105_keeps_running_partial : forall A strict n olds g qe cs g' qe',
  apply (rg_params g) = false -> ro_force_stop (rg_ro g) = false -> ro_force_immediate (rg_ro g) = false ->
  keep_running_count_up (parameters (ro_config (rg_ro g))) = qe_up qe ->
  ramp_run A strict olds n (rg_setKeepRunning g) qe = Some (cs, g', qe') ->
  Forall (fun c => c_up c = qe_up qe) cs /\ qe_up qe' = qe_up qe /\ rg_isRunningContinuously g' = true
  /\ (strict = false -> isRampGeneratorActive g = true -> isRampGeneratorActive g' = true).
Proof. exact keep_running_on. Qed.
(** a move of 10 steps upwards, after 3 commands; 60 calls later the motor is far behind the target *)
Example C105_example : match rounds arch_avr 3 (fst (rg_moveTo 10 (at_pos 0) (set_up 10000 8000))) (at_pos 0) with
  | Some (g, qe) => apply (rg_params g) = false /\ ro_force_stop (rg_ro g) = false /\ ro_force_immediate (rg_ro g) = false
      /\ keep_running_count_up (parameters (ro_config (rg_ro g))) = qe_up qe /\ isRampGeneratorActive g = true /\ 0 < qe_pos qe < 10
      /\ match ramp_run arch_avr false olds1 60 (rg_setKeepRunning g) qe with
         | Some (cs, g', qe') => isRampGeneratorActive g' = true /\ 30 < qe_pos qe'
         | None => False
         end
  | None => False
  end.
Proof. vm_compute. repeat split; auto. Qed.
(** During a move downwards the motor turns round: moveTo stores the direction upwards. *)
Theorem C105_backward_refuted : exists A a M pos n m, In A all_archs /\
  match rounds A n (fst (rg_moveTo pos (at_pos 0) (set_up a M))) (at_pos 0) with
  | Some (g, qe) => apply (rg_params g) = false /\ isRampGeneratorActive g = true /\ pos < qe_pos qe < 0 /\ qe_up qe = false
      /\ match rounds A m (rg_setKeepRunning g) qe with
         | Some (g', qe') => isRampGeneratorActive g' = true /\ qe_up qe' = true /\ 0 < qe_pos qe'
         | None => False
         end
  | None => False
  end.
Proof. exists arch_avr, 10000, 8000, (-1000), 10%nat, 60%nat. split; [cbn; auto|]. vm_compute. repeat split; auto. Qed.
(** Called before the task has taken up the move: keepRunning is lost, the motor stops at the target. *)
Theorem C105_pending_refuted : exists A a M pos n, In A all_archs /\
  let g := rg_setKeepRunning (fst (rg_moveTo pos (at_pos 0) (set_up a M))) in
  rg_isRunningContinuously g = true
  /\ match rounds A n g (at_pos 0) with
     | Some (g', qe') => isRampGeneratorActive g' = false /\ qe_pos qe' = pos /\ rg_isRunningContinuously g' = false
     | None => False
     end.
Proof. exists arch_avr, 10000, 8000, 10, 60%nat. split; [cbn; auto|]. vm_compute. repeat split; auto. Qed.

Print Assumptions C105_keeps_running_partial.
Print Assumptions C105_backward_refuted.
Print Assumptions C105_pending_refuted.

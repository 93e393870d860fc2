(** * P_Stop: C76 *)
From Coq Require Import ZArith Bool List Lia.
From Verif Require Import Base RampCalc RampGen Queue QueueHist Stepper StepperHist FrontHist FrontTask UserStop P_Ramp P_End P_User.
Import ListNotations.
Open Scope Z_scope.

(** ** C76: forceStop()

    No command is taken into the queue any more, whatever the task and the interrupts do; what is in
    the queue is carried out. Called between two passes of the task: if no request of the user is
    pending. *)
Theorem C76_between_partial : forall A EXT x l, apply (rg_params (s_rg (fst x))) = false ->
  exists y, trun A EXT l (force_stop A EXT x) = Some y
    /\ accepted_cmds y = accepted_cmds x
    /\ qe_pos (q_end (fqueue y)) = qe_pos (q_end (fqueue x)).
Proof. exact force_between. Qed.
(** Called by an interrupt in the middle of a pass, after the ramp generator has calculated a command:
    always. [tf] is the queue at this moment; the calculated command is dropped. *)
Theorem C76_within : forall A EXT fs ext busy fuel old x y tf l,
  fill_queue_f A EXT fs ext busy fuel old x = Some (y, Some tf) ->
  exists z, trun A EXT l y = Some z
    /\ accepted_cmds z = h_acc (hq_h tf)
    /\ qe_pos (q_end (fqueue z)) = qe_pos (q_end (h_q (hq_h tf))).
Proof. exact force_within. Qed.
(** without such a call [fill_queue_f] is fill_queue *)
Theorem C76_within_none : forall A EXT ext busy fuel old s t,
  fill_queue_f A EXT (fun _ => false) ext busy fuel old (s, t)
  = match fill_queue A hq (hacc A EXT) ext busy fuel old s t with
    | None => None | Some (s', t') => Some (s', t', None) end.
Proof. exact fill_queue_f_none. Qed.
(** The first pass that finds room in the queue ends the ramp at the planned position. *)
Theorem C76_ends : forall A EXT x ext busy fuel old ws, apply (rg_params (s_rg (fst x))) = false -> fuel <> O ->
  checkValidConfig (rg_params (s_rg (fst x))) = MOVE_OK -> isRampGeneratorActive (s_rg (fst x)) = true ->
  isQueueFull A (fqueue x) = false ->
  ticksInQueue A (fqueue x) < s_plan (fst x) \/ queueEntries (fqueue x) <= 1 ->
  exists y, tstep A EXT (TFill ext busy fuel old ws) (force_stop A EXT x) = Some y
    /\ isRampGeneratorActive (s_rg (fst y)) = false
    /\ rg_targetPosition (s_rg (fst y)) = i32 (qe_pos (q_end (fqueue x))).
Proof.
  intros A EXT x ext busy fuel old ws H1 H2 H3 H4 H5 H6. apply force_ends; auto.
  unfold fill_more. rewrite H4, H5. cbn [negb andb]. rewrite andb_true_r. apply orb_true_iff.
  destruct H6 as [H6|H6]; [left; now apply Z.ltb_lt|right; now apply Z.leb_le].
Qed.
(** [force_stop] is the modelled call; in the queue it sets ignore_commands *)
Theorem C76_call : forall A EXT x,
  let r := s_forceStop (fst x) (fqueue x) in
  fst (force_stop A EXT x) = fst r /\ fqueue (force_stop A EXT x) = snd r
  /\ q_ignore (snd r) = true /\ q_rd (snd r) = q_rd (fqueue x) /\ q_wr (snd r) = q_wr (fqueue x)
  /\ q_running (snd r) = q_running (fqueue x).
Proof. intros. repeat split. Qed.
Definition fresh : stepper * hq :=
  (fst (s_moveTo 1000 (a_motor 5 (set_up 10000 8000)) (fqueue (motor0 5 (rg_init 0)))), snd (motor0 5 (rg_init 0))).
Definition old1 : next_command := olds2 O.
Example C76_example :
  match moving with
  | Some x => apply (rg_params (s_rg (fst x))) = false /\ isRampGeneratorActive (s_rg (fst x)) = true
    /\ length (accepted_cmds x) = 7%nat
    /\ match trun arch_avr false [TIsr [EPop; EPop; EPop; EPop; EPop]; some_pass] (force_stop arch_avr false x) with
       | Some y => length (accepted_cmds y) = 7%nat /\ isRampGeneratorActive (s_rg (fst y)) = false
           /\ queueEntries (fqueue y) = 2
       | None => False
       end
  | None => False
  end
  /\ match fill_queue_f arch_avr false (fun n => Nat.eqb n 37) None (fun _ => false) 40 old1 fresh with
     | Some (y, Some tf) => length (h_acc (hq_h tf)) = 2%nat /\ isRampGeneratorActive (s_rg (fst y)) = false
     | _ => False
     end.
Proof. vm_compute. repeat split. Qed.
(** With a pending request the motor goes on: moveTo(1000), some commands, moveTo(2000), forceStop(). *)
Theorem C76_pending_refuted : exists x : stepper * hq,
  length (accepted_cmds x) = 7%nat
  /\ let x' := force_stop arch_avr false (fst (s_moveTo 2000 (fst x) (fqueue x)), snd x) in
     match trun arch_avr false [TIsr [EPop; EPop; EPop; EPop; EPop]; some_pass] x' with
     | Some y => (7 < length (accepted_cmds y))%nat /\ isRampGeneratorActive (s_rg (fst y)) = true
     | None => False
     end.
Proof.
  exists (match moving with Some x => x | None => fresh end).
  split; [vm_compute; reflexivity|]. vm_compute. split; [repeat constructor|reflexivity].
Qed.

Print Assumptions C76_between_partial.
Print Assumptions C76_within.
Print Assumptions C76_within_none.
Print Assumptions C76_ends.
Print Assumptions C76_call.
Print Assumptions C76_pending_refuted.

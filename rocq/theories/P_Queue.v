(** * P_Queue: properties C13-C20, C46-C48, the command queue

    All statements are about [hrun A EXT evs (hinit A garbage p test)]: the state after
    an arbitrary list of events (calls of addQueueEntry in three pieces, interrupt
    actions, stop, clear, position and pin changes), starting with a fresh queue with
    uninitialised entries, on any of the architectures. *)
From Coq Require Import ZArith Bool List Lia.
From Verif Require Import Base Queue QueueFacts QueuePos QueueHist QueueProp.
Import ListNotations.
Open Scope Z_scope.
Ltac Zify.zify_post_hook ::= idtac.

(** ** Concrete objects for examples and counterexamples *)
Definition no_entry : Z -> entry := fun _ => mkEntry 7 true false true true true true 77 777.
Definition low : pins := fun _ => false.
(** a complete call of addQueueEntry(c, start) *)
Definition call (c : command) (start : bool) : list event := [EBegin c start true; ECommit true; EStartQ].
Definition steps (n : Z) (up : bool) : command := mkCommand 5000 n up.
(** direction pin 5, three commands; the first is finished and two steps of the second
    are done *)
Definition sample : list event :=
  [ESetDir 5 true] ++ call (steps 3 true) true ++ call (steps 10 false) true ++ call (steps 4 true) true
  ++ [EDec 1; EDec 2; EPop; EDec 2].
Definition after (A : arch) (evs : list event) : hst := hrun A false evs (hinit A no_entry low false).
Lemma sample_ok : Forall ev_ok sample.
Proof. repeat (constructor; [cbn; unfold cmd_ok; cbn; try lia; try exact I|]). constructor. Qed.
Example sample_state :
  let s := after arch_avr sample in
  h_left s = [steps 3 true] /\ length (pend arch_avr (h_q s)) = 2%nat /\ h_done s = 2 /\
  h_clean s = true /\ h_pc s = Free.
Proof. vm_compute. repeat split. Qed.

(** ** C13: the queue is a bounded FIFO

    The commands whose call returned OK are, in this order and unmodified, the ones
    that left the queue followed by the pending ones. ("Left" includes those dropped
    by a forced stop.) Histories without commands being ignored after a forced stop. *)
Theorem C13_fifo : forall A EXT garbage p test evs, In A all_archs ->
  Forall ev_ok evs -> Forall no_ignore evs ->
  let s := hrun A EXT evs (hinit A garbage p test) in
  ok_results (h_res s) = h_left s ++ pend_cmds (h_done s) (pend A (h_q s)) /\
  (length (pend A (h_q s)) <= Z.to_nat (QUEUE_LEN A))%nat.
Proof. exact (fun A EXT garbage p test evs HA => fifo_lemma A EXT HA garbage p test evs). Qed.
(** any history, also with ignored commands: what was taken into the queue *)
Theorem C13_taken : forall A EXT garbage p test evs, In A all_archs -> Forall ev_ok evs ->
  let s := hrun A EXT evs (hinit A garbage p test) in
  h_acc s = h_left s ++ pend_cmds (h_done s) (pend A (h_q s)).
Proof. exact (fun A EXT garbage p test evs HA => fifo_any A EXT HA garbage p test evs). Qed.
(** a full queue refuses, and nothing changes *)
Theorem C13_full : forall A EXT garbage p test evs c start, In A all_archs -> Forall ev_ok evs ->
  let s := hrun A EXT evs (hinit A garbage p test) in
  h_pc s = Free -> length (pend A (h_q s)) = Z.to_nat (QUEUE_LEN A) ->
  hstep A EXT (EBegin c start true) s =
  mkH (h_q s) (h_pins s) Free (h_done s) (h_base s) (h_started s) (h_clean s) (h_acc s) (h_left s)
      (h_res s ++ [(c, AQE_QUEUE_FULL)]) (h_log s).
Proof. exact (fun A EXT garbage p test evs c start HA => full_lemma A EXT HA garbage p test evs c start). Qed.
(** the machine's three pieces are one uninterrupted call of addQueueEntry *)
Theorem C13_pieces : forall A EXT s r1 r2 c start, h_pc s = Free ->
  let r := q_add A EXT r1 r2 c start (h_q s) (h_pins s) in
  let s' := hrun A EXT [EBegin c start r1; ECommit r2; EStartQ] s in
  h_q s' = a_q r /\ h_pc s' = Free /\ h_res s' = h_res s ++ [(c, a_code r)] /\
  (a_started r = false -> h_pins s' = a_pins r).
Proof. exact (fun A EXT => add_pieces A EXT). Qed.
(** after forceStop() the flag ignore_commands is set: the call returns OK and the
    command is dropped *)
Theorem C13_ignored_refuted : exists evs, Forall ev_ok evs /\
  let s := after arch_avr evs in
  ok_results (h_res s) = [steps 3 true] /\ h_left s = [] /\ pend arch_avr (h_q s) = [].
Proof.
  exists (EIgnore true :: call (steps 3 true) true). split.
  - repeat (constructor; [cbn; unfold cmd_ok; cbn; try lia; try exact I|]). constructor.
  - vm_compute. repeat split.
Qed.
Example C13_example :
  let s := after arch_avr sample in
  ok_results (h_res s) = [steps 3 true; steps 10 false; steps 4 true] /\
  h_left s = [steps 3 true] /\
  pend_cmds (h_done s) (pend arch_avr (h_q s)) = [steps 10 false; steps 4 true].
Proof. vm_compute. repeat split. Qed.
Definition filled : list event := concat (repeat (call (steps 1 true) false) 16).
Example C13_full_example :
  length (pend arch_avr (h_q (after arch_avr filled))) = 16%nat /\ h_pc (after arch_avr filled) = Free.
Proof. vm_compute. repeat split. Qed.

(** ** C14: refused commands have no effect

    For any queue whatsoever, if the driver does not become unready during the call. *)
Theorem C14_refused : forall A EXT ready c start q p,
  let r := q_add A EXT ready true c start q p in
  a_code r <> AQE_OK -> a_q r = q /\ a_pins r = p /\ a_started r = false.
Proof. exact (fun A EXT => refused_lemma A EXT). Qed.
(** If the driver becomes unready between the two checks of isReadyForCommands() (ESP32
    RMT: the transmission stops) the call is refused, but direction pin and planned
    direction were already changed. *)
Theorem C14_refused_refuted : exists c q p,
  let r := q_add arch_esp32 true true false c true q p in
  a_code r = AQE_DEVICE_NOT_READY /\ a_pins r 5 <> p 5 /\
  qe_dir (q_end (a_q r)) <> qe_dir (q_end q).
Proof.
  exists (steps 1 false), (set_dir 5 true (q_init arch_esp32 no_entry false)), (upd low 5 true).
  vm_compute. repeat split; discriminate.
Qed.
Example C14_example : a_code (q_add arch_avr true true true (mkCommand 100 1 true) true
  (q_init arch_avr no_entry false) low) = AQE_ERROR_TICKS_TOO_LOW.
Proof. reflexivity. Qed.

(** ** C15: accepted commands last at least MIN_CMD_TICKS

    The part about the fastest allowed period is in P_Stepper: the queue itself does
    not check it. *)
Theorem C15_min_duration : forall A EXT garbage p test evs, In A all_archs -> Forall ev_ok evs ->
  let s := hrun A EXT evs (hinit A garbage p test) in
  Forall (fun c => MIN_CMD_TICKS A <= c_ticks c * Z.max 1 (c_steps c))
    (h_left s ++ pend_cmds (h_done s) (pend A (h_q s))).
Proof. exact (fun A EXT garbage p test evs HA => long_lemma A EXT HA garbage p test evs). Qed.

(** ** C16: planned position = sum of the accepted steps *)
Theorem C16_planned_position : forall A EXT garbage p test evs0 evs, In A all_archs ->
  Forall ev_ok evs0 -> Forall ev_ok evs -> Forall no_setpos evs ->
  let s0 := hrun A EXT evs0 (hinit A garbage p test) in
  let s := hrun A EXT evs s0 in
  exists new, h_acc s = h_acc s0 ++ new /\
    qe_pos (q_end (h_q s)) =
    i32 (qe_pos (q_end (h_q s0)) +
         fold_right Z.add 0 (map (fun c => if c_up c then c_steps c else - c_steps c) new)).
Proof.
  exact (fun A EXT garbage p test evs0 evs HA H0 H1 H2 =>
    planned_run A EXT HA evs _ (inv_run A EXT HA evs0 _ (inv_init A HA garbage p test) H0) H1 H2).
Qed.
Example C16_example : qe_pos (q_end (h_q (after arch_avr sample))) = 3 - 10 + 4.
Proof. reflexivity. Qed.

(** ** C17: getCurrentPosition counts the performed steps

    From any state with an empty queue. [performed]: commands that left the queue
    since; [h_done]: performed steps of the running command. *)
Theorem C17_current_position_end : forall A EXT garbage p test evs0 evs done_p, In A all_archs ->
  END_POS A = true ->
  Forall ev_ok evs0 -> Forall ev_ok evs -> Forall no_setpos evs -> Forall no_clear evs ->
  let s0 := hrun A EXT evs0 (hinit A garbage p test) in
  let s := hrun A EXT evs s0 in
  pend A (h_q s0) = [] ->
  exists performed, h_left s = h_left s0 ++ performed /\
    getCurrentPosition A done_p (h_q s) =
    i32 (qe_pos (q_end (h_q s0)) + sumd performed +
         match pend A (h_q s) with [] => 0 | e :: _ => sgn (e_up e) (h_done s) end).
Proof.
  exact (fun A EXT garbage p test evs0 evs done_p HA => position_run_end A EXT HA garbage p test evs0 evs done_p).
Qed.
(** ESP32: the entries are not counted down; [done_p] is the pulse counter *)
Theorem C17_current_position_start : forall A EXT garbage p test evs0 evs done_p, In A all_archs ->
  END_POS A = false ->
  Forall ev_ok evs0 -> Forall ev_ok evs -> Forall no_setpos evs -> Forall no_clear evs ->
  Forall no_dec evs0 -> Forall no_dec evs ->
  let s0 := hrun A EXT evs0 (hinit A garbage p test) in
  let s := hrun A EXT evs s0 in
  pend A (h_q s0) = [] ->
  match pend A (h_q s) with [] => done_p = 0 | e :: _ => 0 <= done_p <= e_steps e end ->
  exists performed, h_left s = h_left s0 ++ performed /\
    getCurrentPosition A done_p (h_q s) =
    i32 (qe_pos (q_end (h_q s0)) + sumd performed +
         match pend A (h_q s) with [] => 0 | e :: _ => sgn (e_up e) done_p end).
Proof.
  exact (fun A EXT garbage p test evs0 evs done_p HA => position_run_start A EXT HA garbage p test evs0 evs done_p).
Qed.
(** The RMT driver counts the entry down in chunks and _getPerformedPulses() is always 0
    (src/StepperISR_idf5_esp32_rmt.cpp): the steps done are not seen. *)
Theorem C17_rmt_refuted : exists evs, Forall ev_ok evs /\
  let s := after arch_esp32 evs in
  h_done s = 40 /\ getCurrentPosition arch_esp32 0 (h_q s) = 0.
Proof.
  exists (call (steps 100 true) true ++ [EDec 40]). split.
  - repeat (constructor; [cbn; unfold cmd_ok; cbn; try lia; try exact I|]). constructor.
  - vm_compute. repeat split.
Qed.
Example C17_example : getCurrentPosition arch_avr 0 (h_q (after arch_avr sample)) = 3 - 2 /\
  getCurrentPosition arch_esp32 7 (h_q (after arch_esp32 (ESetPos 2147483640 :: call (steps 20 true) true)))
  = 2147483647.
Proof. vm_compute. split; reflexivity. Qed.

(** ** C18: setting the position *)
Theorem C18_idle : forall A EXT garbage p test evs done_p new_pos, In A all_archs -> Forall ev_ok evs ->
  let s := hrun A EXT evs (hinit A garbage p test) in
  pend A (h_q s) = [] -> -2147483648 <= new_pos < 2147483648 ->
  getCurrentPosition A done_p (q_setCurrentPosition A done_p new_pos (h_q s)) = new_pos /\
  getCurrentPosition A done_p (q_setPositionAfter new_pos (h_q s)) = new_pos.
Proof.
  exact (fun A EXT garbage p test evs done_p new_pos HA H0 =>
    set_position_empty A _ done_p new_pos (inv_run A EXT HA evs _ (inv_init A HA garbage p test) H0)).
Qed.
(** With pending commands setCurrentPosition() works exactly if the position is moved by
    a multiple of 65536: the entries keep the low 16 bits of the old position. *)
Theorem C18_moving_iff : forall A EXT garbage p test evs done_p new_pos, In A all_archs -> Forall ev_ok evs ->
  let s := hrun A EXT evs (hinit A garbage p test) in
  h_clean s = true -> pend A (h_q s) <> [] -> -2147483648 <= new_pos < 2147483648 ->
  (getCurrentPosition A done_p (q_setCurrentPosition A done_p new_pos (h_q s)) = new_pos <->
   (new_pos - getCurrentPosition A done_p (h_q s)) mod 65536 = 0).
Proof.
  exact (fun A EXT garbage p test evs done_p new_pos HA H0 =>
    set_position_iff A HA _ done_p new_pos (inv_run A EXT HA evs _ (inv_init A HA garbage p test) H0)).
Qed.
(** e.g. at position 1, setCurrentPosition(1000): still 1 is reported; for 100000 it is
    131073 *)
Theorem C18_moving_refuted : exists evs, Forall ev_ok evs /\
  let q := h_q (after arch_avr evs) in
  getCurrentPosition arch_avr 0 q = 1 /\
  getCurrentPosition arch_avr 0 (q_setCurrentPosition arch_avr 0 1000 q) = 1 /\
  getCurrentPosition arch_avr 0 (q_setCurrentPosition arch_avr 0 100000 q) = 131073.
Proof. exists sample. split; [exact sample_ok|]. vm_compute. repeat split. Qed.
(** once the queue is empty again, the reading is the new position plus later steps *)
Theorem C18_after_drain : forall A EXT garbage p test evs0 evs new_pos done_p, In A all_archs ->
  Forall ev_ok evs0 -> Forall ev_ok evs -> Forall no_setpos evs ->
  -2147483648 <= new_pos < 2147483648 ->
  let s0 := hstep A EXT (ESetPos new_pos) (hrun A EXT evs0 (hinit A garbage p test)) in
  let s := hrun A EXT evs s0 in
  h_pc (hrun A EXT evs0 (hinit A garbage p test)) = Free ->
  pend A (h_q s) = [] ->
  exists new, h_acc s = h_acc s0 ++ new /\
    getCurrentPosition A done_p (h_q s) = i32 (new_pos + sumd new).
Proof.
  exact (fun A EXT garbage p test evs0 evs new_pos done_p HA => drain_lemma A EXT HA garbage p test evs0 evs new_pos done_p).
Qed.

(** ** C19: remaining time *)
Theorem C19_ticks_in_queue : forall A EXT garbage p test evs, In A all_archs -> Forall ev_ok evs ->
  let s := hrun A EXT evs (hinit A garbage p test) in
  let behind := tl (pend_cmds (h_done s) (pend A (h_q s))) in
  let time := fold_right Z.add 0 (map (fun c => c_ticks c * Z.max 1 (c_steps c)) behind) in
  ticksInQueue A (h_q s) = time /\
  (forall t, 0 < t < 4294967296 -> hasTicksInQueue A t (h_q s) = (t <=? time)).
Proof.
  exact (fun A EXT garbage p test evs HA H0 =>
    ticks_lemma A HA _ (inv_run A EXT HA evs _ (inv_init A HA garbage p test) H0)).
Qed.
Example C19_example : ticksInQueue arch_avr (h_q (after arch_avr sample)) = 20000 /\
  hasTicksInQueue arch_avr 20000 (h_q (after arch_avr sample)) = true /\
  hasTicksInQueue arch_avr 20001 (h_q (after arch_avr sample)) = false.
Proof. vm_compute. repeat split. Qed.

(** ** C20: the direction pin at every step

    [h_log] has for each decrement or completion of a step command the pin level and
    the level belonging to the command. *)
Theorem C20_direction_pin : forall A EXT garbage p test evs, In A all_archs -> Forall ev_ok evs ->
  let s := hrun A EXT evs (hinit A garbage p test) in
  Forall (fun x => fst x = snd x) (h_log s).
Proof.
  exact (fun A EXT garbage p test evs HA H0 =>
    iv_log A _ (inv_run A EXT HA evs _ (inv_init A HA garbage p test) H0)).
Qed.
Example C20_example : h_log (after arch_avr sample) =
  [(true, true); (true, true); (false, false)].
Proof. vm_compute. reflexivity. Qed.

(** ** C46: a position change is not lost when it interrupts addQueueEntry

    addQueueEntry copies queue_end before its critical section
    (src/StepperISR.cpp:63, 109-111) and writes the copy back inside it (line 123). A
    position set in between, by the other core, is lost. *)
Theorem C46_position_race_refuted : exists c q p,
  let q1 := fst (add_prepare arch_esp32 true c q p) in
  let q2 := q_setPositionAfter 1000 q1 in
  let q3 := fst (add_commit true (next_end c q) q2) in
  qe_pos (q_end q2) = 1000 /\ qe_pos (q_end q3) = 1.
Proof. exists (steps 1 true), (q_init arch_esp32 no_entry false), low. vm_compute. split; reflexivity. Qed.
(** without such an interruption the change is kept: C16 and C18_after_drain *)
Theorem C46_position_kept_partial : forall A EXT garbage p test evs0 evs new_pos, In A all_archs ->
  Forall ev_ok evs0 -> Forall ev_ok evs -> Forall no_setpos evs ->
  -2147483648 <= new_pos < 2147483648 ->
  let s0 := hstep A EXT (ESetPos new_pos) (hrun A EXT evs0 (hinit A garbage p test)) in
  let s := hrun A EXT evs s0 in
  h_pc (hrun A EXT evs0 (hinit A garbage p test)) = Free ->
  exists new, h_acc s = h_acc s0 ++ new /\ qe_pos (q_end (h_q s)) = i32 (new_pos + sumd new).
Proof.
  exact (fun A EXT garbage p test evs0 evs new_pos HA => kept_lemma A EXT HA garbage p test evs0 evs new_pos).
Qed.

(** ** C47: the reported speed is that of the running command *)
Theorem C47_actual_speed : forall A EXT garbage p test evs, In A all_archs -> Forall ev_ok evs ->
  let s := hrun A EXT evs (hinit A garbage p test) in
  getActualTicksWithDirection A (h_q s) =
  match pend_cmds (h_done s) (pend A (h_q s)) with
  | [] => (true, Some 0, None)
  | c :: t => if c_steps c >? 0
              then ((c_steps c >? 1) || match t with [] => false | c2 :: _ => c_steps c2 >? 0 end,
                    Some (c_ticks c), Some (c_up c))
              else (false, None, None)
  end.
Proof.
  exact (fun A EXT garbage p test evs HA H0 =>
    actual_lemma A HA _ (inv_run A EXT HA evs _ (inv_init A HA garbage p test) H0)).
Qed.
Example C47_example : getActualTicksWithDirection arch_avr (h_q (after arch_avr sample)) =
  (true, Some 5000, Some false).
Proof. reflexivity. Qed.

Print Assumptions C13_fifo.
Print Assumptions C13_taken.
Print Assumptions C13_full.
Print Assumptions C13_pieces.
Print Assumptions C13_ignored_refuted.
Print Assumptions C14_refused.
Print Assumptions C14_refused_refuted.
Print Assumptions C15_min_duration.
Print Assumptions C16_planned_position.
Print Assumptions C17_current_position_end.
Print Assumptions C17_current_position_start.
Print Assumptions C17_rmt_refuted.
Print Assumptions C18_idle.
Print Assumptions C18_moving_iff.
Print Assumptions C18_moving_refuted.
Print Assumptions C18_after_drain.
Print Assumptions C19_ticks_in_queue.
Print Assumptions C20_direction_pin.
Print Assumptions C46_position_race_refuted.
Print Assumptions C46_position_kept_partial.
Print Assumptions C47_actual_speed.

(** * P_Avr: properties C21-C23 and C48, the AVR interrupt driver *)
From Coq Require Import ZArith Bool List Lia.
From Verif Require Import Base Queue QueueFacts QueuePos QueueHist QueueProp AvrIsr.
Import ListNotations.
Open Scope Z_scope.
Ltac Zify.zify_post_hook ::= idtac.

(** ** Concrete objects for examples and counterexamples *)
Definition junk : Z -> entry := fun _ => mkEntry 7 true false true true true true 77 777.
Definition steps (n : Z) (up : bool) : command := mkCommand 5000 n up.
(** idle driver with direction pin 5, high counts up *)
Definition fresh : avr :=
  v_of (hrun arch_avr false [ESetDir 5 true] (hinit arch_avr junk (fun _ => false) false)).
(** a complete addQueueEntry(c, true) at time [now] *)
Definition add (c : command) (now : Z) : list vevent := [VBegin c true; VCommit; VStart now].
Definition run (evs : list vevent) : avr * list pulse := vrun false evs fresh.

(** ** C21: pulses at the commanded times

    From any stopped state reached by any history of the queue: after startQueue() at
    time [now], with commands being added (in interruptible pieces) while the queue is
    not empty, the emitted pulses followed by the ones still to come are those of the
    commands pending at the start and of those added, see [pulses] in AvrIsr.v. No
    external direction pin ([plain]). When the interrupt is off everything was emitted,
    exactly at the end of the last command. *)
Theorem C21_pulses : forall EXT garbage p test hevs now es, Forall ev_ok hevs ->
  let h := hrun arch_avr EXT hevs (hinit arch_avr garbage p test) in
  plain EXT (h_q h) -> h_pc h = Free -> q_running (h_q h) = false -> nonempty (h_q h) = true ->
  let v0 := avr_start now (v_of h) in
  calm EXT es v0 ->
  let v := fst (vrun EXT es v0) in
  let emitted := snd (vrun EXT es v0) in
  let commands := rest (h_q h) ++ taken EXT es v0 in
  emitted ++ pulses (v_next v) (dir_of (h_q h)) (rest (v_q v)) =
    pulses (now + 10) (dir_of (h_q h)) commands /\
  (v_irq v = false ->
     emitted = pulses (now + 10) (dir_of (h_q h)) commands /\
     v_next v = end_time (now + 10) commands /\
     q_running (v_q v) = false /\ v_nomore v = false).
Proof. exact avr_session. Qed.
(** without further commands the driver stops: after one compare event per pulse or
    pause and one at the end *)
Theorem C21_stops : forall EXT garbage p test hevs now, Forall ev_ok hevs ->
  let h := hrun arch_avr EXT hevs (hinit arch_avr garbage p test) in
  plain EXT (h_q h) -> h_pc h = Free -> q_running (h_q h) = false -> nonempty (h_q h) = true ->
  let v := fst (vrun EXT (repeat VIsr (S (count (rest (h_q h))))) (avr_start now (v_of h))) in
  v_irq v = false /\ q_running (v_q v) = false /\ v_nomore v = false /\ rest (v_q v) = [].
Proof. exact avr_stops. Qed.
Example C21_example :
  let r := run (add (steps 3 true) 0 ++ [VIsr] ++ add (steps 2 false) 0 ++ add (mkCommand 700 0 true) 0
                ++ repeat VIsr 6) in
  snd r = [(10, Some true); (5010, Some true); (10010, Some true); (15010, Some false); (20010, Some false)]
  /\ v_irq (fst r) = false /\ v_next (fst r) = 25710.
Proof. vm_compute. repeat split. Qed.

(** ** C22: refilling during the last period of the last command

    [MDrain]: the queue is empty and the driver waits for the end of the last command at
    time [v_next v]. A command with one step is executed correctly, 10 ticks later; a
    pause is executed after an additional pause of the same length. *)
Theorem C22_refill_partial : forall EXT v h c start es,
  in_mode EXT MDrain v h -> v_pc v = Free -> q_ignore (v_q v) = false ->
  cmd_ok c -> MIN_CMD_TICKS arch_avr <= c_ticks c * Z.max 1 (c_steps c) -> c_steps c <= 1 ->
  let v1 := fst (vrun EXT [VBegin c start; VCommit; VStart 0; VIsr] v) in
  calm EXT es v1 ->
  let v2 := fst (vrun EXT es v1) in
  snd (vrun EXT [VBegin c start; VCommit; VStart 0; VIsr] v) = [] /\
  snd (vrun EXT es v1) ++ pulses (v_next v2) (dir_of (v_q v1)) (rest (v_q v2)) =
    pulses (v_next v + (if c_steps c =? 0 then c_ticks c else 10)) (dir_of (v_q v1)) (c :: taken EXT es v1).
Proof. exact avr_refill. Qed.
(** Three steps down at 5000 ticks, added in the last period of one step up: two steps
    are made in the wrong direction and the third follows after 10 ticks. So they are not
    the pulses of the command, whenever it starts. *)
Definition draining : avr := fst (run (add (steps 1 true) 0 ++ [VIsr])).
Theorem C22_refill_refuted : exists v c,
  v_nomore v = true /\ q_running (v_q v) = true /\ nonempty (v_q v) = false /\ level v = Some true /\
  snd (vrun false (add c 0 ++ repeat VIsr 6) v) = [(10010, Some true); (15010, Some true); (15020, Some false)] /\
  forall t, snd (vrun false (add c 0 ++ repeat VIsr 6) v) <> pulses t (dir_of (v_q v)) [c].
Proof.
  exists draining, (steps 3 false). repeat (split; [vm_compute; reflexivity|]). intros t.
  assert (E : snd (vrun false (add (steps 3 false) 0 ++ repeat VIsr 6) draining) =
    [(10010, Some true); (15010, Some true); (15020, Some false)]) by (vm_compute; reflexivity).
  rewrite E. discriminate.
Qed.
(** A pause of 5000 ticks takes 10000: the last command ends at 5010, so the step after
    the pause is due at 10010. *)
Theorem C22_pause_refuted : exists v,
  v_nomore v = true /\ v_next v = 5010 /\
  snd (vrun false (add (mkCommand 5000 0 true) 0 ++ add (steps 1 true) 0 ++ repeat VIsr 6) v) =
  [(15010, Some true)].
Proof. exists draining. vm_compute. repeat split. Qed.
Example C22_example :
  let v := fst (run (add (steps 1 true) 0 ++ [VIsr])) in
  v_nomore v = true /\ v_pc v = Free /\ v_next v = 5010 /\ q_running (v_q v) = true.
Proof. vm_compute. repeat split. Qed.

(** ** C23: commands after a forced stop

    If the driver is not in the last period of the last command the forced stop leaves
    an idle driver, and C21 applies to what follows. *)
Theorem C23_force_stop_partial : forall EXT v h m,
  in_mode EXT m v h -> v_nomore v = false -> v_pc v = Free ->
  exists h', in_mode EXT MIdle (avr_forceStop v) h' /\ rest (v_q (avr_forceStop v)) = [].
Proof. exact force_stop. Qed.
(** from an idle driver with added commands: the same statement as C21_pulses *)
Theorem C23_next_session_partial : forall EXT v h now es,
  in_mode EXT MIdle v h -> nonempty (v_q v) = true -> v_pc v = Free \/ v_pc v = Committed true ->
  let v0 := avr_start now v in
  calm EXT es v0 ->
  let v2 := fst (vrun EXT es v0) in
  snd (vrun EXT es v0) ++ pulses (v_next v2) (dir_of (v_q v)) (rest (v_q v2)) =
    pulses (now + 10) (dir_of (v_q v)) (rest (v_q v) ++ taken EXT es v0).
Proof. exact avr_restart. Qed.
(** Forced stop in the last period: _noMoreCommands stays set, and the next command of
    two steps makes three pulses. *)
Theorem C23_force_stop_refuted : exists v c,
  nonempty (v_q v) = false /\ v_irq v = true /\
  let r := vrun false (add c 20000 ++ repeat VIsr 6) (avr_forceStop v) in
  c_steps c = 2 /\ length (snd r) = 3%nat /\ v_irq (fst r) = false /\
  qe_pos (q_end (v_q (fst r))) = qe_pos (q_end (v_q v)) + 2.
Proof. exists draining, (steps 2 true). vm_compute. repeat split. Qed.

(** ** C48: the driver is never started with an empty queue

    An uninterrupted addQueueEntry starts the queue only if it is not empty. *)
Theorem C48_start_not_empty_partial : forall EXT r1 r2 c start q p, wf arch_avr q ->
  q_ignore q = false ->
  let r := q_add arch_avr EXT r1 r2 c start q p in
  a_started r = true -> nonempty (a_q r) = true.
Proof. exact start_not_empty. Qed.
(** While commands are ignored after a forced stop, a command with start = true is
    dropped, but the queue is started and emits a pulse that is not counted. *)
Theorem C48_ignored_start_refuted : exists v c,
  let r := vrun false (add c 0 ++ [VIsr; VIsr]) v in
  length (snd r) = 1%nat /\ qe_pos (q_end (v_q (fst r))) = qe_pos (q_end (v_q v)) /\
  taken false (add c 0) v = [].
Proof.
  exists (mkAvr (set_ignore true (v_q fresh)) (v_pins fresh) Free false false 0 false), (steps 1 true).
  vm_compute. repeat split.
Qed.
(** If between the critical section and the test of isRunning() (src/StepperISR.cpp:135,
    135) the interrupt executes everything and stops, the queue is started again while
    empty; the entry at the read index is old. It has steps here, giving a pulse too
    much. *)
Definition cycled : list vevent :=
  (* 16 commands are executed, so that the read index points to a used entry *)
  concat (repeat (add (steps 2 true) 0 ++ [VIsr; VIsr; VIsr]) 16).
Theorem C48_late_start_refuted : exists es,
  let r := run es in
  taken false es fresh = repeat (steps 2 true) 16 ++ [steps 1 true; steps 1 true] /\
  qe_pos (q_end (v_q (fst r))) = 34 /\ length (snd r) = 35%nat.
Proof.
  exists (cycled ++ add (steps 1 true) 0
          ++ [VBegin (steps 1 true) true; VCommit] ++ [VIsr; VIsr; VIsr] ++ [VStart 100000; VIsr]).
  vm_compute. repeat split.
Qed.

Print Assumptions C21_pulses.
Print Assumptions C21_stops.
Print Assumptions C22_refill_partial.
Print Assumptions C22_refill_refuted.
Print Assumptions C22_pause_refuted.
Print Assumptions C23_force_stop_partial.
Print Assumptions C23_next_session_partial.
Print Assumptions C23_force_stop_refuted.
Print Assumptions C48_start_not_empty_partial.
Print Assumptions C48_ignored_start_refuted.
Print Assumptions C48_late_start_refuted.

(** * P_Ext: a direction pin behind an external function: C84, C85 *)
From Coq Require Import ZArith Bool List Lia.
From Verif Require Import Base RampCalc RampGen Queue QueueFacts QueuePos QueueHist Stepper StepperHist
  FrontHist FrontProp Rmt ExtDir ExtFront.
Import ListNotations.
Open Scope Z_scope.
Ltac Zify.zify_post_hook ::= idtac.

Definition zero_entry : Z -> entry := fun _ => mkEntry 0 false false false false false false 0 0.
(** the external function does what it is told; pin 0 of the port expander *)
Definition obey : Z -> bool -> bool := fun _ l => l.
Definition ext_pin : Z := 128.
Definition x_fresh (A : arch) (hcu : bool) : xst :=
  x_setDirectionPin (Some obey) ext_pin hcu (mkX (q_init A zero_entry false) false None [] 0).
Definition x_add (c : command) : list xev := [XBegin true c; XCommit true].
Definition x_pause (up : bool) : command := mkCommand 8000 0 up.
Definition x_steps (n : Z) (up : bool) : command := mkCommand 40000 n up.
Definition the_task : list xev := [XTask (Some obey)].

(** ** C84: every step is made with the direction pin at the level of its command

    [x_log]: for every step the level of the external pin at that time and the level of the
    command; [x_again]: steps made by repeating an entry. [all_fine]: commands with steps
    have the direction of the command before them (C85), turning commands are not dropped at
    the end of addQueueEntry, forceStopAndNewPosition() comes only when no turn is in the
    queue, the external function reports the level asked for or leaves the pin as it is. The interrupt
    and the task may run at any time, also within addQueueEntry. *)
Theorem C84_levels_partial : forall A s evs, In A all_archs -> xstart A s -> all_fine A evs s ->
  Forall (fun p => fst p = snd p) (x_log (xrun A evs s)) /\ x_again (xrun A evs s) = 0.
Proof. exact (fun A s evs HA => ext_levels A HA s evs). Qed.
(** the start condition after setDirectionPin(pin, true) *)
Theorem C84_start_partial : forall A g pin garbage test, In A all_archs ->
  pin <> PIN_UNDEFINED -> is_external pin = true -> g pin true = true ->
  (forall i, e_repeat (garbage i) = false) ->
  xstart A (x_setDirectionPin (Some g) pin true (mkX (q_init A garbage test) false None [] 0)).
Proof. exact (fun A g pin garbage test HA => start_up A HA g pin garbage test). Qed.
(** The task on a flagged entry: if the function reports the level of the entry, the flag is
    gone and the rest of the queue is untouched; otherwise the task reports failure (and
    the queue is not filled), nothing changes. *)
Theorem C84_task : forall A g q lvl, In A all_archs ->
  q_pin q <> PIN_UNDEFINED -> is_external (q_pin q) = true ->
  wf A q -> queueEntries q <> 0 -> e_repeat (head A q) = true ->
  let want := e_dirstate (head A q) in
  (g (q_pin q) want = want ->
     exists q', extDirStep A (Some g) q lvl = (q', want, true) /\
       e_repeat (head A q') = false /\ pend A (q_pop q') = pend A (q_pop q)) /\
  (g (q_pin q) want = negb want ->
     extDirStep A (Some g) q lvl = (q, negb want, false)).
Proof. exact (fun A g q lvl HA => ext_task A HA g q lvl). Qed.
(** up 3, turn, down 2: the flagged pause is repeated until the task has switched the pin *)
Definition ev84 : list xev :=
  x_add (x_steps 3 true) ++ x_add (x_pause false) ++ x_add (x_pause false) ++ x_add (x_steps 2 false)
  ++ [XDec 1; XDec 1; XEnd; XEnd; XEnd; XEnd] ++ the_task ++ [XEnd; XEnd; XDec 1; XEnd].
Example C84_example :
  xstart arch_avr (x_fresh arch_avr true) /\ all_fine arch_avr ev84 (x_fresh arch_avr true)
  /\ x_log (xrun arch_avr ev84 (x_fresh arch_avr true))
     = [(false, false); (false, false); (true, true); (true, true); (true, true)]
  /\ queueEntries (x_q (xrun arch_avr ev84 (x_fresh arch_avr true))) = 0.
Proof.
  split.
  - apply (start_up arch_avr); [right; left; reflexivity|discriminate|reflexivity|reflexivity|reflexivity].
  - vm_compute. repeat (split; try (left; reflexivity); try (right; reflexivity); try reflexivity;
      try (intros; discriminate); try (left; split; reflexivity); auto).
Qed.

(** forceStopAndNewPosition() while a turn is in the queue: queue_end.dir is already the new direction, the
    pin never gets there, and the next command in the new direction runs at the old level *)
Theorem C84_force_stop_refuted : exists evs,
  evs = x_add (x_pause false) ++ x_add (x_pause false) ++ [XClear] ++ the_task
        ++ x_add (x_steps 1 false) ++ the_task ++ [XEnd]
  /\ x_log (xrun arch_avr evs (x_fresh arch_avr true)) = [(true, false)].
Proof. eexists. split; [reflexivity|]. vm_compute. reflexivity. Qed.
(** The flag of an entry skipped by forceStopAndNewPosition() stays in the array: one round later, with the
    queue empty, the task switches the pin, and the next command runs at the wrong level *)
Definition ev_turn (up : bool) : list xev :=
  x_add (x_pause up) ++ x_add (x_pause up) ++ the_task ++ [XEnd; XEnd].
Fixpoint ev_singles (n : nat) : list xev :=
  match n with O => [] | S k => x_add (x_steps 1 true) ++ [XEnd] ++ ev_singles k end.
Theorem C84_stale_flag_refuted :
  let s1 := xrun arch_avr (x_add (x_pause false) ++ x_add (x_pause false) ++ [XClear]
              ++ ev_turn true ++ ev_singles 12) (x_fresh arch_avr true) in
  Forall (fun p => fst p = snd p) (x_log s1) /\ queueEntries (x_q s1) = 0 /\ x_lvl s1 = true
  /\ x_lvl (xrun arch_avr the_task s1) = false
  /\ hd (true, true) (x_log (xrun arch_avr (the_task ++ x_add (x_steps 1 true) ++ [XEnd]) s1))
     = (false, true).
Proof. vm_compute. repeat split; repeat constructor. Qed.
(** A turning command dropped at the end of addQueueEntry (device not ready, or forceStop() has
    been called in the meantime) leaves its flag in the free slot; the task switches the pin for
    a command that was not queued *)
Theorem C84_refused_refuted : exists evs,
  evs = [XBegin true (x_pause false); XCommit false] ++ the_task ++ x_add (x_steps 1 true) ++ [XEnd]
  /\ x_log (xrun arch_esp32 evs (x_fresh arch_esp32 true)) = [(false, true)].
Proof. eexists. split; [reflexivity|]. vm_compute. reflexivity. Qed.
Theorem C84_ignored_refuted : exists evs,
  evs = [XBegin true (x_pause false); XIgnore true; XCommit true] ++ the_task ++ [XIgnore false]
        ++ x_add (x_steps 1 true) ++ [XEnd]
  /\ x_log (xrun arch_avr evs (x_fresh arch_avr true)) = [(false, true)].
Proof. eexists. split; [reflexivity|]. vm_compute. reflexivity. Qed.
(** dirHighCountsUp = false: queue_end.dir starts as true, so the first upward command is
    flagged although it has steps and no pause is put in front; its last step is repeated
    until the task comes *)
Theorem C84_first_command_refuted :
  (let s := st_dir ext_pin false 0 (s_init arch_avr 0 9) in
   let r := s_add arch_avr (queue * pins) (plain arch_avr true) (Some obey) false (x_steps 3 true)
              true s (x_q (x_fresh arch_avr false), fun _ => false) in
   snd r = AQE_OK
   /\ map (fun e => (e_steps e, e_repeat e)) (pend arch_avr (fst (snd (fst r)))) = [(3, true)])
  /\ (let x := xrun arch_avr (x_add (x_steps 3 true) ++ [XDec 1; XDec 1; XEnd; XEnd; XEnd] ++ the_task
                 ++ [XEnd]) (x_fresh arch_avr false) in
      queueEntries (x_q x) = 0 /\ length (x_log x) = 6%nat).
Proof. vm_compute. repeat split. Qed.
(** The RMT encoder removes an entry when its symbols are written. The flagged pause is then at
    the head of the queue, and the task switches the pin before the step has been sent. *)
Theorem C84_rmt_refuted :
  let q := x_q (xrun arch_esp32 (x_add (x_steps 1 true) ++ x_add (x_pause false)) (x_fresh arch_esp32 true)) in
  let r := start_rmt arch_esp32 (mkRmt q (fun _ => false) false false) in
  let '(r1, ws, _) := encode 32 arch_esp32 64 r in
  rises false (signal ws) = 1 /\ e_up (head arch_esp32 (r_q r)) = true
  /\ snd (fst (extDirStep arch_esp32 (Some obey) (r_q r1) true)) = false.
Proof. vm_compute. repeat split. Qed.

(** ** C85: the front end turns only at pauses
    [turns_at_pauses true]: every accepted command has the direction of its predecessor
    (upwards before the first one) or makes no steps. Any history of calls, any weather. *)
Theorem C85_turns : forall A EXT garbage p ep m s evs, In A all_archs -> conf_ok s ->
  is_external (s_dirpin s) = true -> Forall fev_ok evs ->
  turns_at_pauses true (accepted_cmds (frun A EXT evs (finit A garbage p ep m s))).
Proof. exact (fun A EXT garbage p ep m s evs HA => front_turns A EXT HA garbage p ep m s evs). Qed.
(** Without enable delay: two pauses of 500 us, the first one carries the turn *)
Theorem C85_two_pauses_partial : forall A EXT ext busy c start s t, In A all_archs ->
  good A t -> cmd_ok c -> conf_ok s ->
  is_external (s_dirpin s) = true -> q_ignore (tqueue t) = false ->
  s_auto s && (s_cnt s =? 0) = false -> c_up c <> up_of t ->
  snd (s_add A hq (hacc A EXT) ext busy c start s t) = AQE_OK ->
  exists d, d = 500 * TICKS_PER_US A /\
  acc_of (snd (fst (s_add A hq (hacc A EXT) ext busy c start s t)))
  = acc_of t ++ [mkCommand d 0 (c_up c); mkCommand d 0 (c_up c); c].
Proof. exact (fun A EXT ext busy c start s t HA => two_pauses A EXT HA ext busy c start s t). Qed.
(** With automatic enabling and an enable delay of one piece the pause of the enable delay is
    the flagged one and the step follows: no pause after the switching of the pin *)
Definition s_enabling : stepper :=
  st_ondelay 20000 (setAutoEnable true (st_dir ext_pin true 0 (s_init arch_avr 0 9))).
Theorem C85_enable_delay_refuted :
  let r := s_add arch_avr (queue * pins) (plain arch_avr true) (Some obey) false (x_steps 1 false)
             true s_enabling (x_q (x_fresh arch_avr true), fun _ => false) in
  snd r = AQE_OK
  /\ map (fun e => (e_steps e, e_repeat e)) (pend arch_avr (fst (snd (fst r)))) = [(0, true); (1, false)].
Proof. vm_compute. repeat split. Qed.
Definition s_ext : stepper := st_dir ext_pin true 0 (s_init arch_avr 0 9).
Example C85_example :
  conf_ok s_ext /\ is_external (s_dirpin s_ext) = true
  /\ let x := frun arch_avr true [FAdd (Some obey) false (x_steps 3 true) true [];
                 FAdd (Some obey) false (x_steps 2 false) true []]
              (finit arch_avr zero_entry (fun _ => false) (fun _ => false) 320 s_ext) in
     accepted_cmds x = [x_steps 3 true; x_pause false; x_pause false; x_steps 2 false].
Proof. vm_compute. repeat split; intro; discriminate. Qed.

Print Assumptions C84_levels_partial.
Print Assumptions C84_start_partial.
Print Assumptions C84_task.
Print Assumptions C84_force_stop_refuted.
Print Assumptions C84_stale_flag_refuted.
Print Assumptions C84_refused_refuted.
Print Assumptions C84_ignored_refuted.
Print Assumptions C84_first_command_refuted.
Print Assumptions C84_rmt_refuted.
Print Assumptions C85_turns.
Print Assumptions C85_two_pauses_partial.
Print Assumptions C85_enable_delay_refuted.

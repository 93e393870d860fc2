(** * P_Timed: moveTimed(), C28 to C30 *)
From Coq Require Import ZArith Bool List Lia.
From Verif Require Import Base RampCalc RampGen Queue QueueFacts QueueHist Stepper StepperHist FrontHist FrontProp
  MoveTimed MoveTimedFacts MoveTimedProp P_Front.
Import ListNotations.
Open Scope Z_scope.

(** direction pin 5, no automatic enable; direction change delay in ticks *)
Definition t_stepper (delay : Z) : stepper := st_dir 5 true delay (s_init arch_avr 0 9).
Definition on_avr (s : stepper) (evs : list fevent) (steps duration : Z) : mtw * Z * option Z :=
  s_moveTimed arch_avr false None steps duration true (mt_state (avr s evs) [] []).
Definition on_esp (s : stepper) (evs : list fevent) (steps duration : Z) : mtw * Z * option Z :=
  s_moveTimed arch_esp32 false None steps duration true (mt_state (esp s evs) [] []).
Definition queued (r : mtw * Z * option Z) : list command := mt_acc (fst (fst r)).

(** ** C28: exactly the requested steps

    After every history of the stepper, with interrupts at every place and every readiness of
    the device. *)
Theorem C28_steps_partial : forall A EXT garbage p ep m s evs ext steps duration start ws bs, In A all_archs ->
  conf_ok s -> Forall fev_ok evs -> mt_args steps duration ->
  let x := frun A EXT evs (finit A garbage p ep m s) in
  let r := s_moveTimed A EXT ext steps duration start (mt_state x ws bs) in
  q_ignore (fqueue x) = false -> mt_success (snd (fst r)) ->
  exists new, mt_acc (fst (fst r)) = accepted_cmds x ++ new
    /\ n_steps new = Z.abs steps /\ Forall (fun c => c_up c = (0 <=? steps)) new.
Proof.
  exact (fun A EXT garbage p ep m s evs ext steps duration start ws bs HA =>
    timed_steps A EXT HA garbage p ep m s evs ext steps duration start ws bs).
Qed.
Example C28_example :
  queued (on_avr (t_stepper 3200) [] (-700) 1000000)
    = [mkCommand 3200 0 false; mkCommand 1428 255 false; mkCommand 1428 222 false; mkCommand 1429 223 false]
  /\ snd (fst (on_avr (t_stepper 3200) [] (-700) 1000000)) = MOVE_TIMED_EMPTY
  /\ queued (on_avr (t_stepper 0) [] 2 200000)
    = [mkCommand 50000 1 true; mkCommand 50000 0 true; mkCommand 50000 1 true; mkCommand 50000 0 true].
Proof. vm_compute. repeat split. Qed.

(** -32768 steps: success, nothing is queued *)
Theorem C28_min_refuted : exists duration, 0 <= duration < 4294967296 /\
  let r := on_esp (t_stepper 0) [] (-32768) duration in mt_success (snd (fst r)) /\ queued r = [].
Proof. exists 1000000000. vm_compute. split; [split; congruence|]. split; [right|]; reflexivity. Qed.
(** after forceStop(): success, nothing is queued *)
Theorem C28_ignored_refuted : exists steps duration, mt_args steps duration /\
  let r := on_avr (t_stepper 0) [FIgnore true] steps duration in mt_success (snd (fst r)) /\ queued r = [].
Proof.
  exists 1, 20000. split; [|vm_compute; split; [right|]; reflexivity].
  unfold mt_args. lia.
Qed.

(** ** C29: the reported duration

    Up to 255 steps, or slower than 65535 ticks per step: the reported duration is the one of
    the commands of moveTimed ([l]), and differs from the request by less than the number of
    steps. The queue has got these commands and in between pauses of addQueueEntry; without a
    change of direction and without automatic enabling there are none. *)
Theorem C29_reported_partial : forall A EXT garbage p ep m s evs ext steps duration start ws bs, In A all_archs ->
  conf_ok s -> Forall fev_ok evs -> mt_args steps duration ->
  (duration < 65536 * Z.abs steps -> Z.abs steps <= 255) ->
  let x := frun A EXT evs (finit A garbage p ep m s) in
  let r := s_moveTimed A EXT ext steps duration start (mt_state x ws bs) in
  q_ignore (fqueue x) = false -> mt_success (snd (fst r)) ->
  exists new l act, mt_acc (fst (fst r)) = accepted_cmds x ++ new /\ woven (0 <=? steps) new l
    /\ snd r = Some act /\ act = n_ticks l
    /\ act <= duration /\ (duration - Z.abs steps < act \/ steps = 0 /\ act = duration)
    /\ ((forall c, c_up c = (0 <=? steps) -> (steps = 0 -> c_steps c = 0) -> quiet c (fst x) (snd x)) -> new = l).
Proof.
  exact (fun A EXT garbage p ep m s evs ext steps duration start ws bs HA =>
    timed_duration A EXT HA garbage p ep m s evs ext steps duration start ws bs).
Qed.
Example C29_example :
  snd (on_avr (t_stepper 3200) [add up2] 255 1000000) = Some 999855
  /\ n_ticks (queued (on_avr (t_stepper 3200) [] 255 1000000)) = 999855
  /\ snd (on_avr (t_stepper 3200) [add up2] 3 600001) = Some 600000
  /\ snd (on_avr (t_stepper 3200) [add up2] 0 900001) = Some 900001.
Proof. vm_compute. repeat split. Qed.

(** 300 steps of 1600 ticks: 480000 ticks are queued, 720000 are reported *)
Theorem C29_overcount_refuted : exists steps duration act, mt_args steps duration /\
  let r := on_avr (t_stepper 0) [] steps duration in
  mt_success (snd (fst r)) /\ snd r = Some act /\ n_ticks (queued r) = duration /\ 2 * act = 3 * duration.
Proof.
  exists 300, 480000, 720000. split; [unfold mt_args; lia|].
  vm_compute. split; [right; reflexivity|]. repeat split.
Qed.
(** the pause for the change of the direction is queued, but not reported *)
Theorem C29_pause_refuted : exists steps duration act, mt_args steps duration /\
  let r := on_avr (t_stepper 32000) [] steps duration in
  mt_success (snd (fst r)) /\ snd r = Some act /\ act = duration /\ n_ticks (queued r) = act + 32000.
Proof.
  exists (-2), 3200, 3200. split; [unfold mt_args; lia|].
  vm_compute. split; [right; reflexivity|]. repeat split.
Qed.

(** ** C30: all or nothing

    The answers MOVE_TIMED_BUSY and MOVE_TIMED_TOO_LARGE_ERROR leave everything unchanged. *)
Theorem C30_refused : forall A EXT ext steps duration start w,
  let r := s_moveTimed A EXT ext steps duration start w in
  forall code, mt_plan A steps duration (u8 (QUEUE_LEN A - mt_entries w)) = inl code -> (steps <> 0 \/ duration <> 0) ->
  r = (w, code, Some 0) /\ (code = MOVE_TIMED_BUSY \/ code = MOVE_TIMED_TOO_LARGE_ERROR).
Proof.
  intros A EXT ext steps duration start w r code E Hn. subst r.
  assert (HC : code = MOVE_TIMED_BUSY \/ code = MOVE_TIMED_TOO_LARGE_ERROR).
  { revert E. clear. unfold mt_plan. cbv zeta.
    repeat match goal with |- context [if ?b then _ else _] => destruct b end; intros K;
      solve [discriminate | injection K as <-; auto]. }
  split; [|exact HC]. unfold s_moveTimed, moveTimed.
  destruct (Z.eqb_spec steps 0); destruct (Z.eqb_spec duration 0); cbn [andb]; try lia; rewrite E; reflexivity.
Qed.
(** The device is ready, no pauses are inserted and the estimate of the needed commands is
    right: success, or nothing is queued *)
Theorem C30_all_or_nothing_partial : forall A EXT garbage p ep m s0 evs ext steps duration start ws bs, In A all_archs ->
  conf_ok s0 -> Forall fev_ok evs -> mt_args steps duration ->
  let x := frun A EXT evs (finit A garbage p ep m s0) in
  let q := fqueue x in
  let r := s_moveTimed A EXT ext steps duration start (mt_state x ws bs) in
  q_ignore q = false -> regular steps duration (QUEUE_LEN A - queueEntries q) ->
  (forall c, c_up c = (0 <=? steps) -> (steps = 0 -> c_steps c = 0) -> quiet c (fst x) (snd x)) ->
  Forall ready ws -> Forall (fun b => b = false) bs ->
  0 < q_max q <= 32768 -> MIN_CMD_TICKS A <= 128 * q_max q ->
  mt_success (snd (fst r)) \/ mt_acc (fst (fst r)) = accepted_cmds x.
Proof.
  intros A EXT garbage p ep m s0 evs ext steps duration start ws bs HA Hs He Ha x q r Hi Hr Hq Hw Hb H1 H2.
  destruct (reach_good A EXT HA garbage p ep m s0 evs Hs He) as [G1 G2].
  apply (all_or_nothing A EXT HA ext steps duration start (fst x) (set_w ws (snd x)) bs); auto.
  intros c Hc Hc0. apply Hq; [|exact Hc0].
  replace (0 <=? steps) with (up_steps steps); [exact Hc|].
  unfold up_steps. destruct (Z.ltb_spec steps 0); destruct (Z.leb_spec 0 steps); cbn; auto; lia.
Qed.
(** The same without a hypothesis about the room in the queue, which moveTimed checks itself *)
Theorem C30_room_checked_partial : forall A EXT garbage p ep m s0 evs ext steps duration start ws bs, In A all_archs ->
  conf_ok s0 -> Forall fev_ok evs -> mt_args steps duration ->
  let x := frun A EXT evs (finit A garbage p ep m s0) in
  let q := fqueue x in
  let r := s_moveTimed A EXT ext steps duration start (mt_state x ws bs) in
  q_ignore q = false -> estimate_right steps duration ->
  (forall c, c_up c = (0 <=? steps) -> (steps = 0 -> c_steps c = 0) -> quiet c (fst x) (snd x)) ->
  Forall ready ws -> Forall (fun b => b = false) bs ->
  0 < q_max q <= 32768 -> MIN_CMD_TICKS A <= 128 * q_max q ->
  mt_success (snd (fst r)) \/ mt_acc (fst (fst r)) = accepted_cmds x.
Proof.
  intros A EXT garbage p ep m s0 evs ext steps duration start ws bs HA Hs He Ha x q r Hi Hr Hq Hw Hb H1 H2.
  destruct (reach_good A EXT HA garbage p ep m s0 evs Hs He) as [G1 G2].
  apply (all_or_nothing_estimate A EXT HA ext steps duration start (fst x) (set_w ws (snd x)) bs); auto.
  intros c Hc Hc0. apply Hq; [|exact Hc0].
  replace (0 <=? steps) with (up_steps steps); [exact Hc|].
  unfold up_steps. destruct (Z.ltb_spec steps 0); destruct (Z.leb_spec 0 steps); cbn; auto; lia.
Qed.
Example C30_estimate_example : estimate_right 3 400000 /\ estimate_right 0 131072 /\ ~ estimate_right 0 131071
  /\ snd (fst (on_avr (t_stepper 3200) (repeat (add (mkCommand 1600 2 true)) 8) 3 400000)) = MOVE_TIMED_BUSY
  /\ length (queued (on_avr (t_stepper 3200) (repeat (add (mkCommand 1600 2 true)) 7) 3 400000)) = 16%nat.
Proof. vm_compute. intuition congruence. Qed.
Definition fourteen : list fevent := repeat (add (mkCommand 1600 2 true)) 14.
Example C30_example :
  regular (-1000) 2000000 16 /\ regular 2 300000 6 /\ regular 0 131070 2
  /\ snd (fst (on_avr (t_stepper 3200) fourteen 400 300000)) = MOVE_TIMED_OK
  /\ length (queued (on_avr (t_stepper 3200) fourteen 400 300000)) = 16%nat
  /\ snd (fst (on_avr (t_stepper 3200) fourteen 600 300000)) = MOVE_TIMED_BUSY
  /\ length (queued (on_avr (t_stepper 3200) fourteen 600 300000)) = 14%nat
  /\ quiet (mkCommand 1600 2 true) (fst (avr (t_stepper 3200) fourteen)) (snd (avr (t_stepper 3200) fourteen)).
Proof.
  vm_compute. repeat split; try congruence; try (left; congruence); try (left; reflexivity).
Qed.

(** An error, and commands are queued. One step of 196607 ticks: a remainder of 131072 ticks
    becomes a command of 0 ticks *)
Theorem C30_remainder_refuted : exists duration,
  let r := on_avr (t_stepper 0) [] 1 duration in
  ~ mt_success (snd (fst r)) /\ n_steps (queued r) = 1.
Proof. exists 196607. vm_compute. split; [intros [K|K]; discriminate|reflexivity]. Qed.
(** a pause, which needs more commands than estimated *)
Theorem C30_pause_refuted : exists duration,
  let r := on_avr (t_stepper 0) [] 0 duration in
  ~ mt_success (snd (fst r)) /\ length (queued r) = 16%nat.
Proof. exists 1048575. vm_compute. split; [intros [K|K]; discriminate|reflexivity]. Qed.
(** 20 steps of 12.5 pieces: the number of commands is computed modulo 256 *)
Theorem C30_modulo_refuted : exists steps duration,
  let r := on_esp (t_stepper 0) [] steps duration in
  ~ mt_success (snd (fst r)) /\ n_steps (queued r) = 3 /\ steps = 20.
Proof. exists 20, 16000000. vm_compute. split; [intros [K|K]; discriminate|split; reflexivity]. Qed.
(** 300 steps of 65535 ticks and some more: the period wraps around to 0 *)
Theorem C30_period_refuted : exists duration,
  let r := on_avr (t_stepper 0) [] 300 duration in
  ~ mt_success (snd (fst r)) /\ n_steps (queued r) = 150.
Proof. exists 19660700. vm_compute. split; [intros [K|K]; discriminate|reflexivity]. Qed.
(** the pause for the change of the direction has taken the last place *)
Theorem C30_direction_refuted : exists evs,
  let x := avr (t_stepper 3200) evs in
  let r := on_avr (t_stepper 3200) evs (-2) 3200 in
  snd (fst r) = AQE_QUEUE_FULL /\ queued r = accepted_cmds x ++ [mkCommand 3200 0 false].
Proof. exists (repeat (add (mkCommand 1600 2 true)) 15). vm_compute. split; reflexivity. Qed.

(** A pause by moveTimed always has the direction up: after steps in the other direction the
    direction pin changes with the pause *)
Theorem C29_pause_direction_refuted : exists evs duration,
  let x := avr (t_stepper 3200) evs in
  let r := on_avr (t_stepper 3200) evs 0 duration in
  qe_up (q_end (fqueue x)) = false /\ mt_success (snd (fst r))
  /\ queued r = accepted_cmds x ++ [mkCommand duration 0 true].
Proof. exists [add down2], 20000. vm_compute. split; [reflexivity|]. split; [left|]; reflexivity. Qed.

Print Assumptions C28_steps_partial.
Print Assumptions C28_min_refuted.
Print Assumptions C28_ignored_refuted.
Print Assumptions C29_reported_partial.
Print Assumptions C29_overcount_refuted.
Print Assumptions C29_pause_refuted.
Print Assumptions C30_refused.
Print Assumptions C30_all_or_nothing_partial.
Print Assumptions C30_room_checked_partial.
Print Assumptions C30_remainder_refuted.
Print Assumptions C30_pause_refuted.
Print Assumptions C30_modulo_refuted.
Print Assumptions C30_period_refuted.
Print Assumptions C30_direction_refuted.
Print Assumptions C29_pause_direction_refuted.

(** * P_Front: enable and direction pins, delays: C15 (second half), C24 to C27 *)
From Coq Require Import ZArith Bool List Lia.
From Verif Require Import Base RampCalc RampGen Queue QueueFacts QueueHist Stepper StepperHist FrontHist FrontProp.
Import ListNotations.
Open Scope Z_scope.

Definition no_entry : Z -> entry := fun _ => mkEntry 0 false false false false false false 0 0.
Definition low : pins := fun _ => false.
(** step pin 9, direction pin 5, low active enable pin 6, auto enable, direction change delay
    200 us; enable delay in ticks *)
Definition a_stepper (on_delay : Z) : stepper :=
  st_ondelay on_delay (st_auto true 1 (st_enpins 6 PIN_UNDEFINED (st_dir 5 true 3200 (s_init arch_avr 0 9)))).
Definition up2 : command := mkCommand 1600 2 true.
Definition down2 : command := mkCommand 1600 2 false.
Definition not_ready : weather := mkWeather false false [] [] [] [].
Definition avr (s : stepper) (evs : list fevent) : stepper * hq :=
  frun arch_avr false evs (finit arch_avr no_entry low low 320 s).
Definition esp (s : stepper) (evs : list fevent) : stepper * hq :=
  frun arch_esp32 false evs (finit arch_esp32 no_entry low low 80 s).
Definition add (c : command) : fevent := FAdd None false c true [].

(** ** C15: no accepted step is faster than the limit *)
Theorem C15_speed_limit : forall A EXT garbage p ep m s evs, In A all_archs -> conf_ok s ->
  Forall fev_ok evs ->
  let x := frun A EXT evs (finit A garbage p ep m s) in
  Forall (fun c => 0 < c_steps c -> q_max (fqueue x) <= c_ticks c) (accepted_cmds x).
Proof. exact (fun A EXT garbage p ep m s evs HA => speed_limit_lemma A EXT HA garbage p ep m s evs). Qed.

(** ** C24: the enable delay

    On an idle, ready queue the pauses add up to the enable delay, or to the direction change
    delay if this is longer and the direction changes; then follows the command. *)
Theorem C24_enable_delay_partial : forall A EXT garbage p ep m s0 evs ext busy c start ws, In A all_archs ->
  conf_ok s0 -> Forall fev_ok evs ->
  let x := frun A EXT evs (finit A garbage p ep m s0) in
  let s := fst x in
  let q := fqueue x in
  let t := set_w ws (snd x) in
  conf24 A s -> cmd_ok c -> MIN_CMD_TICKS A <= c_ticks c * Z.max 1 (c_steps c) -> q_max q <= c_ticks c ->
  (s_dirpin s = PIN_UNDEFINED -> c_up c = true) -> busy = false ->
  s_auto s = true -> s_cnt s = 0 -> 0 < s_ondelay s -> snd (enableOutputs ext s (hq_p t)) = true ->
  Forall ready ws -> q_ignore q = false -> pend A q = [] -> q_running q = false ->
  exists pauses,
    h_acc (hq_h (snd (fst (s_add A hq (hacc A EXT) ext busy c start s t))))
      = accepted_cmds x ++ map (fun d => mkCommand d 0 (c_up c)) pauses ++ [c]
    /\ fold_right Z.add 0 pauses
       = (if Bool.eqb (qe_up (q_end q)) (c_up c) then s_ondelay s else Z.max (s_ondelay s) (s_dirdelay s))
    /\ Forall (fun d => MIN_CMD_TICKS A <= d <= 65535) pauses
    /\ Z.of_nat (length pauses) <= QUEUE_LEN A - 1
    /\ snd (s_add A hq (hacc A EXT) ext busy c start s t) = AQE_OK.
Proof.
  exact (fun A EXT garbage p ep m s0 evs ext busy c start ws HA =>
    enable_delay_lemma A EXT HA garbage p ep m s0 evs ext busy c start ws).
Qed.
Example C24_example :
  accepted_cmds (avr (a_stepper 131071) [add down2])
    = [mkCommand 65535 0 false; mkCommand 32768 0 false; mkCommand 32768 0 false; down2]
  /\ length (accepted_cmds (avr (a_stepper 983025) [add up2])) = 16%nat
  /\ accepted_cmds (avr (a_stepper 640) [add down2]) = [mkCommand 3200 0 false; down2].
Proof. vm_compute. repeat split. Qed.
(** The results of queueing the pauses are not looked at: if the device is not ready for a
    moment, half of the delay of 100000 ticks is missing. *)
Theorem C24_not_ready_refuted : exists ws,
  accepted_cmds (esp (a_stepper 100000) [FAdd None false up2 true ws]) = [mkCommand 50000 0 true; up2].
Proof. exists [not_ready]. vm_compute. reflexivity. Qed.
(** A first command which is refused because of its short duration leaves the pauses in the
    queue; the next one is preceded by the delay twice. *)
Theorem C24_refused_refuted : exists c,
  accepted_cmds (avr (a_stepper 1600) [add c; add up2]) = [mkCommand 1600 0 true; mkCommand 1600 0 true; up2].
Proof. exists (mkCommand 400 1 true). vm_compute. reflexivity. Qed.

(** ** C25: outputs enabled

    Enable pins fixed, auto enable never switched off, external pins (if any) set at once *)
Theorem C25_enabled_partial : forall A EXT garbage p ep m s evs, In A all_archs ->
  conf_ok s -> s_auto s = true -> s_cnt s = 0 -> distinct_pins s ->
  Forall fev_ok evs -> Forall (auto_stays s) evs ->
  let x := frun A EXT evs (finit A garbage p ep m s) in
  pend A (fqueue x) <> [] -> outputs_on s (hq_p (snd x)).
Proof. exact (fun A EXT garbage p ep m s evs HA => enabled_lemma A EXT HA garbage p ep m s evs). Qed.
Example C25_example :
  let s := st_enpins 6 7 (a_stepper 0) in
  let evs := [add up2; FIsr [EPop; EStop]; FTick None; add down2] in
  let x := avr s (firstn 3 evs) in let y := avr s evs in
  hq_p (snd x) 6 = true /\ hq_p (snd x) 7 = false /\ fqueue x = fqueue x
  /\ pend arch_avr (fqueue y) <> [] /\ hq_p (snd y) 6 = false /\ hq_p (snd y) 7 = true.
Proof. cbv zeta. splits; try reflexivity. vm_compute. discriminate. Qed.

(** Race: addQueueEntry has seen a nonzero counter and goes on; before the command is queued
    the background task disables the outputs. *)
Theorem C25_race_refuted : exists s1 q1 p1,
  let busy := false in let A := arch_avr in let X := plain A false in
  (* after one move, which has been completed *)
  let m := s_add A _ X None busy up2 true (a_stepper 0) (set_max 320 (q_init A no_entry false), low) in
  (s1, (q1, p1)) = (fst (fst m), (set_running false (q_pop (fst (snd (fst m)))), snd (snd (fst m)))) /\
  pend A q1 = [] /\
  (* addQueueEntry, first half *)
  let r := add_first _ X None busy up2 true s1 (q1, p1) in
  snd r = AQE_OK /\
  (* the background task *)
  let k := tick None s1 (fst (fst r)) (snd (fst r)) in
  (* addQueueEntry, second half *)
  let z := add_second A _ X up2 true (fst k) (fst (fst r), snd k) in
  snd z = AQE_OK /\ pend A (fst (snd (fst z))) <> [] /\ snd (snd (fst z)) 6 = true.
Proof.
  pose (m := s_add arch_avr _ (plain arch_avr false) None false up2 true (a_stepper 0)
               (set_max 320 (q_init arch_avr no_entry false), low)).
  exists (fst (fst m)), (set_running false (q_pop (fst (snd (fst m))))), (snd (snd (fst m))).
  cbv zeta. splits; try reflexivity. vm_compute. discriminate.
Qed.
(** External enable pin 134, low active: its function still reports the old level when the
    outputs are disabled, so the request will be effective later; a new command does not
    call the function at all. *)
Theorem C25_deferred_refuted : exists s f q p,
  s_auto s = true /\ s_low s = 134 /\
  (* disableOutputs() calls f 134 true; it reports the old level *)
  f 134 true = false /\ needAutoDisable s q = true /\
  disableOutputs (Some f) s q p = (s, upd p 134 false, false) /\
  (* whatever function is used for the new command, it is not called *)
  (forall ext, s_add arch_avr _ (plain arch_avr false) ext false up2 true s (q, p)
             = s_add arch_avr _ (plain arch_avr false) None false up2 true s (q, p)) /\
  snd (s_add arch_avr _ (plain arch_avr false) None false up2 true s (q, p)) = AQE_OK.
Proof.
  exists (st_cnt 1 (st_enpins 134 PIN_UNDEFINED (a_stepper 0))), (fun _ _ => false),
         (set_max 320 (q_init arch_avr no_entry false)), low.
  splits; intros; vm_compute; reflexivity.
Qed.
(** setEnablePin() switches the new pin off and does not reset the counter: the steps of the
    next command are queued with disabled outputs. *)
Theorem C25_new_pin_refuted : exists s0 : stepper,
  let x := avr s0 [add up2; FIsr [EPop; EStop]] in
  let y := setEnablePin None 8 true (fst x) (hq_p (snd x)) in
  let z := frun arch_avr false [add up2] (fst y, mkHq (hq_h (snd x)) (snd y) []) in
  s_auto s0 = true /\ pend arch_avr (fqueue x) = [] /\ s_low (fst z) = 8 /\
  pend arch_avr (fqueue z) <> [] /\ hq_p (snd z) 8 = true.
Proof. exists (a_stepper 0). cbv zeta. splits; try reflexivity. vm_compute. discriminate. Qed.

(** ** C26: no direction pin, no step down *)
Theorem C26_only_up : forall A EXT garbage p ep m s evs, In A all_archs -> conf_ok s ->
  s_dirpin s = PIN_UNDEFINED -> Forall fev_ok evs ->
  Forall (fun c => c_up c = true) (accepted_cmds (frun A EXT evs (finit A garbage p ep m s))).
Proof. exact (fun A EXT garbage p ep m s evs HA => no_dir_pin_lemma A EXT HA garbage p ep m s evs). Qed.
Theorem C26_refused : forall A EXT ext busy c start s t, s_dirpin s = PIN_UNDEFINED -> c_up c = false ->
  exists code, s_add A hq (hacc A EXT) ext busy c start s t = (s, t, code) /\ code < 0
  /\ (q_max (h_q (hq_h t)) <= c_ticks c -> code = AQE_ERROR_NO_DIR_PIN_TO_TOGGLE).
Proof. exact no_dir_pin_code. Qed.
Example C26_example :
  let s := st_dir PIN_UNDEFINED true 0 (a_stepper 0) in
  accepted_cmds (avr s [add up2; add down2; add up2]) = [up2; up2].
Proof. vm_compute. reflexivity. Qed.

(** ** C27: direction change delay

    [settled D true D l]: at every step in [l] the direction has not changed for at least
    [D] ticks; conditions [conf27], [along]: pauses do not change the direction, with auto
    enable on commands are long enough and the device is ready; an external direction pin
    has a delay of at most 500 us. *)
Theorem C27_settled_partial : forall A EXT garbage p ep m s evs, In A all_archs ->
  conf27 A s -> s_cnt s = 0 -> Forall fev_ok evs ->
  along A EXT evs (finit A garbage p ep m s) ->
  settled (s_dirdelay s) true (s_dirdelay s) (accepted_cmds (frun A EXT evs (finit A garbage p ep m s))).
Proof. exact (fun A EXT garbage p ep m s evs HA => dir_delay_hist A EXT HA garbage p ep m s evs). Qed.
Example C27_example :
  accepted_cmds (avr (a_stepper 0) [add up2; add down2; add down2; add up2])
    = [up2; mkCommand 3200 0 false; down2; down2; mkCommand 3200 0 true; up2]
  /\ along arch_avr false [add up2; add down2; add down2; add up2]
       (finit arch_avr no_entry low low 320 (a_stepper 0)).
Proof.
  split; vm_compute; [reflexivity|].
  repeat split; try (intros; discriminate); repeat constructor.
Qed.
(** A pause with the new direction is queued without the delay, and the following steps see
    no change of direction any more: 1000 instead of 3200 ticks. *)
Theorem C27_pause_refuted : exists pause,
  let x := avr (a_stepper 0) [add up2; add pause; add down2] in
  s_dirdelay (fst x) = 3200 /\ accepted_cmds x = [up2; mkCommand 1000 0 false; down2]
  /\ ~ settled 3200 true 3200 (accepted_cmds x).
Proof.
  exists (mkCommand 1000 0 false). cbv zeta. splits; try reflexivity.
  vm_compute. intros (_ & _ & H & _). apply H; reflexivity.
Qed.
(** For an external direction pin the configured delay is not used at all: 1 ms of pauses
    instead of 4 ms. *)
Theorem C27_external_refuted : exists s,
  let x := avr s [add up2; add down2] in
  s_dirdelay (fst x) = 64000
  /\ accepted_cmds x = [up2; mkCommand 8000 0 false; mkCommand 8000 0 false; down2]
  /\ ~ settled 64000 true 64000 (accepted_cmds x).
Proof.
  exists (st_dir 130 true 64000 (a_stepper 0)). cbv zeta. splits; try reflexivity.
  vm_compute. intros (_ & _ & _ & H & _). apply H; reflexivity.
Qed.
(** With an enable delay of 100000 ticks and a direction change delay of 60000 ticks, a device
    which is not ready for a moment: only 50000 ticks. *)
Theorem C27_not_ready_refuted : exists ws,
  let s := st_dir 5 true 60000 (a_stepper 100000) in
  let x := esp s [FAdd None false down2 true ws] in
  s_dirdelay (fst x) = 60000 /\ accepted_cmds x = [mkCommand 50000 0 false; down2].
Proof. exists [not_ready]. vm_compute. split; reflexivity. Qed.

Print Assumptions C15_speed_limit.
Print Assumptions C24_enable_delay_partial.
Print Assumptions C24_not_ready_refuted.
Print Assumptions C24_refused_refuted.
Print Assumptions C25_enabled_partial.
Print Assumptions C25_race_refuted.
Print Assumptions C25_deferred_refuted.
Print Assumptions C25_new_pin_refuted.
Print Assumptions C26_only_up.
Print Assumptions C26_refused.
Print Assumptions C27_settled_partial.
Print Assumptions C27_pause_refuted.
Print Assumptions C27_external_refuted.
Print Assumptions C27_not_ready_refuted.

(** * UserFront: single calls of class FastAccelStepper *)
From Coq Require Import ZArith Bool List Lia ZifyBool.
From Verif Require Import Base Pmf RampCalc RampGen RampStep RampRun RampMove RampPlan Queue QueueFacts QueuePos QueueHist
  Stepper StepperHist FrontHist FrontProp FrontFill FrontTask FrontStart.
Import ListNotations.
Open Scope Z_scope.
Ltac Zify.zify_post_hook ::= idtac.
Ltac splits := repeat match goal with |- _ /\ _ => split end.

(** ** enableOutputs, disableOutputs *)
(** what one pin needs: an external pin with a function is confirmed by the function *)
Definition confirmed (ext : extcall) (pin : Z) (level : bool) : Prop :=
  pin <> PIN_UNDEFINED -> is_external pin = true -> forall f, ext = Some f -> f pin level = level.
Lemma set_pin_confirmed ext pin level p : snd (set_pin ext pin level p) = true <-> confirmed ext pin level.
Proof.
  unfold set_pin, confirmed. destruct (Z.eqb_spec pin PIN_UNDEFINED); [cbn; tauto|].
  destruct (is_external pin); [|cbn; intuition discriminate].
  destruct ext as [f|]; cbn [snd].
  - split.
    + intros H _ _ f' E. injection E as <-. now apply Bool.eqb_prop.
    + intros H. rewrite (H n eq_refl f eq_refl). apply Bool.eqb_reflx.
  - split; [discriminate|reflexivity].
Qed.
Lemma set_pin_other ext pin level p x : x <> pin -> fst (set_pin ext pin level p) x = p x.
Proof.
  intros H. unfold set_pin. destruct (pin =? PIN_UNDEFINED); [reflexivity|].
  destruct (is_external pin); [destruct ext|]; cbn [fst]; try reflexivity; unfold upd;
    destruct (Z.eqb_spec x pin); congruence.
Qed.
Lemma set_pin_undefined ext level p : set_pin ext PIN_UNDEFINED level p = (p, true).
Proof. reflexivity. Qed.
Lemma set_pin_internal ext pin level p : pin <> PIN_UNDEFINED -> is_external pin = false ->
  fst (set_pin ext pin level p) pin = level.
Proof.
  intros H E. unfold set_pin. destruct (Z.eqb_spec pin PIN_UNDEFINED); [contradiction|]. rewrite E.
  cbn. unfold upd. now rewrite Z.eqb_refl.
Qed.
Lemma enable_confirmed ext s p :
  snd (enableOutputs ext s p) = true <-> confirmed ext (s_low s) false /\ confirmed ext (s_high s) true.
Proof.
  unfold enableOutputs. pose proof (set_pin_confirmed ext (s_low s) false p) as H1.
  destruct (set_pin ext (s_low s) false p) as [p1 a].
  pose proof (set_pin_confirmed ext (s_high s) true p1) as H2.
  destruct (set_pin ext (s_high s) true p1) as [p2 b]. cbn [snd] in *. rewrite andb_true_iff. tauto.
Qed.
Lemma disable_confirmed ext s q p : disable_allowed s q = true ->
  snd (disableOutputs ext s q p) = true <-> confirmed ext (s_low s) true /\ confirmed ext (s_high s) false.
Proof.
  intros HD. unfold disableOutputs, disable_pins. rewrite HD.
  pose proof (set_pin_confirmed ext (s_low s) true p) as H1.
  destruct (set_pin ext (s_low s) true p) as [p1 a].
  pose proof (set_pin_confirmed ext (s_high s) false p1) as H2.
  destruct (set_pin ext (s_high s) false p1) as [p2 b]. cbn [snd] in *. rewrite andb_true_iff. tauto.
Qed.
Lemma enable_result ext s p : snd (enableOutputs ext s p) = true <->
  forall pin level, (pin, level) = (s_low s, false) \/ (pin, level) = (s_high s, true) ->
    pin <> PIN_UNDEFINED -> is_external pin = true -> forall f, ext = Some f -> f pin level = level.
Proof.
  rewrite enable_confirmed. split.
  - intros [H1 H2] pin level [E|E]; injection E as -> ->; assumption.
  - intros H. split; intros K1 K2; apply H; auto.
Qed.
Lemma disable_result ext s q p : disable_allowed s q = true -> (snd (disableOutputs ext s q p) = true <->
  forall pin level, (pin, level) = (s_low s, true) \/ (pin, level) = (s_high s, false) ->
    pin <> PIN_UNDEFINED -> is_external pin = true -> forall f, ext = Some f -> f pin level = level).
Proof.
  intros K. rewrite (disable_confirmed _ _ _ _ K). split.
  - intros [H1 H2] pin level [E|E]; injection E as -> ->; assumption.
  - intros H. split; intros K1 K2; apply H; auto.
Qed.
(** levels of the pins *)
Definition driven (pin : Z) : Prop := pin <> PIN_UNDEFINED /\ is_external pin = false.
Lemma enable_levels ext s p : let p' := fst (enableOutputs ext s p) in
  (driven (s_high s) -> p' (s_high s) = true)
  /\ (driven (s_low s) -> s_low s <> s_high s -> p' (s_low s) = false)
  /\ (forall x, x <> s_low s -> x <> s_high s -> p' x = p x).
Proof.
  unfold enableOutputs.
  pose proof (set_pin_internal ext (s_low s) false p) as H1. pose proof (set_pin_other ext (s_low s) false p) as H2.
  destruct (set_pin ext (s_low s) false p) as [p1 a]. cbn [fst] in *.
  pose proof (set_pin_internal ext (s_high s) true p1) as H3. pose proof (set_pin_other ext (s_high s) true p1) as H4.
  destruct (set_pin ext (s_high s) true p1) as [p2 b]. cbn [fst] in *. splits.
  - intros [K1 K2]. auto.
  - intros [K1 K2] K. rewrite H4; auto.
  - intros x K1 K2. rewrite H4, H2; auto.
Qed.
Lemma disable_levels ext s q p : disable_allowed s q = true -> let p' := snd (fst (disableOutputs ext s q p)) in
  (driven (s_high s) -> p' (s_high s) = false)
  /\ (driven (s_low s) -> s_low s <> s_high s -> p' (s_low s) = true)
  /\ (forall x, x <> s_low s -> x <> s_high s -> p' x = p x).
Proof.
  intros HD. unfold disableOutputs, disable_pins. rewrite HD.
  pose proof (set_pin_internal ext (s_low s) true p) as H1. pose proof (set_pin_other ext (s_low s) true p) as H2.
  destruct (set_pin ext (s_low s) true p) as [p1 a]. cbn [fst] in *.
  pose proof (set_pin_internal ext (s_high s) false p1) as H3. pose proof (set_pin_other ext (s_high s) false p1) as H4.
  destruct (set_pin ext (s_high s) false p1) as [p2 b]. cbn [fst snd] in *. splits.
  - intros [K1 K2]. auto.
  - intros [K1 K2] K. rewrite H4; auto.
  - intros x K1 K2. rewrite H4, H2; auto.
Qed.

(** ** setEnablePin *)
Definition no_clash (s : stepper) : Prop := driven (s_low s) -> s_low s <> s_high s.
Lemma setEnablePin_distinct ext pin low s p : no_clash s ->
  let s' := fst (setEnablePin ext pin low s p) in
  no_clash s' /\ (if low then s_low s' = pin else s_high s' = pin).
Proof.
  intros H. unfold setEnablePin. cbv zeta. cbn [fst].
  destruct low; cbn [s_low s_high st_enpins]; (split; [|reflexivity]); unfold no_clash, driven; cbn [s_low s_high st_enpins].
  - intros [K1 K2]. rewrite K2. destruct (Z.eqb_spec pin PIN_UNDEFINED); [contradiction|].
    destruct (Z.eqb_spec (s_high s) pin); cbn [negb andb]; congruence.
  - destruct (Z.eqb_spec pin PIN_UNDEFINED); cbn [negb andb]; [intros [K1 K2]; congruence|].
    destruct (is_external pin) eqn:EX; cbn [negb andb]; [intros [K1 K2]; congruence|].
    destruct (Z.eqb_spec (s_low s) pin); [intros [K1 K2]; congruence|]. intros [K1 K2]; congruence.
Qed.
Fixpoint set_pins (l : list (extcall * Z * bool)) (s : stepper) (p : pins) : stepper :=
  match l with
  | [] => s
  | (ext, pin, low) :: l' => let r := setEnablePin ext pin low s p in set_pins l' (fst r) (snd r)
  end.
Lemma set_pins_distinct : forall l s p, no_clash s -> no_clash (set_pins l s p).
Proof.
  induction l as [|[[ext pin] low] l IH]; intros s p H; cbn [set_pins]; [exact H|].
  apply IH. now apply setEnablePin_distinct.
Qed.

(** ** setDelayToDisable *)
Lemma delay_to_disable A ms s : In A all_archs -> 0 <= ms ->
  let n := s_off (setDelayToDisable A ms s) in
  n = (if ms =? 0 then 1 else Z.max 2 (ms / DELAY_MS_BASE A)).
Proof.
  intros HA Hm. cbn. assert (B : 0 < DELAY_MS_BASE A) by (revert A HA; apply arch_cases; cbn; lia).
  pose proof (Z.div_pos ms (DELAY_MS_BASE A) Hm B) as D.
  rewrite fas_max_spec. destruct (Z.eqb_spec ms 0).
  - subst ms. rewrite Z.div_0_l by lia. reflexivity.
  - destruct (Z.gtb_spec ms 0); [|lia]. cbn [andb]. destruct (Z.ltb_spec (ms / DELAY_MS_BASE A) 2); lia.
Qed.

Section WithArch.
Variable A : arch.
Variable EXT : bool.
Notation L := (QUEUE_LEN A).
Notation X := (hacc A EXT).
Notation step := (hstep A EXT).
Hypothesis HA : In A all_archs.

(** ** performOneStep *)
Lemma rg_same s : st_rg (s_rg s) s = s. Proof. destruct s; reflexivity. Qed.
Lemma one_step ext up s t : good A t -> conf24 A s -> n_of t = 0 -> q_running (tqueue t) = false ->
  isRampGeneratorActive (s_rg s) = false -> q_ignore (tqueue t) = false -> all_ready t ->
  responsive s ext -> distinct_pins s -> q_max (tqueue t) <= MIN_CMD_TICKS A ->
  (s_dirpin s = PIN_UNDEFINED -> up = true) ->
  let r := performOneStep A hq X ext false up s t in
  snd r = AQE_OK /\ exists new, Forall (fun x => c_steps x = 0 /\ c_up x = up) new
    /\ acc_of (snd (fst r)) = acc_of t ++ new ++ [mkCommand (MIN_CMD_TICKS A) 1 up].
Proof.
  intros Hg Hc Hn Hrun Hact Hi Hw Hr Hd Hm Hp. unfold performOneStep.
  assert (E1 : s_isRunning s (t_q hq X t) = false).
  { unfold s_isRunning. change (t_q hq X t) with (tqueue t). rewrite Hrun, Hact. cbn [orb].
    unfold n_of in Hn. unfold isQueueEmpty. rewrite Hn. reflexivity. }
  rewrite E1. cbn [negb andb].
  replace (up || negb (s_dirpin s =? PIN_UNDEFINED)) with true
    by (destruct (Z.eqb_spec (s_dirpin s) PIN_UNDEFINED) as [E|E]; [rewrite (Hp E); reflexivity|now rewrite orb_true_r]).
  cbv iota. set (c := mkCommand (MIN_CMD_TICKS A) 1 up).
  assert (M : 0 < MIN_CMD_TICKS A < 65536) by (clear - HA; revert A HA; apply arch_cases; cbn; lia).
  assert (Hcmd : cmd_ok c) by (split; cbn; lia).
  assert (Hcd : cdur c = MIN_CMD_TICKS A) by (unfold cdur; cbn; lia).
  assert (Hl : long_cmd A c) by (unfold long_cmd; rewrite rate_cdur by exact Hcmd; lia).
  assert (EN : snd (enableOutputs ext s (hq_p t)) = true) by (apply (enable_on ext s (hq_p t)); assumption).
  assert (F : fits A s (q_max (tqueue t)) c) by (unfold fits; splits; auto).
  assert (DEC : fed s \/ s_auto s = true /\ s_cnt s = 0 /\ 0 < s_ondelay s).
  { unfold fed. destruct (s_auto s); [|auto]. destruct Hc as (_ & Ho & _).
    destruct (Z.le_gt_cases (s_ondelay s) 0); [auto|]. destruct (Z.eq_dec (s_cnt s) 0); [auto|left; right; right; lia]. }
  destruct DEC as [Hf|(D1 & D2 & D3)].
  - pose proof (ready_accepts A EXT HA ext (fun _ => false) s t Hg Hc Hn Hw Hi (fun _ => eq_refl) Hr Hd (or_introl Hf) false O (s_rg s) c F) as K.
    rewrite rg_same in K. cbn [negb] in K. split; [exact K|].
    assert (Hdel : delays_ok A s) by (split; apply Hc).
    destruct (s_add_moved A EXT HA ext false c true s t Hg Hi Hdel F (fun _ => Hf)) as (_ & new & N1 & [(_ & _ & N2)|(N2 & _)]); [|contradiction].
    exists new. split; [exact N1|]. exact (mv_acc _ _ _ _ N2).
  - assert (P : pass false c s t) by (split; [exact Hm|]; split; [exact Hp|auto]).
    destruct (enable_delay_fits A EXT HA ext false c true s t Hg Hc Hcmd D1 D2 D3 EN P ltac:(lia) Hw Hi (proj2 (pend_nil A _) Hn) Hrun)
      as (ps & B1 & _ & _ & _ & B5 & _).
    split; [exact B5|]. exists (map (fun d => mkCommand d 0 (c_up c)) ps). split; [|exact B1].
    apply Forall_forall. intros x Hx. apply in_map_iff in Hx as (d & <- & _). split; reflexivity.
Qed.
(** a running motor is not disturbed *)
Lemma one_step_running ext busy up s t : s_isRunning s (tqueue t) = true ->
  performOneStep A hq X ext busy up s t = (s, t, AQE_OK).
Proof. intros H. unfold performOneStep. change (t_q hq X t) with (tqueue t). rewrite H. reflexivity. Qed.

(** ** forceStopAndNewPosition *)
(** the effect on the queue as events of its history *)
Definition force_stop_at (pos : Z) (x : stepper * hq) : stepper * hq :=
  (fst (s_forceStopAndNewPosition pos (fst x) (fqueue x)),
   set_h (step (ESetPos pos) (step EClear (step (EIgnore true) (hq_h (snd x))))) (snd x)).
Lemma force_stop_queue pos x : h_pc (hq_h (snd x)) = Free ->
  fqueue (force_stop_at pos x) = snd (s_forceStopAndNewPosition pos (fst x) (fqueue x)).
Proof.
  intros H. unfold force_stop_at, fqueue. cbn [snd set_h hq_h]. destruct (hq_h (snd x)). cbn in H. subst.
  reflexivity.
Qed.
(** nothing moves any more *)
Record halted (pos : Z) (x : stepper * hq) : Prop := mkHalted {
  ha_inactive : isRampGeneratorActive (s_rg (fst x)) = false;
  ha_target : rg_targetPosition (s_rg (fst x)) = pos;
  ha_run : q_running (fqueue x) = false;
  ha_empty : q_rd (fqueue x) = q_wr (fqueue x);
  ha_pos : qe_pos (q_end (fqueue x)) = pos
}.
Lemma tick_rg ext s q p : s_rg (fst (tick ext s q p)) = s_rg s.
Proof.
  unfold tick, updateAutoDisable, disableOutputs, disable_pins.
  destruct (needAutoDisable s q); [destruct (disable_allowed s q)|].
  - destruct (set_pin ext (s_low s) true p) as [p1 a]. destruct (set_pin ext (s_high s) false p1) as [p2 b].
    cbn [fst]. destruct (a && b); cbn [fst]; match goal with |- context [if ?b then _ else _] => destruct b end; reflexivity.
  - cbn [fst]. match goal with |- context [if ?b then _ else _] => destruct b end; reflexivity.
  - cbn [fst]. match goal with |- context [if ?b then _ else _] => destruct b end; reflexivity.
Qed.
Lemma halted_step pos e x : halted pos x -> exists y, tstep A EXT e x = Some y /\ halted pos y
  /\ accepted_cmds y = accepted_cmds x /\ h_left (hq_h (snd y)) = h_left (hq_h (snd x)).
Proof.
  destruct x as [s t]. intros [H1 H2 H3 H4 H5]. cbn [fst snd] in *.
  destruct e as [ext busy fuel old ws|evs|ext]; cbn [tstep].
  - unfold fill_queue. rewrite H1. cbn [negb]. eexists. split; [reflexivity|]. split; [|split; reflexivity].
    constructor; auto.
  - eexists. split; [reflexivity|]. unfold accepted_cmds, fqueue in *. cbn [fst snd set_h hq_h] in *.
    rewrite (isr_idle A EXT evs (hq_h t) H3). split; [|auto]. constructor; unfold fqueue; cbn [fst snd hq_h]; auto.
  - eexists. split; [reflexivity|]. split; [|split; reflexivity].
    constructor; cbn [fst snd]; rewrite ?tick_rg; auto.
Qed.
Lemma halted_run pos : forall l x, halted pos x -> exists y, trun A EXT l x = Some y /\ halted pos y
  /\ accepted_cmds y = accepted_cmds x /\ h_left (hq_h (snd y)) = h_left (hq_h (snd x)).
Proof.
  induction l as [|e l IH]; intros x H; cbn [trun]; [exists x; auto|].
  destruct (halted_step pos e x H) as (y & -> & H1 & H2 & H3).
  destruct (IH y H1) as (z & Z1 & Z2 & Z3 & Z4). exists z. splits; auto; congruence.
Qed.
Lemma force_stop_lemma pos x l : -2147483648 <= pos < 2147483648 -> h_pc (hq_h (snd x)) = Free ->
  exists y, trun A EXT l (force_stop_at pos x) = Some y
    /\ s_isRunning (fst y) (fqueue y) = false
    /\ (forall done_p, getCurrentPosition A done_p (fqueue y) = pos)
    /\ rg_targetPosition (s_rg (fst y)) = pos
    /\ accepted_cmds y = accepted_cmds x
    /\ h_left (hq_h (snd y)) = h_left (hq_h (snd x)) ++ pend_cmds (h_done (hq_h (snd x))) (pend A (fqueue x)).
Proof.
  intros Hp Hpc. destruct x as [s t]. cbn [fst snd] in *. change (fqueue (s, t)) with (h_q (hq_h t)).
  assert (I : i32 (u32 pos) = pos) by (rewrite i32_u32; apply i32_id; lia).
  assert (H : halted pos (force_stop_at pos (s, t)) /\ accepted_cmds (force_stop_at pos (s, t)) = accepted_cmds (s, t)
    /\ h_left (hq_h (snd (force_stop_at pos (s, t)))) = h_left (hq_h t) ++ pend_cmds (h_done (hq_h t)) (pend A (h_q (hq_h t)))).
  { unfold force_stop_at, accepted_cmds. destruct t as [h p w]. destruct h. cbn in Hpc. subst.
    split; [|split; reflexivity].
    constructor; try reflexivity. cbn. exact I. }
  destruct H as (H1 & H2 & H3). destruct (halted_run pos l _ H1) as (y & Y1 & Y2 & Y3 & Y4).
  exists y. destruct Y2 as [W1 W2 W3 W4 W5]. splits; auto; try congruence.
  - unfold s_isRunning, isQueueEmpty, queueEntries. rewrite W1, W3, W4, Z.sub_diag. reflexivity.
  - intros d. unfold getCurrentPosition. rewrite W4, Z.eqb_refl, W5. exact I.
Qed.

(** ** move without a direction pin *)
Lemma move_no_dir d s : s_dirpin s = PIN_UNDEFINED -> d < 0 -> s_move d s = (s, -1).
Proof. intros H1 H2. unfold s_move. rewrite H1. destruct (Z.ltb_spec d 0); [reflexivity|lia]. Qed.
End WithArch.

(** ** moveByAcceleration *)
Lemma accel_valid v g : 0 < v < 4294967296 -> let h := fst (rg_setAcceleration v g) in
  rg_acceleration h = v /\ valid_acceleration (rg_params h) = true /\ valid_speed (rg_params h) = valid_speed (rg_params g)
  /\ rg_rw h = rg_rw g.
Proof.
  intros Hv. unfold rg_setAcceleration. destruct (Z.leb_spec v 0); [lia|]. cbn.
  split; [unfold u32; apply Z.mod_small; lia|]. unfold p_setAcceleration.
  destruct (negb (valid_acceleration (rg_params g)) || negb (pmfl_accel (rg_params g) =? pmfl_from_u32 (u32 v))) eqn:E; cbn; auto.
  apply orb_false_iff in E. destruct E as [E _]. apply negb_false_iff in E. auto.
Qed.
Lemma by_acceleration a rev s q : a <> 0 -> -2147483648 < a < 2147483648 ->
  valid_speed (rg_params (s_rg s)) = true ->
  exists s', s_moveByAcceleration a rev s q = Some (s', MOVE_OK)
    /\ rg_acceleration (s_rg s') = Z.abs a /\ valid_acceleration (rg_params (s_rg s')) = true
    /\ (if (0 <? a) || rev && negb (s_dirpin s =? PIN_UNDEFINED)
        then isRampGeneratorActive (s_rg s') = true /\ keep_running (rg_params (s_rg s')) = true
             /\ keep_running_count_up (rg_params (s_rg s')) = (0 <? a) /\ rg_isStopping (s_rg s') = false
        else isRampGeneratorActive (s_rg s') = isRampGeneratorActive (s_rg s) /\ ro_force_stop (rg_ro (s_rg s')) = true)
    /\ (isRampGeneratorActive (s_rg s) = true -> rg_rw (s_rg s') = rg_rw (s_rg s)).
Proof.
  intros H0 Ha Hv. unfold s_moveByAcceleration.
  destruct (accel_valid (Z.abs a) (s_rg s) ltac:(lia)) as (K1 & K2 & K3 & K4).
  assert (RUN : forall up, let r := s_run up (s_rg_map (fun g => fst (rg_setAcceleration (Z.abs a) g)) s) in
    snd r = MOVE_OK /\ rg_acceleration (s_rg (fst r)) = Z.abs a /\ valid_acceleration (rg_params (s_rg (fst r))) = true
    /\ (isRampGeneratorActive (s_rg (fst r)) = true /\ keep_running (rg_params (s_rg (fst r))) = true
        /\ keep_running_count_up (rg_params (s_rg (fst r))) = up /\ rg_isStopping (s_rg (fst r)) = false)
    /\ (isRampGeneratorActive (s_rg s) = true -> rg_rw (s_rg (fst r)) = rg_rw (s_rg s))).
  { intros up. unfold s_run, s_rg_map. cbn [s_rg st_rg]. set (g := fst (rg_setAcceleration (Z.abs a) (s_rg s))) in *. clearbody g.
    unfold rg_startRun, checkValidConfig. rewrite K2, K3, Hv. cbn [negb Z.eqb fst snd s_rg st_rg]. splits; auto.
    - cbn. rewrite K4. unfold isRampGeneratorActive, startRampIfNotRunning. cbn.
      destruct (rw_state (rg_rw (s_rg s)) =? RAMP_STATE_IDLE) eqn:E; cbn; [reflexivity|rewrite E; reflexivity].
    - unfold isRampGeneratorActive, startRampIfNotRunning. cbn. rewrite K4.
      destruct (rw_state (rg_rw (s_rg s)) =? RAMP_STATE_IDLE); cbn; [discriminate|reflexivity]. }
  destruct (Z.gtb_spec a 0) as [P|P].
  - rewrite (Z.abs_eq a) in * by lia. destruct (RUN true) as (R1 & R2 & R3 & R4 & R5).
    exists (fst (s_run true (s_rg_map (fun g => fst (rg_setAcceleration a g)) s))).
    destruct (Z.ltb_spec 0 a); [|lia]. cbn [orb]. splits; auto; try apply R4. rewrite (surjective_pairing (s_run _ _)), R1. reflexivity.
  - destruct (Z.ltb_spec a 0); [|lia]. destruct (Z.eqb_spec a (-2147483648)); [lia|].
    destruct (Z.ltb_spec 0 a); [lia|]. cbn [orb]. rewrite (Z.abs_neq a) in * by lia.
    change (s_dirpin (s_rg_map (fun g => fst (rg_setAcceleration (- a) g)) s)) with (s_dirpin s).
    destruct (rev && negb (s_dirpin s =? PIN_UNDEFINED)).
    + destruct (RUN false) as (R1 & R2 & R3 & R4 & R5).
      exists (fst (s_run false (s_rg_map (fun g => fst (rg_setAcceleration (- a) g)) s))).
      splits; auto; try apply R4. rewrite (surjective_pairing (s_run _ _)), R1. reflexivity.
    + eexists. split; [reflexivity|]. unfold s_rg_map. cbn [s_rg st_rg].
      set (g := fst (rg_setAcceleration (- a) (s_rg s))) in *. clearbody g.
      unfold rg_applySpeedAcceleration, applyParameters.
      destruct (ro_force_immediate (rg_ro g)); [|destruct (any_change (rg_params g))];
        cbn; unfold isRampGeneratorActive; cbn; rewrite ?K1, ?K2, ?K4; splits; auto.
Qed.


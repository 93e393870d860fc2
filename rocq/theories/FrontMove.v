(** * FrontMove: complete moves, from the call of the user to the position of the motor *)
From Coq Require Import ZArith Bool List Lia ZifyBool.
From Verif Require Import Base RampCalc RampGen RampStep RampRun RampMove RampSafe RampAcc RampUser RampPlan Queue QueueFacts QueuePos QueueHist QueueProp Stepper StepperHist FrontHist FrontProp FrontFill FrontTask FrontStart.
Import ListNotations.
Open Scope Z_scope.
Ltac Zify.zify_post_hook ::= idtac.

Section WithArch.
Variable A : arch.
Variable EXT : bool.
Notation X := (hacc A EXT).

(** Whatever the background task and the interrupt do: the commands [cs] enter the queue in
    this order, each once, with pauses in between; nothing else does. The planned position
    follows. When the ramp has ended all of them are queued, when the queue has run empty
    all of them are carried out and the motor is at [pos]. *)
Definition carries (up : bool) (cs : list command) (pos : Z) (x : stepper * hq) : Prop :=
  forall tasks, exists y done rest w,
    trun A EXT tasks x = Some y /\ cs = done ++ rest /\ woven done w
    /\ accepted_cmds y = accepted_cmds x ++ w
    /\ qe_pos (q_end (fqueue y)) = i32 (qe_pos (q_end (fqueue x)) + sgn up (total_steps done))
    /\ (isRampGeneratorActive (s_rg (fst y)) = false ->
        rest = [] /\ qe_pos (q_end (fqueue y)) = pos
        /\ (pend A (fqueue y) = [] ->
            (forall done_p, getCurrentPosition A done_p (fqueue y) = pos)
            /\ h_left (hq_h (snd y)) = accepted_cmds y)).
(** the ramp ends after [n] passes over an empty queue *)
Definition completes (n : nat) (x : stepper * hq) : Prop :=
  forall tasks, served A EXT tasks x -> (n <= passes tasks)%nat ->
    exists y, trun A EXT tasks x = Some y /\ isRampGeneratorActive (s_rg (fst y)) = false.

(** the queue does not come to a halt with commands in it *)
Definition keeps_going (x : stepper * hq) : Prop :=
  forall tasks y, Forall ready_task tasks -> trun A EXT tasks x = Some y ->
    pend A (fqueue y) = [] \/ q_running (fqueue y) = true.
(** The stepper [s] with queue [q] can start a move by [d] steps with acceleration [a] and
    [M] ticks per step: the generator is configured, idle and has no command left; the
    outputs are on (or no time is needed to switch them on), or the queue is stopped and
    empty; with a direction pin, or only upwards. *)
Record ready_to_move (s : stepper) (q : queue) (a M d : Z) : Prop := mkReady {
  rm_delays : delays_ok A s;
  rm_max : q_max q <= Z.min M 32767;
  rm_outputs : fed s \/ s_off s <> 0 /\ q_running q = false /\ pend A q = [];
  rm_dir : s_dirpin s = PIN_UNDEFINED -> 0 <= d /\ qe_up (q_end q) = true;
  rm_conf : configured (s_rg s) a M;
  rm_sane : sane (s_rg s);
  rm_idle : isRampGeneratorActive (s_rg s) = false;
  rm_pause : rw_pause_left (rg_rw (s_rg s)) = 0;
  rm_a : 1 <= a < 2147483648;
  rm_M : MIN_CMD_TICKS A <= M <= 1073741824;
  rm_d : Z.abs d < 1073741824;
  rm_ad : a * Z.max (Z.abs d) 42000 <= 100000000000000
}.

Hypothesis HA : In A all_archs.

Lemma inv_keeps_going n m cs x : tinv A m n cs x -> conf24 A (fst x) ->
  pend A (fqueue x) = [] \/ q_running (fqueue x) = true -> keeps_going x.
Proof.
  intros HI H1 H2 tasks y Hr E.
  assert (G : going (snd x)) by (destruct H2 as [H2|H2]; [left; apply (proj1 (pend_nil A _) H2)|right; exact H2]).
  destruct (trun_going A EXT HA m tasks n cs x y HI H1 G Hr E) as [K|K]; [left; now apply pend_nil|right; exact K].
Qed.
Lemma run_inv n olds g cs g' qe' s t : good A t -> delays_ok A s ->
  ramp_run A false olds n g (q_end (tqueue t)) = Some (cs, g', qe') -> isRampGeneratorActive g' = false ->
  Forall (fits A s (q_max (tqueue t))) cs ->
  fed s \/ s_off s <> 0 /\ q_running (tqueue t) = false /\ n_of t = 0 ->
  tinv A (q_max (tqueue t)) n cs (st_rg g s, t).
Proof.
  intros Hg Hd Hr Hi Hf Hc. unfold tinv. cbn [fst snd]. splits; try assumption.
  - exact (eq_refl _).
  - exact (plan_run A n olds g (q_end (tqueue t)) cs g' qe' Hr Hi).
  - intros _. destruct Hc as [Hc|(C1 & C2 & C3)]; [left; exact Hc|right]. unfold calm. auto.
Qed.
Lemma inv_carries n up pos m cs x : tinv A m n cs x -> Forall (moves_only up) cs ->
  end_pos (pos_of (snd x)) cs = pos -> carries up cs pos x.
Proof.
  intros HI Hm Hp tasks.
  destruct (trun_ok A EXT HA m tasks n cs x HI) as (y & k & done & rest & w & E & []).
  exists y, done, rest, w. 
  assert (PR : -2147483648 <= pos_of (snd x) < 2147483648) by (apply (pos_range A), HI).
  assert (PY : -2147483648 <= pos_of (snd y) < 2147483648) by (apply (pos_range A), tn_inv).
  assert (EP : pos_of (snd y) = end_pos (pos_of (snd x)) done) by (rewrite tn_pos; now apply woven_end).
  splits; try assumption.
  - change (pos_of (snd y) = i32 (pos_of (snd x) + sgn up (total_steps done))).
    rewrite <- (i32_id (pos_of (snd y))) by exact PY. rewrite EP. apply end_pos_total.
    rewrite tn_rest in Hm. apply Forall_app in Hm. apply Hm.
  - intros Hy. assert (R0 : rest = []).
    { destruct tn_inv as (_ & _ & _ & P & _). eapply plan_inactive; eassumption. }
    subst rest. rewrite app_nil_r in tn_rest. subst done.
    change (qe_pos (q_end (fqueue y))) with (pos_of (snd y)).
    assert (Y : pos_of (snd y) = pos) by congruence.
    split; [reflexivity|]. split; [exact Y|]. intros Hpend.
    pose proof (proj1 (proj1 tn_inv)) as IV.
    split.
    + intros done_p. unfold fqueue in *. rewrite position_empty by assumption. exact Y.
    + unfold accepted_cmds. rewrite (iv_fifo _ _ IV). unfold fqueue in Hpend. rewrite Hpend.
      cbn [pend_cmds]. rewrite app_nil_r. reflexivity.
Qed.
Lemma inv_completes n m cs x : tinv A m n cs x -> conf24 A (fst x) -> distinct_pins (fst x) ->
  checkValidConfig (rg_params (s_rg (fst x))) = MOVE_OK -> completes n x.
Proof.
  intros HI H1 H2 H3 tasks Hs Hn.
  destruct (served_ok A EXT HA m tasks n cs x HI H1 H2 H3 Hs Hn) as (y & k & d & r & w & E & _ & K).
  exists y. auto.
Qed.

Lemma total_zero l : Forall (valid_cmd A) l -> total_steps l = 0 -> Forall (fun c => c_steps c = 0) l.
Proof.
  assert (NN : forall l, Forall (valid_cmd A) l -> 0 <= total_steps l).
  { induction 1 as [|c l0 H _ IH]; cbn [total_steps]; [lia|]. destruct H as (_ & H & _). lia. }
  induction 1 as [|c l0 H H2 IH]; cbn [total_steps]; intros E; constructor;
    pose proof (NN _ H2); destruct H as (_ & H & _); [lia|apply IH; lia].
Qed.
(** the commands of a move pass the tests of addQueueEntry *)
Lemma cmds_fit n olds g cs g' qe' s t d M :
  ramp_run A false olds n g (q_end (tqueue t)) = Some (cs, g', qe') -> isRampGeneratorActive g' = false ->
  Forall (valid_cmd A) cs -> Forall (moves_only (0 <? d)) cs -> total_steps cs = Z.abs d ->
  Forall (at_least M) cs -> q_max (tqueue t) <= Z.min M 32767 -> (s_dirpin s = PIN_UNDEFINED -> 0 <= d /\ up_of t = true) ->
  Forall (fits A s (q_max (tqueue t))) cs.
Proof.
  intros Hr Hi Hv Hm Ht Hl Hmax Hd.
  assert (U : s_dirpin s = PIN_UNDEFINED -> Forall (fun c => c_up c = true) cs).
  { intros E. destruct (Hd E) as [D1 D2].
    apply (plan_up A _ _ _ _ _ true (plan_run A n olds g (q_end (tqueue t)) cs g' qe' Hr Hi)); [exact D2|].
    destruct (Z.ltb_spec 0 d) as [K|K]; [exact Hm|].
    eapply Forall_impl; [|apply (total_zero cs Hv); lia]. cbn. intros; contradiction. }
  rewrite Forall_forall in *. intros c Hc. specialize (Hv c Hc). specialize (Hl c Hc). unfold at_least in Hl. destruct Hv as (V1 & V2 & V3).
  assert (F : 0 < MIN_CMD_TICKS A) by (clear - HA; revert A HA; apply arch_cases; cbn; lia).
  assert (CO : cmd_ok c) by (split; lia).
  split; [exact CO|]. split; [unfold long_cmd; rewrite rate_cdur by exact CO; exact V3|].
  split; [lia|]. intros E. exact (U E c Hc).
Qed.

(** ** moveTo *)
Lemma moveTo_valid pos qe g g' r : rg_moveTo pos qe g = (g', r) ->
  checkValidConfig (rg_params g') = checkValidConfig (rg_params g).
Proof.
  unfold rg_moveTo. destruct (negb _); [intros H; injection H as <- _; reflexivity|].
  intros H. injection H as <- _. unfold rg_startMove. destruct (negb _); reflexivity.
Qed.
Lemma move_valid d g g' r : rg_move d g = (g', r) ->
  checkValidConfig (rg_params g') = checkValidConfig (rg_params g).
Proof.
  unfold rg_move. destruct (negb _); [intros H; injection H as <- _; reflexivity|].
  intros H. injection H as <- _. unfold rg_startMove. destruct (negb _); 
    unfold p_setTargetRelativePosition; cbv zeta; repeat (match goal with |- context [if ?b then _ else _] => destruct b end); reflexivity.
Qed.
Definition old_any : next_command := mkNext (mkCommand 0 0 true) (mkRw 0 0 0 0).

Section Move.
Variables (s : stepper) (t : hq) (a M : Z).
Notation g := (s_rg s).
Notation qe := (q_end (tqueue t)).
Hypothesis Hg : good A t.

Lemma moveTo_planned pos : -2147483648 <= pos < 2147483648 ->
  let d := i32 (pos - qe_pos qe) in
  ready_to_move s (tqueue t) a M d ->
  exists s1 cs n, s_moveTo pos s (tqueue t) = (s1, MOVE_OK)
    /\ total_steps cs = Z.abs d /\ Forall (valid_cmd A) cs /\ Forall (moves_only (0 <? d)) cs /\ speed_ok M cs
    /\ (tinv A (q_max (tqueue t)) n cs (s1, t) /\ (n <= S (length cs))%nat /\ Forall (at_least M) cs)
    /\ carries (0 <? d) cs pos (s1, t)
    /\ (conf24 A s -> distinct_pins s -> completes n (s1, t))
    /\ (conf24 A s -> pend A (tqueue t) = [] \/ q_running (tqueue t) = true -> keeps_going (s1, t)).
Proof.
  intros Hp d [Hdel Hmax Hout Hdir Hcfg Hsane Hidle Hpause Ha HM Hd Had].
  assert (S0 : ramp_steps A g = 0) by (unfold ramp_steps; rewrite Hidle; reflexivity).
  assert (OUT : fed s \/ s_off s <> 0 /\ q_running (tqueue t) = false /\ n_of t = 0).
  { destruct Hout as [H|(H1 & H2 & H3)]; [now left|right]. apply pend_nil in H3. auto. }
  destruct (moveTo_soon A false HA g qe (fun _ => old_any) a M pos) as
    (g1 & E & n & cs & g' & qe' & R1 & R2 & RN & R3 & R4 & R5 & R6 & R7 & R8); try assumption.
  - intros _. exact Hpause.
  - apply (pos_range A). exact Hg.
  - rewrite S0, Z.add_0_r. exact Hd.
  - rewrite S0, Z.add_0_r. exact Had.
  - fold d in R4, R6. exists (st_rg g1 s), cs, n.
    assert (HI : tinv A (q_max (tqueue t)) n cs (st_rg g1 s, t)).
    { apply (run_inv n (fun _ => old_any) g1 cs g' qe' s t Hg Hdel R1 R2); [|exact OUT]. eapply cmds_fit; eassumption. }
    splits; try assumption.
    + unfold s_moveTo. rewrite E. reflexivity.
    + eapply inv_carries; [exact HI|exact R6|]. rewrite <- R3. cbn [snd].
      symmetry. apply (run_end_pos A _ _ _ _ _ _ _ R1).
    + intros C1 C2. eapply inv_completes; [exact HI|exact C1|exact C2|].
      cbn [fst st_rg s_rg]. rewrite (moveTo_valid _ _ _ _ _ E). apply Hcfg.
    + intros C1 C2. eapply inv_keeps_going; [exact HI|exact C1|exact C2].
Qed.
Lemma moveTo_carried pos : -2147483648 <= pos < 2147483648 ->
  let d := i32 (pos - qe_pos qe) in
  ready_to_move s (tqueue t) a M d ->
  exists s1 cs n, s_moveTo pos s (tqueue t) = (s1, MOVE_OK)
    /\ total_steps cs = Z.abs d /\ Forall (valid_cmd A) cs /\ Forall (moves_only (0 <? d)) cs /\ speed_ok M cs
    /\ carries (0 <? d) cs pos (s1, t)
    /\ (conf24 A s -> distinct_pins s -> completes n (s1, t))
    /\ (conf24 A s -> pend A (tqueue t) = [] \/ q_running (tqueue t) = true -> keeps_going (s1, t)).
Proof.
  intros Hp d Hr. destruct (moveTo_planned pos Hp Hr) as (s1 & cs & n & K1 & K2 & K3 & K4 & K5 & _ & K6).
  exists s1, cs, n. auto 10.
Qed.
Lemma move_planned delta : -2147483648 <= delta < 2147483648 -> delta <> 0 ->
  let target := i32 (base_target g qe + pending_move g + delta) in
  let d := i32 (target - qe_pos qe) in
  ready_to_move s (tqueue t) a M d -> (s_dirpin s = PIN_UNDEFINED -> 0 <= delta) ->
  exists s1 cs n, s_move delta s = (s1, MOVE_OK)
    /\ total_steps cs = Z.abs d /\ Forall (valid_cmd A) cs /\ Forall (moves_only (0 <? d)) cs /\ speed_ok M cs
    /\ (tinv A (q_max (tqueue t)) n cs (s1, t) /\ (n <= S (length cs))%nat /\ Forall (at_least M) cs)
    /\ carries (0 <? d) cs target (s1, t)
    /\ (conf24 A s -> distinct_pins s -> completes n (s1, t))
    /\ (conf24 A s -> pend A (tqueue t) = [] \/ q_running (tqueue t) = true -> keeps_going (s1, t)).
Proof.
  intros Hp H0 target d [Hdel Hmax Hout Hdir Hcfg Hsane Hidle Hpause Ha HM Hd Had] Hdel0.
  assert (S0 : ramp_steps A g = 0) by (unfold ramp_steps; rewrite Hidle; reflexivity).
  assert (OUT : fed s \/ s_off s <> 0 /\ q_running (tqueue t) = false /\ n_of t = 0).
  { destruct Hout as [H|(H1 & H2 & H3)]; [now left|right]. apply pend_nil in H3. auto. }
  destruct (move_soon A false HA g qe (fun _ => old_any) a M delta) as
    (g1 & E & n & cs & g' & qe' & R1 & R2 & RN & R3 & R4 & R5 & R6 & R7 & R8); try assumption.
  - intros _. exact Hpause.
  - apply (pos_range A). exact Hg.
  - now right.
  - rewrite S0, Z.add_0_r. exact Hd.
  - rewrite S0, Z.add_0_r. exact Had.
  - fold target in R3, R4, R6. fold d in R4, R6. exists (st_rg g1 s), cs, n.
    assert (HI : tinv A (q_max (tqueue t)) n cs (st_rg g1 s, t)).
    { apply (run_inv n (fun _ => old_any) g1 cs g' qe' s t Hg Hdel R1 R2); [|exact OUT]. eapply cmds_fit; eassumption. }
    splits; try assumption.
    + unfold s_move. rewrite E. destruct (Z.ltb_spec delta 0) as [K|K]; [|reflexivity]. cbn [andb].
      destruct (Z.eqb_spec (s_dirpin s) PIN_UNDEFINED) as [K1|K1]; [|reflexivity]. specialize (Hdel0 K1). lia.
    + eapply inv_carries; [exact HI|exact R6|]. rewrite <- R3. cbn [snd].
      symmetry. apply (run_end_pos A _ _ _ _ _ _ _ R1).
    + intros C1 C2. eapply inv_completes; [exact HI|exact C1|exact C2|].
      cbn [fst st_rg s_rg]. rewrite (move_valid _ _ _ _ E). apply Hcfg.
    + intros C1 C2. eapply inv_keeps_going; [exact HI|exact C1|exact C2].
Qed.
Lemma move_carried delta : -2147483648 <= delta < 2147483648 -> delta <> 0 ->
  let target := i32 (base_target g qe + pending_move g + delta) in
  let d := i32 (target - qe_pos qe) in
  ready_to_move s (tqueue t) a M d -> (s_dirpin s = PIN_UNDEFINED -> 0 <= delta) ->
  exists s1 cs n, s_move delta s = (s1, MOVE_OK)
    /\ total_steps cs = Z.abs d /\ Forall (valid_cmd A) cs /\ Forall (moves_only (0 <? d)) cs /\ speed_ok M cs
    /\ carries (0 <? d) cs target (s1, t)
    /\ (conf24 A s -> distinct_pins s -> completes n (s1, t))
    /\ (conf24 A s -> pend A (tqueue t) = [] \/ q_running (tqueue t) = true -> keeps_going (s1, t)).
Proof.
  intros Hp H0 target d Hr Hd. destruct (move_planned delta Hp H0 Hr Hd) as (s1 & cs & n & K1 & K2 & K3 & K4 & K5 & _ & K6).
  exists s1, cs, n. auto 10.
Qed.
End Move.
End WithArch.

(** ** After any history *)
Section History.
Variable A : arch.
Variable EXT : bool.
Hypothesis HA : In A all_archs.
Lemma history_good garbage p ep m s0 evs : conf_ok s0 -> Forall fev_ok evs ->
  fgood A (frun A EXT evs (finit A garbage p ep m s0)).
Proof.
  intros H1 H2.
  destruct (frun_ind A EXT HA (fun _ => True) (fun _ => True)) with (l := evs) (x := finit A garbage p ep m s0)
    as (H & _); auto.
  - now apply finit_good.
  - apply Forall_forall. auto.
Qed.
End History.

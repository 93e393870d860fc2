(** * FrontTask: a move from the call of the user to the pulses

    Histories of the background task (fill_queue and the automatic disable of the outputs)
    and the interrupt. *)
From Coq Require Import ZArith Bool List Lia ZifyBool.
From Verif Require Import Base RampCalc RampGen RampRun RampMove RampSafe RampPlan Queue QueueFacts QueuePos QueueHist QueueProp Stepper StepperHist FrontHist FrontProp FrontFill.
Import ListNotations.
Open Scope Z_scope.
Ltac Zify.zify_post_hook ::= idtac.

Section WithArch.
Variable A : arch.
Variable EXT : bool.
Notation L := (QUEUE_LEN A).
Notation X := (hacc A EXT).

(** ** Histories *)
(** [TFill]: a pass of fill_queue (src/FastAccelStepper.cpp:363-450) with the interrupts and
    states of the device [ws]; [TIsr]: interrupts; [TTick]: the cyclic task handles the
    automatic disable (src/FastAccelStepper.cpp:160-211, 452-489) *)
Inductive task :=
| TFill (ext : extcall) (busy : nat -> bool) (fuel : nat) (old : next_command) (ws : list weather)
| TIsr (evs : list event)
| TTick (ext : extcall).
Definition tstep (e : task) (x : stepper * hq) : option (stepper * hq) :=
  let '(s, t) := x in
  match e with
  | TFill ext busy fuel old ws => fill_queue A hq X ext busy fuel old s (set_w ws t)
  | TIsr evs => Some (s, set_h (isr A EXT evs (hq_h t)) t)
  | TTick ext =>
    let r := tick ext s (h_q (hq_h t)) (hq_p t) in Some (fst r, t_setpins hq X (snd r) t)
  end.
Fixpoint trun (l : list task) (x : stepper * hq) : option (stepper * hq) :=
  match l with
  | [] => Some x
  | e :: l' => match tstep e x with None => None | Some y => trun l' y end
  end.

Hypothesis HA : In A all_archs.

(** ** A pass of fill_queue *)
Definition tinv (m : Z) (k : nat) (rest : list command) (x : stepper * hq) : Prop :=
  good A (snd x) /\ delays_ok A (fst x) /\ q_max (tqueue (snd x)) = m
  /\ plan A k (s_rg (fst x)) (pos_of (snd x)) (up_of (snd x)) rest
  /\ Forall (fits A (fst x) m) rest
  /\ (isRampGeneratorActive (s_rg (fst x)) = true -> fed (fst x) \/ calm A (fst x) (snd x)).
Record tnext (m : Z) (k : nat) (rest : list command) (x y : stepper * hq) (k' : nat)
  (done rest' w : list command) : Prop := mkTnext {
  tn_inv : tinv m k' rest' y;
  tn_rest : rest = done ++ rest';
  tn_woven : woven done w;
  tn_acc : acc_of (snd y) = acc_of (snd x) ++ w;
  tn_pos : pos_of (snd y) = end_pos (pos_of (snd x)) w;
  tn_like : like (fst x) (fst y);
  tn_k : (k' <= k)%nat
}.
Lemma tnext_stay m k rest x : tinv m k rest x -> tnext m k rest x x k [] rest [].
Proof. intros H. constructor; auto; [constructor|now rewrite app_nil_r|apply like_refl]. Qed.

Lemma ignore_good b t : good A t -> good A (t_ignore hq X b t).
Proof.
  intros [H1 H2]. split; [|exact H2].
  apply (inv_step A EXT HA (hq_h t) (EIgnore b)); [exact H1|exact I].
Qed.
Lemma fill_ok ext busy fuel old m k rest s t : tinv m k rest (s, t) ->
  exists y k' done rest' w, fill_queue A hq X ext busy fuel old s t = Some y
    /\ tnext m k rest (s, t) y k' done rest' w
    /\ (isRampGeneratorActive (s_rg s) = true -> checkValidConfig (rg_params (s_rg s)) = MOVE_OK -> fuel <> O ->
        n_of t = 0 -> accepts A EXT ext busy (negb (q_running (tqueue t))) s (t_ignore hq X false t) ->
        (k' < k)%nat).
Proof.
  intros HI. pose proof (tnext_stay _ _ _ _ HI) as ST.
  destruct HI as (Hg & Hd & Hm & Hp & Hf & Hc). cbn [fst snd] in *.
  unfold fill_queue.
  destruct (isRampGeneratorActive (s_rg s)) eqn:Ea; cbn [negb].
  2:{ exists (s, t), k, [], rest, []. split; [reflexivity|]. split; [exact ST|discriminate]. }
  destruct (Z.eqb_spec (checkValidConfig (rg_params (s_rg s))) MOVE_OK) as [Ev|Ev]; cbn [negb].
  2:{ exists (s, t), k, [], rest, []. split; [reflexivity|]. split; [exact ST|]. intros. contradiction. }
  cbv zeta. specialize (Hc eq_refl).
  set (t0 := t_ignore hq X false t).
  pose proof (ignore_good false t Hg) as Hg0. fold t0 in Hg0.
  change (t_q hq X t0) with (tqueue t0).
  assert (Er : q_running (tqueue t0) = q_running (tqueue t)) by reflexivity.
  set (delayed := negb (q_running (tqueue t0))).
  destruct (fill_loop_ok A EXT HA ext busy delayed fuel old (ticksInQueue A (tqueue t0)) false s t0 k rest) as
    (s1 & t1 & need & k' & done & rest' & w & R1 & R2 & R3 & R4 & R5 & R6 & R7 & R8 & R9 & R10 & R11); auto.
  { change (tqueue t0) with (q_set_ignore false (tqueue t)) || idtac. rewrite <- Hm in Hf. exact Hf. }
  { unfold delayed. intros K. apply negb_false_iff in K. destruct Hc as [Hc|(_ & C & _)]; [exact Hc|]. congruence. }
  { unfold delayed. intros K. now apply negb_true_iff in K. }
  { discriminate. }
  rewrite R1.
  set (t2 := if need then fst (t_null hq X true t1) else t1).
  assert (M2 : moved A [] t1 t2).
  { unfold t2. destruct need; [apply null_moved; [exact HA|]|apply moved_refl]; apply R4. }
  pose proof (moved_trans A _ _ _ _ _ R4 M2) as M. rewrite app_nil_r in M.
  assert (Eend : pos_of t2 = pos_of t1 /\ up_of t2 = up_of t1).
  { split; [exact (mv_pos _ _ _ _ M2)|exact (mv_up _ _ _ _ M2)]. }
  destruct Eend as [E1 E2].
  exists (s1, t2), k', done, rest', w. split; [reflexivity|]. split.
  - constructor; cbn [fst snd]; auto.
    + split; [apply M|]. split; [eapply like_delays; eassumption|].
      split; [cbn [snd]; rewrite (sc_max _ _ (mv_same _ _ _ _ M)); exact Hm|].
      cbn [fst snd]. rewrite E1, E2. split; [exact R5|]. split.
      * rewrite R2 in Hf. apply Forall_app in Hf. eapply Forall_impl; [|exact (proj2 Hf)].
        intros c. now apply like_fits.
      * intros _. unfold t2 in *. destruct need; [|exact R8].
        destruct R8 as [R8|C]; [now left|]. destruct (R9 eq_refl) as [R|N]; [now left|].
        right. destruct C as (C1 & C2 & _).
        destruct (null_idle A EXT true t1 C2 (or_intror N) (mv_good _ _ _ _ R4)) as [N1 N2].
        unfold calm. repeat split; auto. left. congruence.
    + exact (mv_acc _ _ _ _ M).
    + exact (mv_pos _ _ _ _ M).
  - intros _ _ Hfuel Hn Hacc. apply R11; auto.
    unfold fill_more. rewrite Ea. unfold n_of in Hn.
    assert (Q0 : queueEntries (tqueue t0) = 0) by exact Hn.
    assert (F : 0 < L) by (clear - HA; revert A HA; apply arch_cases; cbn; lia).
    assert (Q1 : isQueueFull A (tqueue t0) = false).
    { unfold isQueueFull. rewrite Q0. apply Z.eqb_neq. clear - F. lia. }
    rewrite Q1, Q0. cbn [Z.leb negb andb]. now rewrite orb_true_r.
Qed.

(** ** Any task *)
Lemma tick_active ext s q p : isRampGeneratorActive (s_rg s) = true -> fst (tick ext s q p) = s.
Proof.
  intros Ha. unfold tick, needAutoDisable, updateAutoDisable.
  assert (E : s_isRunning s q = true) by (unfold s_isRunning; rewrite Ha, orb_true_r; reflexivity).
  rewrite E. cbn [negb]. rewrite andb_false_r. cbn [fst]. rewrite E. cbn [negb]. rewrite andb_false_r. reflexivity.
Qed.
Lemma like_cnt n s : like s (st_cnt n s).
Proof. constructor; reflexivity. Qed.
Lemma tstep_ok e m k rest x : tinv m k rest x ->
  exists y k' done rest' w, tstep e x = Some y /\ tnext m k rest x y k' done rest' w.
Proof.
  intros HI. pose proof (tnext_stay _ _ _ _ HI) as ST. destruct x as [s t].
  destruct e as [ext busy fuel old ws|evs|ext]; cbn [tstep].
  - destruct (fill_ok ext busy fuel old m k rest s (set_w ws t)) as (y & k' & done & rest' & w & H1 & H2 & _).
    { exact HI. }
    exists y, k', done, rest', w. split; [exact H1|]. destruct H2. constructor; auto.
  - destruct HI as (Hg & Hd & Hm & Hp & Hf & Hc). cbn [fst snd] in *.
    destruct (isr_kept A EXT HA evs (hq_h t) (proj1 Hg)) as [I K]. 
    set (t' := set_h (isr A EXT evs (hq_h t)) t).
    assert (E : pos_of t' = pos_of t /\ up_of t' = up_of t).
    { unfold pos_of, up_of, tqueue. cbn [t' set_h hq_h]. rewrite (k_end _ _ K). auto. }
    destruct E as [E1 E2].
    exists (s, t'), k, [], rest, []. split; [reflexivity|]. constructor; cbn [fst snd]; auto.
    + unfold tinv. cbn [fst snd]. rewrite E1, E2. splits; try assumption.
      * split; [exact I|]. cbn [t' set_h hq_h]. rewrite (k_pc _ _ K). exact (proj2 Hg).
      * unfold tqueue. cbn [t' set_h hq_h]. rewrite (k_max _ _ K). exact Hm.
      * intros Ha. destruct (Hc Ha) as [C|C]; [now left|right].
        assert (Et : hq_h t' = hq_h t) by (cbn [t' set_h hq_h]; apply isr_idle; apply C).
        unfold calm, tqueue, n_of, pos_of, up_of, tqueue in *. rewrite Et. exact C.
    + constructor.
    + rewrite app_nil_r. exact (k_acc _ _ K).
    + apply like_refl.
  - destruct HI as (Hg & Hd & Hm & Hp & Hf & Hc). cbn [fst snd] in *.
    set (r := tick ext s (h_q (hq_h t)) (hq_p t)).
    exists (fst r, t_setpins hq X (snd r) t), k, [], rest, []. split; [reflexivity|].
    assert (LK : like s (fst r)).
    { destruct (tick_conf ext s (h_q (hq_h t)) (hq_p t)) as [D|[n D]]; fold r in D; rewrite D; [apply like_refl|apply like_cnt]. }
    assert (RG : s_rg (fst r) = s_rg s).
    { destruct (tick_conf ext s (h_q (hq_h t)) (hq_p t)) as [D|[n D]]; fold r in D; rewrite D; reflexivity. }
    constructor; cbn [fst snd]; auto.
    + unfold tinv. cbn [fst snd]. rewrite RG. splits; auto.
      * eapply like_delays; eassumption.
      * eapply Forall_impl; [|exact Hf]. intros c. now apply like_fits.
      * intros Ha. unfold r. rewrite tick_active by exact Ha. exact (Hc Ha).
    + constructor.
    + rewrite app_nil_r. reflexivity.
Qed.
Lemma tnext_trans m k rest x y k1 d1 r1 w1 z k2 d2 r2 w2 : tnext m k rest x y k1 d1 r1 w1 ->
  tnext m k1 r1 y z k2 d2 r2 w2 -> tnext m k rest x z k2 (d1 ++ d2) r2 (w1 ++ w2).
Proof.
  intros [] []. constructor; auto.
  - rewrite tn_rest0, tn_rest1, app_assoc. reflexivity.
  - now apply woven_app.
  - rewrite tn_acc1, tn_acc0, app_assoc. reflexivity.
  - unfold end_pos in *. rewrite fold_left_app. congruence.
  - eapply like_trans; eassumption.
  - lia.
Qed.
Lemma trun_ok m : forall l k rest x, tinv m k rest x ->
  exists y k' done rest' w, trun l x = Some y /\ tnext m k rest x y k' done rest' w.
Proof.
  induction l as [|e l IH]; intros k rest x HI; cbn [trun].
  - exists x, k, [], rest, []. split; [reflexivity|now apply tnext_stay].
  - destruct (tstep_ok e m k rest x HI) as (y & k1 & d1 & r1 & w1 & -> & H1).
    destruct (IH k1 r1 y (tn_inv _ _ _ _ _ _ _ _ _ H1)) as (z & k2 & d2 & r2 & w2 & H2 & H3).
    exists z, k2, (d1 ++ d2), r2, (w1 ++ w2). split; [exact H2|]. eapply tnext_trans; eassumption.
Qed.

(** ** A ready pass on an empty queue makes progress *)
Lemma ready_accepts ext busy s t : good A t -> conf24 A s -> n_of t = 0 -> all_ready t ->
  q_ignore (tqueue t) = false -> (forall f, busy f = false) -> responsive s ext -> distinct_pins s ->
  fed s \/ calm A s t -> forall delayed, accepts A EXT ext busy delayed s t.
Proof.
  intros Hg Hc Hn Hw Hi Hb Hr Hd Hs delayed f g1 c (F1 & F2 & F3 & F4). rewrite Hb.
  set (s1 := st_rg g1 s).
  assert (Hl : MIN_CMD_TICKS A <= cdur c) by (rewrite <- rate_cdur by exact F1; exact F2).
  assert (SEC : forall t1 start, good A t1 -> all_ready t1 -> n_of t1 = 0 ->
     snd (add_second A hq X c start s1 t1) = AQE_OK).
  { intros t1 start G1 W1 N1. apply (second_code A EXT HA); auto. }
  assert (P : pass false c s1 t).
  { split; [exact F3|]. split; [exact F4|]. right. reflexivity. }
  assert (EN : snd (enableOutputs ext s1 (hq_p t)) = true).
  { apply (enable_on ext s1 (hq_p t)); assumption. }
  unfold s_add. destruct (add_first_cases A EXT ext false c (negb delayed) s1 t) as [(_ & _ & K)|[_ H]]; [contradiction|].
  destruct H as [[He H]|[He H]].
  { rewrite H. change (negb (AQE_OK =? AQE_OK)) with false. cbv iota. now apply SEC. }
  cbv zeta in H. destruct H as [[K _]|[(_ & E2 & H)|(_ & E2 & _)]]; [congruence| |].
  { rewrite H. change (negb (AQE_OK =? AQE_OK)) with false. cbv iota. now apply SEC. }
  unfold enabling in He. apply andb_true_iff in He as [Ha Hz]. apply Z.eqb_eq in Hz.
  change (s_auto s1) with (s_auto s) in Ha. change (s_cnt s1) with (s_cnt s) in Hz.
  change (s_ondelay s1) with (s_ondelay s) in E2.
  destruct Hs as [[K|[K|[K _]]]|(_ & Hrun & _)]; [congruence|lia|congruence|].
  destruct (enable_delay_fits A EXT HA ext false c (negb delayed) s1 t) as (ps & _ & _ & _ & _ & K & _); auto.
  apply pend_nil. exact Hn.
Qed.

(** the queue is empty at every pass, the device and the outputs are ready *)
Definition served_task (s : stepper) (q : queue) (e : task) : Prop :=
  match e with
  | TFill ext busy fuel _ ws => (1 <= fuel)%nat /\ (forall f, busy f = false) /\ Forall ready ws
      /\ responsive s ext /\ pend A q = []
  | _ => True
  end.
Fixpoint served (l : list task) (x : stepper * hq) : Prop :=
  match l with
  | [] => True
  | e :: l' => served_task (fst x) (fqueue x) e /\ forall y, tstep e x = Some y -> served l' y
  end.
Definition is_fill (e : task) : bool := match e with TFill _ _ _ _ _ => true | _ => false end.
Definition passes (l : list task) : nat := length (filter is_fill l).

Lemma served_ok m : forall l k rest x, tinv m k rest x -> conf24 A (fst x) -> distinct_pins (fst x) ->
  checkValidConfig (rg_params (s_rg (fst x))) = MOVE_OK -> served l x -> (k <= passes l)%nat ->
  exists y k' done rest' w, trun l x = Some y /\ tnext m k rest x y k' done rest' w
    /\ isRampGeneratorActive (s_rg (fst y)) = false.
Proof.
  assert (DONE : forall l k rest x, tinv m k rest x -> isRampGeneratorActive (s_rg (fst x)) = false ->
    exists y k' done rest' w, trun l x = Some y /\ tnext m k rest x y k' done rest' w
      /\ isRampGeneratorActive (s_rg (fst y)) = false).
  { induction l as [|e l IH]; intros k rest x HI Hx; cbn [trun].
    - exists x, k, [], rest, []. split; [reflexivity|]. split; [now apply tnext_stay|exact Hx].
    - destruct (tstep_ok e m k rest x HI) as (y & k1 & d1 & r1 & w1 & E & H1).
      assert (Hy : isRampGeneratorActive (s_rg (fst y)) = false).
      { clear IH H1. destruct x as [s t]. destruct e as [ext busy fuel old ws|evs|ext]; cbn [tstep fst] in E, Hx.
        - unfold fill_queue in E. rewrite Hx in E. cbn [negb] in E. injection E as <-. exact Hx.
        - injection E as <-. exact Hx.
        - assert (D : s_rg (fst (tick ext s (h_q (hq_h t)) (hq_p t))) = s_rg s).
          { destruct (tick_conf ext s (h_q (hq_h t)) (hq_p t)) as [D|[n D]]; cbv zeta in D; rewrite D; reflexivity. }
          assert (Ey : s_rg (fst y) = s_rg s) by (injection E as <-; exact D). rewrite Ey. exact Hx. }
      rewrite E. destruct (IH k1 r1 y (tn_inv _ _ _ _ _ _ _ _ _ H1) Hy) as (z & k2 & d2 & r2 & w2 & H2 & H3 & H4).
      exists z, k2, (d1 ++ d2), r2, (w1 ++ w2). split; [exact H2|]. split; [|exact H4]. eapply tnext_trans; eassumption. }
  induction l as [|e l IH]; intros k rest x HI Hc Hd Hv Hs Hk.
  { apply DONE; [exact HI|]. cbn in Hk. replace k with O in HI by lia.
    destruct HI as (_ & _ & _ & Hp & _). eapply plan_zero_height. exact Hp. }
  destruct (isRampGeneratorActive (s_rg (fst x))) eqn:Ea; [|now apply DONE].
  assert (ST : exists y k1 d1 r1 w1, tstep e x = Some y /\ tnext m k rest x y k1 d1 r1 w1 /\ (k1 <= passes l)%nat).
  { destruct (is_fill e) eqn:Ee.
    - destruct e as [ext busy fuel old ws| |]; try discriminate. destruct x as [s t]. cbn [fst snd] in *.
      destruct Hs as [(Hf & Hb & Hw & Hr & Hpend) _]. 
      destruct (fill_ok ext busy fuel old m k rest s (set_w ws t) HI) as (y & k' & d & r & w & E & H & HP).
      assert (Hn : n_of (set_w ws t) = 0) by (apply pend_nil in Hpend; exact Hpend).
      exists y, k', d, r, w. split; [exact E|]. split; [destruct H; constructor; auto|].
      unfold passes in *. cbn [filter is_fill length] in Hk.
      assert (k' < k)%nat; [|lia]. apply HP; auto; [lia|].
      destruct HI as (G & _ & _ & _ & _ & Hfc).
      apply ready_accepts; auto.
      apply ignore_good. exact G.
    - destruct (tstep_ok e m k rest x HI) as (y & k1 & d1 & r1 & w1 & E & H1).
      exists y, k1, d1, r1, w1. split; [exact E|]. split; [exact H1|].
      pose proof (tn_k _ _ _ _ _ _ _ _ _ H1). unfold passes in *. cbn [filter] in Hk. rewrite Ee in Hk. lia. }
  destruct ST as (y & k1 & d1 & r1 & w1 & E & H1 & Hk1).
  cbn [trun]. rewrite E. pose proof (tn_like _ _ _ _ _ _ _ _ _ H1) as LK.
  destruct (IH k1 r1 y (tn_inv _ _ _ _ _ _ _ _ _ H1)) as (z & k2 & d2 & r2 & w2 & H2 & H3 & H4).
  - destruct LK. unfold conf24, conf_ok in *. rewrite lk_dirdelay, lk_ondelay, lk_off. exact Hc.
  - destruct LK. unfold distinct_pins in *. rewrite lk_low, lk_high. exact Hd.
  - rewrite (lk_valid _ _ LK). exact Hv.
  - apply Hs. exact E.
  - exact Hk1.
  - exists z, k2, (d1 ++ d2), r2, (w1 ++ w2). split; [exact H2|]. split; [|exact H4]. eapply tnext_trans; eassumption.
Qed.

(** ** The end of a ramp *)
Lemma run_end_pos : forall n olds g qe cs g' qe', ramp_run A false olds n g qe = Some (cs, g', qe') ->
  qe_pos qe' = end_pos (qe_pos qe) cs.
Proof.
  induction n as [|n IH]; intros olds g qe cs g' qe' H; cbn [ramp_run] in H.
  { injection H as <- <- <-. reflexivity. }
  destruct (isRampGeneratorActive g); [|injection H as <- <- <-; reflexivity].
  unfold ramp_step in H. cbn [andb] in H.
  destruct (rg_getNextCommand A qe (olds O) g) as [[g1 n1]|]; [|discriminate].
  destruct (c_ticks (n_cmd n1) =? 0).
  - destruct (ramp_run A false _ n _ _) as [[[cs1 g2] qe2]|] eqn:Er; [|discriminate].
    injection H as <- <- <-. cbn [app]. apply (IH _ _ _ _ _ _ Er).
  - destruct (ramp_run A false _ n _ _) as [[[cs1 g2] qe2]|] eqn:Er; [|discriminate].
    injection H as <- <- <-. rewrite (IH _ _ _ _ _ _ Er). reflexivity.
Qed.
Lemma woven_end done w : woven done w -> forall p, -2147483648 <= p < 2147483648 -> end_pos p w = end_pos p done.
Proof.
  unfold end_pos. induction 1; intros p Hp; cbn [fold_left]; auto.
  - rewrite after_pos_pause by assumption. auto.
  - apply IHwoven. unfold after_pos. apply i32_range.
Qed.
Lemma end_pos_total up : forall l p, Forall (moves_only up) l ->
  i32 (end_pos p l) = i32 (p + sgn up (total_steps l)).
Proof.
  unfold end_pos. induction l as [|c l IH]; intros p H; cbn [fold_left total_steps].
  { f_equal. destruct up; cbn; lia. }
  inversion H as [|? ? H1 H2]; subst. rewrite IH by exact H2. unfold after_pos.
  rewrite i32_add_i32. f_equal. unfold sgn, moves_only in *.
  destruct (Z.eq_dec (c_steps c) 0) as [E|E]; [rewrite E; destruct (c_up c), up; lia|].
  rewrite (H1 E). destruct up; lia.
Qed.
End WithArch.

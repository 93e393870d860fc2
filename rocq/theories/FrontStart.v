(** * FrontStart: after a pass of fill_queue the queue is running or empty *)
From Coq Require Import ZArith Bool List Lia ZifyBool.
From Verif Require Import Base RampCalc RampGen RampRun RampMove RampPlan Queue QueueFacts QueuePos QueueHist Stepper StepperHist FrontHist FrontProp FrontFill FrontTask.
Import ListNotations.
Open Scope Z_scope.
Ltac Zify.zify_post_hook ::= idtac.

Section WithArch.
Variable A : arch.
Variable EXT : bool.
Notation L := (QUEUE_LEN A).
Notation X := (hacc A EXT).
Notation step := (hstep A EXT).
Hypothesis HA : In A all_archs.

Definition goes (q : queue) : Prop := queueEntries q = 0 \/ q_running q = true.
Definition going (t : hq) : Prop := goes (tqueue t).

Lemma start_head_q h : h_q (start_head A h) = h_q h.
Proof. unfold start_head. destruct (_ && _); reflexivity. Qed.
Lemma isr_step_goes ev h : inv A h -> isr_ev ev = true -> goes (h_q h) -> goes (h_q (step ev h)).
Proof.
  intros HI Hi H. destruct ev; try discriminate; cbn [hstep].
  - destruct (_ && _) eqn:E; [|exact H]. right. cbn [h_q q_dec q_running].
    destruct H as [H|H]; [|exact H]. unfold nonempty in E. rewrite H in E. discriminate.
  - destruct (nonempty (h_q h) && q_running (h_q h) && h_started h) eqn:E; [|exact H].
    rewrite start_head_q. right. cbn [h_q]. apply andb_true_iff in E as [E _]. apply andb_true_iff in E as [_ E]. exact E.
  - destruct (_ && _); [rewrite start_head_q|]; exact H.
  - destruct (_ && _) eqn:E; [|exact H]. left. apply andb_true_iff in E as [E _]. unfold nonempty in E.
    rewrite negb_involutive in E. apply Z.eqb_eq in E. exact E.
Qed.
Lemma isr_goes : forall l h, inv A h -> goes (h_q h) -> goes (h_q (isr A EXT l h)).
Proof.
  unfold isr. induction l as [|ev l IH]; intros h HI H; cbn [filter hrun]; [exact H|].
  destruct (isr_ev ev) eqn:E; [|now apply IH]. cbn [hrun]. apply IH; [|now apply isr_step_goes].
  apply inv_step; auto. destruct ev; try discriminate; exact I.
Qed.
(** a call with start leaves a running or empty queue, if it was one *)
Lemma add_going c t : good A t -> cmd_ok c -> going t -> all_ready t -> going (fst (t_add hq X c true t)).
Proof.
  intros [HI HP] Hc H Hw. unfold going, tqueue in *. cbn [t_add hacc h_add fst hq_h].
  apply isr_goes; [apply (hcall_spec A EXT HA (weather1 t) c true (hq_h t) HI Hc HP)|]. unfold hcall.
  set (w := weather1 t). destruct (all_ready1 t Hw) as [R1 R2]. fold w in R1, R2. rewrite R1, R2.
  set (h0 := isr A EXT (w_i0 w) (hq_h t)).
  destruct (isr_kept A EXT HA (w_i0 w) (hq_h t) HI) as [I0 K0]. fold h0 in I0, K0.
  assert (G0 : goes (h_q h0)) by (now apply isr_goes).
  assert (P0 : h_pc h0 = Free) by (rewrite (k_pc _ _ K0); exact HP).
  set (h1 := step (EBegin c true true) h0).
  assert (I1 : inv A h1) by (apply inv_step; auto).
  destruct (add_check A true c (h_q h0) =? AQE_OK) eqn:EC.
  - (* passes *)
    assert (P1 : h_pc h1 = Prepared c (next_end c (h_q h0)) true).
    { unfold h1. cbn [hstep]. rewrite P0, EC. reflexivity. }
    destruct (isr_kept A EXT HA (w_i1 w) h1 I1) as [I2 K2]. set (h2 := isr A EXT (w_i1 w) h1) in *.
    assert (P2 : h_pc h2 = Prepared c (next_end c (h_q h0)) true) by (rewrite (k_pc _ _ K2); exact P1).
    set (h3 := step (ECommit true) h2).
    assert (I3 : inv A h3) by (apply inv_step; auto; exact I).
    assert (E3 : h_pc h3 = Committed true).
    { unfold h3. cbn [hstep]. rewrite P2. cbn [h_pc]. unfold add_commit. destruct (q_ignore (h_q h2)); reflexivity. }
    destruct (isr_kept A EXT HA (w_i2 w) h3 I3) as [I4 K4]. set (h4 := isr A EXT (w_i2 w) h3) in *.
    assert (P4 : h_pc h4 = Committed true) by (rewrite (k_pc _ _ K4); exact E3).
    cbn [hstep]. rewrite P4. unfold add_starts. rewrite andb_true_r.
    destruct (q_running (h_q h4)) eqn:ER; cbn [negb].
    + right. exact ER.
    + rewrite start_head_q. right. reflexivity.
  - (* refused *)
    assert (P1 : h_pc h1 = Free) by (unfold h1; cbn [hstep]; rewrite P0, EC; reflexivity).
    assert (G1 : goes (h_q h1)) by (unfold h1; cbn [hstep]; rewrite P0, EC; exact G0).
    destruct (isr_kept A EXT HA (w_i1 w) h1 I1) as [I2 K2].
    pose proof (isr_goes (w_i1 w) h1 I1 G1) as G2. set (h2 := isr A EXT (w_i1 w) h1) in *.
    assert (P2 : h_pc h2 = Free) by (rewrite (k_pc _ _ K2); exact P1).
    assert (E3 : step (ECommit true) h2 = h2) by (cbn [hstep]; rewrite P2; reflexivity). rewrite E3.
    pose proof (isr_goes (w_i2 w) h2 I2 G2) as G4.
    destruct (isr_kept A EXT HA (w_i2 w) h2 I2) as [_ K4].
    set (h4 := isr A EXT (w_i2 w) h2) in *.
    assert (P4 : h_pc h4 = Free) by (rewrite (k_pc _ _ K4); exact P2).
    cbn [hstep]. rewrite P4. exact G4.
Qed.
Lemma null_going t : good A t -> all_ready t -> going (fst (t_null hq X true t)).
Proof.
  intros [HI HP] Hw. unfold going, tqueue. cbn [t_null hacc h_null fst hq_h].
  destruct (all_ready1 t Hw) as [R1 _]. rewrite R1.
  destruct (isr_kept A EXT HA (w_i0 (weather1 t)) (hq_h t) HI) as [I0 K0].
  set (h := isr A EXT (w_i0 (weather1 t)) (hq_h t)) in *.
  assert (P0 : h_pc h = Free) by (rewrite (k_pc _ _ K0); exact HP).
  apply isr_goes; [apply inv_step; auto; exact I|].
  cbn [hstep]. rewrite P0. cbn [is_free andb]. unfold q_add_null. cbn [negb andb].
  destruct (q_running (h_q h)) eqn:ER; cbn [negb a_started]; [right; exact ER|].
  destruct (Z.eqb_spec (q_wr (h_q h)) (q_rd (h_q h))) as [E|E]; cbn [a_started].
  - left. apply (empty_iff A); [apply I0|symmetry; exact E].
  - rewrite start_head_q. right. reflexivity.
Qed.
Lemma adds_going : forall l t, good A t -> Forall cmd_ok l -> going t -> all_ready t ->
  going (fst (adds A EXT true l t)) /\ all_ready (fst (adds A EXT true l t)).
Proof.
  induction l as [|c l IH]; intros t Hg Hl H Hw; cbn [adds]; [auto|].
  inversion Hl as [|? ? H1 H2]; subst.
  pose proof (add_ok A EXT HA c true t Hg H1) as [].
  assert (W1 : all_ready (fst (t_add hq X c true t))) by (unfold all_ready; rewrite as_w; now apply tl_Forall).
  pose proof (add_going c t Hg H1 H Hw) as G1.
  destruct (snd (t_add hq X c true t) =? AQE_OK); [now apply IH|auto].
Qed.
Lemma pauses_ready up : forall l t, good A t -> Forall (fun d => 0 <= d < 65536) l -> all_ready t ->
  all_ready (add_pauses hq X up l t).
Proof.
  induction l as [|d l IH]; intros t Hg Hl Hw; cbn [add_pauses]; [exact Hw|].
  inversion Hl as [|? ? H1 H2]; subst.
  assert (Hc : cmd_ok (mkCommand d 0 up)) by (split; cbn; lia).
  pose proof (add_ok A EXT HA (mkCommand d 0 up) false t Hg Hc) as []. apply IH; auto.
  unfold all_ready. rewrite as_w. now apply tl_Forall.
Qed.
Lemma second_going c s t : good A t -> cmd_ok c -> conf_ok s -> going t -> all_ready t ->
  let r := add_second A hq X c true s t in going (snd (fst r)) /\ all_ready (snd (fst r)).
Proof.
  intros Hg Hc Hs H Hw. cbv zeta. rewrite add_second_eq. destruct (no_room A c s t); [auto|].
  cbv zeta. cbn [fst snd]. apply adds_going; auto. now apply pre_ok.
Qed.
Lemma s_add_going ext busy c s t : good A t -> cmd_ok c -> conf_ok s -> going t -> all_ready t ->
  let r := s_add A hq X ext busy c true s t in going (snd (fst r)) /\ all_ready (snd (fst r)).
Proof.
  intros Hg Hc Hs H Hw. cbv zeta. unfold s_add.
  destruct (add_first_cases A EXT ext busy c true s t) as [(E & F & _)|[_ F]].
  { destruct (add_first hq X ext busy c true s t) as [t1 code]. cbn [fst snd] in *. subst t1.
    destruct (Z.eqb_spec code AQE_OK); [contradiction|]. cbn [negb fst snd]. auto. }
  destruct F as [[_ F]|[_ F]].
  { rewrite F. change (negb (AQE_OK =? AQE_OK)) with false. cbv iota. now apply second_going. }
  cbv zeta in F. set (t1 := t_setpins hq X (fst (enableOutputs ext s (hq_p t))) t) in *.
  assert (G1 : good A t1) by exact Hg. assert (H1 : going t1) by exact H. assert (W1 : all_ready t1) by exact Hw.
  destruct F as [[_ F]|[(_ & _ & F)|(_ & Hpos & F)]]; rewrite F.
  - change (negb (AQE_WAIT_FOR_ENABLE_PIN_ACTIVE =? AQE_OK)) with true. cbv iota. cbn [fst snd]. auto.
  - change (negb (AQE_OK =? AQE_OK)) with false. cbv iota. now apply second_going.
  - destruct (pieces_range A EXT s c t Hs Hpos) as [_ HR]. cbv zeta in HR.
    set (ps := on_pieces _ _) in *.
    destruct (pauses_grow A EXT HA (c_up c) ps t1 G1 HR) as (G2 & _).
    pose proof (pauses_ready (c_up c) ps t1 G1 HR W1) as W2.
    set (t2 := add_pauses hq X (c_up c) ps t1) in *.
    pose proof (null_going t2 G2 W2) as H3. pose proof (null_ok A EXT HA true t2 G2) as [].
    assert (W3 : all_ready (fst (t_null hq X true t2))) by (unfold all_ready; rewrite ns_w; now apply tl_Forall).
    destruct (t_null hq X true t2) as [t3 code]. cbn [fst snd] in *.
    destruct (negb (code =? AQE_OK)); [cbn [fst snd]; auto|now apply second_going].
Qed.
(** a call without start on an empty, stopped queue is accepted or leaves the queue empty *)
Lemma s_add_first ext busy c s t : good A t -> conf24 A s -> cmd_ok c -> long_cmd A c -> all_ready t ->
  q_ignore (tqueue t) = false -> q_running (tqueue t) = false -> n_of t = 0 ->
  let r := s_add A hq X ext busy c false s t in
  snd r = AQE_OK \/ n_of (snd (fst r)) = 0.
Proof.
  intros Hg Hs Hc Hl Hw Hi Hr Hn. cbv zeta.
  assert (Hl' : MIN_CMD_TICKS A <= cdur c) by (rewrite <- rate_cdur by exact Hc; exact Hl).
  destruct (add_first_cases A EXT ext busy c false s t) as [(E & F & _)|[P F]].
  { right. unfold s_add. destruct (add_first hq X ext busy c false s t) as [t1 code]. cbn [fst snd] in *. subst t1.
    destruct (Z.eqb_spec code AQE_OK); [contradiction|]. cbn [negb fst snd]. exact Hn. }
  destruct F as [[_ F]|[He F]].
  { left. unfold s_add. rewrite F. change (negb (AQE_OK =? AQE_OK)) with false. cbv iota.
    apply second_code; auto. }
  cbv zeta in F. destruct F as [[_ F]|[(_ & _ & F)|(E1 & Hpos & F)]].
  - right. unfold s_add. rewrite F. change (negb (AQE_WAIT_FOR_ENABLE_PIN_ACTIVE =? AQE_OK)) with true.
    cbv iota. cbn [fst snd]. exact Hn.
  - left. unfold s_add. rewrite F. change (negb (AQE_OK =? AQE_OK)) with false. cbv iota.
    apply second_code; auto.
  - left. unfold enabling in He. apply andb_true_iff in He as [Ha Hz]. apply Z.eqb_eq in Hz.
    destruct (enable_delay_fits A EXT HA ext busy c false s t) as (ps & _ & _ & _ & _ & K & _); auto.
    apply pend_nil. exact Hn.
Qed.

(** ** The loop *)
Lemma s_add_ready ext busy c start s t : good A t -> cmd_ok c -> conf_ok s -> all_ready t ->
  all_ready (snd (fst (s_add A hq X ext busy c start s t))).
Proof.
  intros Hg Hc Hs Hw. unfold s_add.
  assert (SEC : forall t1, good A t1 -> all_ready t1 -> all_ready (snd (fst (add_second A hq X c start s t1)))).
  { intros t1 G1 W1. rewrite add_second_eq. destruct (no_room A c s t1); [exact W1|]. cbv zeta. cbn [fst snd].
    apply (adds_ok A EXT HA start _ t1 G1); [now apply pre_ok|exact W1]. }
  destruct (add_first_cases A EXT ext busy c start s t) as [(E & F & _)|[_ F]].
  { destruct (add_first hq X ext busy c start s t) as [t1 code]. cbn [fst snd] in *. subst t1.
    destruct (Z.eqb_spec code AQE_OK); [contradiction|]. cbn [negb fst snd]. exact Hw. }
  destruct F as [[_ F]|[_ F]].
  { rewrite F. change (negb (AQE_OK =? AQE_OK)) with false. cbv iota. now apply SEC. }
  cbv zeta in F. set (t1 := t_setpins hq X (fst (enableOutputs ext s (hq_p t))) t) in *.
  assert (G1 : good A t1) by exact Hg. assert (W1 : all_ready t1) by exact Hw.
  destruct F as [[_ F]|[(_ & _ & F)|(_ & Hpos & F)]]; rewrite F.
  - change (negb (AQE_WAIT_FOR_ENABLE_PIN_ACTIVE =? AQE_OK)) with true. cbv iota. exact W1.
  - change (negb (AQE_OK =? AQE_OK)) with false. cbv iota. now apply SEC.
  - destruct (pieces_range A EXT s c t Hs Hpos) as [_ HR]. cbv zeta in HR.
    set (ps := on_pieces _ _) in *.
    destruct (pauses_grow A EXT HA (c_up c) ps t1 G1 HR) as (G2 & _).
    pose proof (pauses_ready (c_up c) ps t1 G1 HR W1) as W2.
    set (t2 := add_pauses hq X (c_up c) ps t1) in *.
    pose proof (null_ok A EXT HA start t2 G2) as [].
    assert (W3 : all_ready (fst (t_null hq X start t2))) by (unfold all_ready; rewrite ns_w; now apply tl_Forall).
    destruct (t_null hq X start t2) as [t3 code]. cbn [fst snd] in *.
    destruct (negb (code =? AQE_OK)); [exact W3|now apply SEC].
Qed.

Lemma fill_loop_going ext busy delayed : forall fuel old prepared need s t k rest s' t' need',
  good A t -> q_ignore (tqueue t) = false -> conf24 A s ->
  plan A k (s_rg s) (pos_of t) (up_of t) rest -> Forall (fits A s (q_max (tqueue t))) rest ->
  (delayed = false -> fed s) -> (delayed = true -> q_running (tqueue t) = false) ->
  all_ready t -> need = true \/ going t ->
  (delayed = false -> going t) ->
  fill_loop A hq X ext busy delayed fuel old prepared need s t = Some (s', t', need') ->
  all_ready t' /\ (need' = true \/ going t').
Proof.
  induction fuel as [|fuel IH]; intros old prepared need s t k rest s' t' need' Hg Hi Hd Hp Hf Hstart Hrun Hw Hn Hgo;
    cbn [fill_loop]; change (t_q hq X t) with (tqueue t).
  { intros H. injection H as <- <- <-. auto. }
  destruct (fill_more A s (tqueue t) prepared) eqn:Em.
  2:{ intros H. injection H as <- <- <-. auto. }
  assert (Ha : isRampGeneratorActive (s_rg s) = true).
  { unfold fill_more in Em. apply andb_true_iff in Em. tauto. }
  rewrite (q_end_eta t). set (pin := qe_dir _).
  destruct (rg_getNextCommand A (mkQueueEnd (pos_of t) (up_of t) pin) old (s_rg s)) as [[g1 n]|] eqn:Eg; [|discriminate].
  cbv zeta.
  destruct (Z.eqb_spec (c_ticks (n_cmd n)) 0) as [E0|E0].
  { intros H. injection H as <- <- <-. split; [exact Hw|]. destruct delayed; [now left|right; auto]. }
  destruct (plan_again A _ _ _ _ _ _ _ _ _ (up_of t) Hp Ha Eg E0 (or_introl eq_refl)) as (k1 & cs & -> & -> & _ & _ & Hafter).
  inversion Hf as [|? ? Hfit Hf']; subst.
  set (c := n_cmd n) in *.
  assert (Hdel : delays_ok A s).
  { destruct Hd as (D1 & _ & D2 & _). split; assumption. }
  assert (D24 : conf24 A (st_rg g1 s)) by exact Hd.
  destruct (s_add_moved A EXT HA ext (busy fuel) c (negb delayed) (st_rg g1 s) t Hg Hi) as (Hcode & new & Hnew & Hcase).
  { exact Hdel. }
  { exact Hfit. }
  { intros K. apply Hstart. now destruct delayed. }
  assert (Hidle : delayed = true -> q_running (tqueue (snd (fst
     (s_add A hq X ext (busy fuel) c (negb delayed) (st_rg g1 s) t)))) = false).
  { intros ->. cbn [negb]. apply s_add_idle; auto; [apply Hfit|apply Hdel]. }
  assert (Hw1 := s_add_ready ext (busy fuel) c (negb delayed) (st_rg g1 s) t Hg (proj1 Hfit) (proj1 Hd) Hw).
  assert (Hrun1 : delayed = false -> going (snd (fst (s_add A hq X ext (busy fuel) c (negb delayed) (st_rg g1 s) t)))).
  { intros ->. cbn [negb]. apply s_add_going; auto; [apply Hfit|apply Hdel]. }
  assert (Hfirst : delayed = true -> going t -> 
     snd (s_add A hq X ext (busy fuel) c (negb delayed) (st_rg g1 s) t) = AQE_OK
     \/ n_of (snd (fst (s_add A hq X ext (busy fuel) c (negb delayed) (st_rg g1 s) t))) = 0).
  { intros -> [G|G]; cbn [negb]; [|rewrite (Hrun eq_refl) in G; discriminate].
    apply s_add_first; auto; apply Hfit. }
  destruct (s_add A hq X ext (busy fuel) c (negb delayed) (st_rg g1 s) t) as [[s1 t1] code].
  cbn [fst snd] in *.
  assert (Hsteps : Forall (fun x => c_steps x = 0) new) by (eapply Forall_impl; [|exact Hnew]; cbn; tauto).
  destruct Hcase as [(Eok & Es & M)|(Eok & Es & M)].
  - subst code. replace (AQE_OK =? AQE_OK) with true by reflexivity.
    assert (Ep : pos_of t1 = after_pos c (pos_of t)).
    { rewrite (mv_pos _ _ _ _ M). unfold end_pos. rewrite fold_left_app. cbn [fold_left].
      f_equal. apply (end_pos_pauses new _ Hsteps). now apply (pos_range A). }
    assert (Eu : up_of t1 = c_up c) by (rewrite (mv_up _ _ _ _ M), end_up_app; reflexivity).
    assert (Erg : s_rg s1 = g1).
    { subst s1. unfold after_add. destruct (_ && _); reflexivity. }
    rewrite Erg.
    set (s2 := st_rg (rg_afterCommandEnqueued n g1) s1).
    assert (C2 : conf24 A s2).
    { unfold s2. subst s1. unfold after_add. destruct (_ && _); exact Hd. }
    assert (F2 : Forall (fits A s2 (q_max (tqueue t1))) cs).
    { rewrite (sc_max _ _ (mv_same _ _ _ _ M)). eapply Forall_impl; [|exact Hf'].
      intros a. unfold fits, s2. subst s1. unfold after_add. destruct (_ && _); auto. }
    intros H. apply (IH n (u32 (prepared + cmd_ticks c)) delayed s2 t1 k1 cs s' t' need'); auto.
    + apply M.
    + rewrite (sc_ign _ _ (mv_same _ _ _ _ M)). exact Hi.
    + rewrite Ep, Eu. exact Hafter.
    + intros K. specialize (Hstart K). unfold s2. subst s1. apply fed_after. now left.
    + destruct delayed; [now left|right; auto].
  - destruct (Z.eqb_spec code AQE_OK); [contradiction|].
    destruct (Z.gtb_spec code 0) as [Hpos|Hpos].
    2:{ exfalso. apply Eok. unfold AQE_OK. lia. }
    intros H. injection H as <- <- <-. split; [exact Hw1|].
    destruct delayed; [|right; auto].
    destruct Hn as [Hn|Hn]; [now left|]. right. left.
    destruct (Hfirst eq_refl Hn) as [K|K]; [contradiction|exact K].
Qed.

(** ** A pass, a history *)
Lemma fill_going ext busy fuel old m k rest s t y : tinv A m k rest (s, t) -> conf24 A s -> all_ready t -> going t ->
  fill_queue A hq X ext busy fuel old s t = Some y -> going (snd y).
Proof.
  intros (Hg & Hd & Hm & Hp & Hf & Hc) H24 Hw Hgo. cbn [fst snd] in *. unfold fill_queue.
  destruct (isRampGeneratorActive (s_rg s)) eqn:Ea; cbn [negb]; [|intros H; injection H as <-; exact Hgo].
  destruct (negb _); [intros H; injection H as <-; exact Hgo|].
  cbv zeta. specialize (Hc eq_refl).
  set (t0 := t_ignore hq X false t).
  pose proof (ignore_good A EXT HA false t Hg) as Hg0. fold t0 in Hg0.
  change (t_q hq X t0) with (tqueue t0).
  assert (Er : q_running (tqueue t0) = q_running (tqueue t)) by reflexivity.
  set (delayed := negb (q_running (tqueue t0))).
  assert (HR : delayed = true -> q_running (tqueue t0) = false).
  { unfold delayed. intros K. now apply negb_true_iff in K. }
  assert (HS : delayed = false -> fed s).
  { unfold delayed. intros K. apply negb_false_iff in K. destruct Hc as [Hc|(_ & C & _)]; [exact Hc|]. congruence. }
  assert (HF : Forall (fits A s (q_max (tqueue t0))) rest).
  { replace (q_max (tqueue t0)) with m by (symmetry; exact Hm). exact Hf. }
  assert (HC : fed s \/ calm A s t0) by exact Hc.
  destruct (fill_loop_ok A EXT HA ext busy delayed fuel old (ticksInQueue A (tqueue t0)) false s t0 k rest) as
    (s1 & t1 & need & k' & done & rest' & w & R1 & _ & _ & R4 & _); auto.
  { discriminate. }
  rewrite R1. intros H. injection H as <-. cbn [snd].
  destruct (fill_loop_going ext busy delayed fuel old (ticksInQueue A (tqueue t0)) false s t0 k rest s1 t1 need) as [W1 N1]; auto.
  destruct need; [apply null_going; [apply R4|exact W1]|].
  destruct N1 as [N1|N1]; [discriminate|exact N1].
Qed.
Definition ready_task (e : task) : Prop := match e with TFill _ _ _ _ ws => Forall ready ws | _ => True end.
Lemma trun_going m : forall l k rest x y, tinv A m k rest x -> conf24 A (fst x) -> going (snd x) ->
  Forall ready_task l -> trun A EXT l x = Some y -> going (snd y).
Proof.
  induction l as [|e l IH]; intros k rest x y HI Hc Hgo Hl; cbn [trun].
  { intros H. injection H as <-. exact Hgo. }
  inversion Hl as [|? ? H1 H2]; subst.
  destruct (tstep_ok A EXT HA e m k rest x HI) as (z & k' & d & r & w & E & N). rewrite E.
  apply (IH k' r z y); auto.
  - apply N.
  - destruct (tn_like _ _ _ _ _ _ _ _ _ _ N). unfold conf24, conf_ok in *. rewrite lk_dirdelay, lk_ondelay, lk_off. exact Hc.
  - destruct x as [s t]. cbn [fst snd] in *. destruct e as [ext busy fuel old ws|evs|ext]; cbn [tstep] in E.
    + apply (fill_going ext busy fuel old m k rest s (set_w ws t) z HI Hc H1 Hgo E).
    + injection E as <-. cbn [snd]. unfold going, tqueue. cbn [set_h hq_h]. apply isr_goes; [apply HI|exact Hgo].
    + injection E as <-. exact Hgo.
Qed.

(** ** A queue which is never started *)
(** the ramp is active, the queue is not running and holds more than the planning time *)
Definition stuck (x : stepper * hq) : Prop :=
  isRampGeneratorActive (s_rg (fst x)) = true /\ q_running (fqueue x) = false /\ 0 < queueEntries (fqueue x)
  /\ fill_more A (fst x) (fqueue x) (ticksInQueue A (fqueue x)) = false.
Lemma ticks_ignore b q : ticksInQueue A (set_ignore b q) = ticksInQueue A q.
Proof.
  assert (E : forall n rp k, ticks_loop A (set_ignore b q) n rp k = ticks_loop A q n rp k).
  { induction n as [|n IH]; intros rp k; cbn [ticks_loop]; [reflexivity|]. apply IH. }
  unfold ticksInQueue. rewrite E. reflexivity.
Qed.
Lemma stuck_step e x : stuck x -> exists y, tstep A EXT e x = Some y /\ stuck y
  /\ accepted_cmds y = accepted_cmds x /\ h_left (hq_h (snd y)) = h_left (hq_h (snd x)).
Proof.
  destruct x as [s t]. intros HS. pose proof HS as (H1 & H2 & H3 & H4). cbn [fst snd] in *.
  destruct e as [ext busy fuel old ws|evs|ext]; cbn [tstep].
  - unfold fill_queue. rewrite H1. cbn [negb].
    destruct (negb _); [eexists; split; [reflexivity|]; auto|].
    cbv zeta. set (t0 := t_ignore hq X false (set_w ws t)).
    assert (E : fill_more A s (t_q hq X t0) (ticksInQueue A (t_q hq X t0)) = false).
    { change (t_q hq X t0) with (set_ignore false (fqueue (s, t))). rewrite ticks_ignore. exact H4. }
    assert (HS0 : stuck (s, t0)).
    { unfold stuck. splits; assumption. }
    exists (s, t0).
    assert (ES : fill_loop A hq X ext busy (negb (q_running (t_q hq X t0))) fuel old (ticksInQueue A (t_q hq X t0)) false s t0 = Some (s, t0, false)).
    { destruct fuel; cbn [fill_loop]; [reflexivity|]. rewrite E. reflexivity. }
    rewrite ES. split; [reflexivity|]. split; [exact HS0|]. split; reflexivity.
  - eexists. split; [reflexivity|]. unfold stuck, accepted_cmds, fqueue in *. cbn [fst snd set_h hq_h] in *.
    rewrite (isr_idle A EXT evs (hq_h t) H2). auto.
  - set (r := tick ext s (h_q (hq_h t)) (hq_p t)).
    assert (ER : fst r = s) by (now apply tick_active).
    exists (s, t_setpins hq X (snd r) t). split; [rewrite ER; reflexivity|]. split; [exact HS|]. split; reflexivity.
Qed.
Lemma stuck_run : forall l x, stuck x -> exists y, trun A EXT l x = Some y /\ stuck y
  /\ accepted_cmds y = accepted_cmds x /\ h_left (hq_h (snd y)) = h_left (hq_h (snd x)).
Proof.
  induction l as [|e l IH]; intros x H; cbn [trun]; [exists x; auto|].
  destruct (stuck_step e x H) as (y & -> & H1 & H2 & H3).
  destruct (IH y H1) as (z & E & K1 & K2 & K3). exists z. rewrite E, K2, K3. auto.
Qed.
End WithArch.

(** * StackSim: passes of the background task on two queues

    AccessSim.v goes on to [fill_queue] and the other parts of the task: a queue whose calls
    follow those of the queue history follows it in every pass. *)
From Coq Require Import ZArith Bool List Lia ZifyBool.
From Verif Require Import Base RampCalc RampGen Queue QueueFacts QueuePos QueueHist Stepper StepperHist FrontHist FrontProp FrontFill FrontTask AccessSim.
Import ListNotations.
Open Scope Z_scope.
Ltac Zify.zify_post_hook ::= idtac.
Local Ltac splits := repeat match goal with |- _ /\ _ => split end.

Section WithArch.
Variable A : arch.
Variable EXT : bool.
Notation X := (hacc A EXT).
Lemma next_cmd_ok qe old g g' nc : rg_getNextCommand A qe old g = Some (g', nc) ->
  c_ticks (n_cmd nc) <> 0 -> cmd_ok (n_cmd nc).
Proof.
  assert (U : forall a b up, cmd_ok (mkCommand (u16 a) (u8 b) up)).
  { intros a b up. split; cbn [c_ticks c_steps]; [apply Z.mod_pos_bound|apply Z.mod_pos_bound]; lia. }
  unfold rg_getNextCommand. cbv zeta. destruct (ro_force_immediate _).
  { intros E. injection E as _ <-. cbn. congruence. }
  intros H Hn.
  match type of H with context [getNextCommand_ A ?a ?b ?c ?d] => destruct (getNextCommand_ A a b c d) as [n|] eqn:E end; [|discriminate].
  injection H as _ <-. revert E Hn. unfold getNextCommand_. cbv zeta.
  unfold gnc_pause. destruct (_ >? 0).
  { intros E _. injection E as <-. apply (U _ 0). }
  destruct (gnc_delta _ _) as [[need_up R]|]; [|discriminate].
  destruct ((R =? 0) && _); [intros E; injection E as <-; cbn; congruence|].
  destruct (gnc_planning _ _) as [orig|]; [|discriminate].
  destruct (gnc_choose _ _ _ _ _ _) as [[s1 R1] pl1].
  destruct (R1 =? 0); [intros E; injection E as <-; cbn; congruence|].
  destruct (gnc_new_ticks _ _ _ _ _ _ _ _) as [d1 pl2].
  destruct (gnc_min_cmd _ _ _ _ _ _) as [[[s2 d2] pl3]|]; [|discriminate].
  destruct (gnc_split _ _ _) as [[st nx] pz].
  destruct (gnc_prus _ _ _ _ _ _) as [P' nx'].
  intros E _. injection E as <-. apply U.
Qed.

Variable T : Type.
Variable Y : access T.
(** [R] within a pass of the task, [RI] before it, [R0] after it *)
Variables R RI R0 : T -> hq -> Prop.
Variable ok : T -> Prop.
(** whether commands may be added with start *)
Variable may_start : Prop.
(** the circumstances of the calls to the queue history *)
Variable Wok : weather -> Prop.
Hypothesis R_fields : forall t th, R t th -> seen (t_q T Y t) (tqueue th) /\ good A th /\ t_pins T Y t = hq_p th.
Hypothesis R_ticks : forall t th, R t th -> ticksInQueue A (t_q T Y t) = ticksInQueue A (tqueue th).
Hypothesis R_pins : forall p t th, R t th -> R (t_setpins T Y p t) (t_setpins hq X p th).
Hypothesis RI_R0 : forall t th, RI t th -> R0 t th.
Hypothesis R_R0 : forall t th, R t th -> R0 t th.
Hypothesis R_ignore : forall t th, RI t th -> R (t_ignore T Y false t) (t_ignore hq X false th).
Hypothesis R_w : forall ws t th, R0 t th -> R0 t (set_w ws th).
Hypothesis sim_add : forall c start t th, R t th -> cmd_ok c -> (start = true -> may_start) -> ok (fst (t_add T Y c start t)) ->
  exists ws th', R (fst (t_add T Y c start t)) th' /\ Forall Wok ws /\
    forall ws2, h_add A EXT c start (set_w (ws ++ ws2) th) = (set_w ws2 th', snd (t_add T Y c start t)).
Hypothesis sim_null : forall start t th, R t th -> (start = true -> may_start) -> ok (fst (t_null T Y start t)) ->
  exists ws th', R (fst (t_null T Y start t)) th' /\ Forall Wok ws /\
    forall ws2, h_null A EXT start (set_w (ws ++ ws2) th) = (set_w ws2 th', snd (t_null T Y start t)).
Hypothesis sim_end : forall t th, R t th -> ok (fst (t_null T Y true t)) ->
  exists ws th', R0 (fst (t_null T Y true t)) th' /\ Forall Wok ws /\
    forall ws2, h_null A EXT true (set_w (ws ++ ws2) th) = (set_w ws2 th', snd (t_null T Y true t)).
Hypothesis ok_add : forall c start t, ok (fst (t_add T Y c start t)) -> ok t.
Hypothesis ok_null : forall start t, ok (fst (t_null T Y start t)) -> ok t.
Hypothesis ok_pins : forall p t, ok (t_setpins T Y p t) -> ok t.
Hypothesis ok_ignore : forall b t, ok (t_ignore T Y b t) -> ok t.

Lemma ok_sadd ext busy c start s t : ok (snd (fst (s_add A T Y ext busy c start s t))) -> ok t.
Proof. exact (AccessSim.ok_sadd A T Y ok ok_add ok_null ok_pins ext busy c start s t). Qed.
Lemma sim_sadd ext busy c start s t th : R t th -> conf_ok s -> cmd_ok c -> (start = true -> may_start) ->
  let r := s_add A T Y ext busy c start s t in
  ok (snd (fst r)) ->
  exists ws th', R (snd (fst r)) th' /\ Forall Wok ws /\
    forall ws2, s_add A hq X ext busy c start s (set_w (ws ++ ws2) th) = (fst (fst r), set_w ws2 th', snd r).
Proof.
  intros HR Hs Hc Hst. cbv zeta. intros Hok.
  edestruct (AccessSim.sim_sadd A EXT T Y R ok cmd_ok may_start Wok R_fields R_pins) with (ext := ext) (busy := busy)
    (c := c) (start := start) (s := s) (tv := t) (th := th) as (ws & th' & H1 & H2 & H3); eauto.
  - split; [|split].
    + intros th0 H. destruct (pieces_range A EXT s c th0 Hs H) as [_ HP]. cbv zeta in *.
      eapply Forall_impl; [|exact HP]. cbn. intros d Hd. split; cbn; lia.
    + intros _. destruct Hs as [Hs _]. split; cbn; lia.
    + intros _. apply ext_pause_ok.
Qed.
Lemma sadd_conf ext busy c start s t : conf_ok s -> conf_ok (fst (fst (s_add A T Y ext busy c start s t))).
Proof.
  intros H. unfold s_add, add_second, add_last. cbv zeta.
  repeat (match goal with |- context [if ?b then _ else _] => destruct b end; cbn [fst snd]); exact H.
Qed.
Lemma ok_loop ext busy delayed : forall fuel old prepared need s t s' t' need',
  fill_loop A T Y ext busy delayed fuel old prepared need s t = Some (s', t', need') -> ok t' -> ok t.
Proof.
  induction fuel as [|n IH]; intros old prepared need s t s' t' need'; cbn [fill_loop].
  { intros E. injection E as <- <- <-. auto. }
  destruct (fill_more _ _ _ _); [|intros E; injection E as <- <- <-; auto].
  destruct (rg_getNextCommand _ _ _ _) as [[g nc]|]; [|discriminate]. cbv zeta.
  destruct (c_ticks (n_cmd nc) =? 0); [intros E; injection E as <- <- <-; auto|].
  destruct (s_add A T Y ext (busy n) (n_cmd nc) (negb delayed) (st_rg g s) t) as [[s1 t1] code] eqn:Es.
  pose proof (ok_sadd ext (busy n) (n_cmd nc) (negb delayed) (st_rg g s) t) as Hs. rewrite Es in Hs. cbn [fst snd] in Hs.
  destruct (code =? AQE_OK).
  { intros E Hok. apply Hs. eapply IH; eassumption. }
  destruct (code >? 0); intros E; injection E as <- <- <-; auto.
Qed.
Lemma sim_loop ext busy delayed : forall fuel old prepared need s t th s' t' need', R t th -> conf_ok s -> (negb delayed = true -> may_start) ->
  fill_loop A T Y ext busy delayed fuel old prepared need s t = Some (s', t', need') -> ok t' ->
  exists ws th', R t' th' /\ conf_ok s' /\ Forall Wok ws /\
    forall ws2, fill_loop A hq X ext busy delayed fuel old prepared need s (set_w (ws ++ ws2) th) = Some (s', set_w ws2 th', need').
Proof.
  induction fuel as [|n IH]; intros old prepared need s t th s' t' need' HR Hs Hst; cbn [fill_loop].
  { intros E _. injection E as <- <- <-. exists [], th. splits; auto. }
  destruct (R_fields _ _ HR) as ((F & Eq) & Hg & Ep). rewrite Eq.
  change (fill_more A s (set_ent F (tqueue th)) prepared) with (fill_more A s (tqueue th) prepared).
  change (q_end (set_ent F (tqueue th))) with (q_end (tqueue th)).
  destruct (fill_more A s (tqueue th) prepared) eqn:C1.
  2:{ intros E _. injection E as <- <- <-. exists [], th. splits; auto. intros ws2.
      change (t_q hq X (set_w ([] ++ ws2) th)) with (tqueue th). rewrite C1. reflexivity. }
  destruct (rg_getNextCommand A (q_end (tqueue th)) old (s_rg s)) as [[g nc]|] eqn:Eg; [|discriminate]. cbv zeta.
  destruct (c_ticks (n_cmd nc) =? 0) eqn:C2.
  { intros E _. injection E as <- <- <-. exists [], th. splits; auto. intros ws2.
    change (t_q hq X (set_w ([] ++ ws2) th)) with (tqueue th). rewrite C1, Eg. cbv zeta. rewrite C2. reflexivity. }
  assert (Hc : cmd_ok (n_cmd nc)) by (apply (next_cmd_ok _ _ _ _ _ Eg); apply Z.eqb_neq; exact C2).
  assert (Hs1 : conf_ok (st_rg g s)) by exact Hs.
  pose proof (sim_sadd ext (busy n) (n_cmd nc) (negb delayed) (st_rg g s) t th HR Hs1 Hc Hst) as SIM. cbv zeta in SIM.
  pose proof (sadd_conf ext (busy n) (n_cmd nc) (negb delayed) (st_rg g s) t Hs1) as CF.
  destruct (s_add A T Y ext (busy n) (n_cmd nc) (negb delayed) (st_rg g s) t) as [[s1 t1] code] eqn:Es.
  cbn [fst snd] in SIM, CF.
  destruct (code =? AQE_OK) eqn:C3.
  - intros E Hok. destruct (SIM (ok_loop _ _ _ _ _ _ _ _ _ _ _ _ E Hok)) as (w1 & th1 & R1 & D1 & E1).
    destruct (IH _ _ _ _ _ th1 _ _ _ R1 (CF : conf_ok (st_rg _ s1)) Hst E Hok) as (w2 & th2 & R2 & F2 & D2 & E2).
    exists (w1 ++ w2), th2. splits; [exact R2|exact F2|now apply Forall_app|]. intros ws2. rewrite <- app_assoc.
    match goal with |- context [set_w ?w th] => change (t_q hq X (set_w w th)) with (tqueue th) end.
    rewrite C1, Eg. cbv zeta. rewrite C2, E1, C3. apply E2.
  - destruct (code >? 0) eqn:C4; intros E Hok; injection E as <- <- <-;
      destruct (SIM Hok) as (w1 & th1 & R1 & D1 & E1); exists w1, th1; splits; auto; intros ws2;
      match goal with |- context [set_w ?w th] => change (t_q hq X (set_w w th)) with (tqueue th) end;
      rewrite C1, Eg; cbv zeta; rewrite C2, E1, C3, C4; reflexivity.
Qed.
Lemma ok_fill ext busy fuel old s t s' t' : fill_queue A T Y ext busy fuel old s t = Some (s', t') -> ok t' -> ok t.
Proof.
  unfold fill_queue. destruct (negb _); [intros E; injection E as <- <-; auto|].
  destruct (negb _); [intros E; injection E as <- <-; auto|]. cbv zeta.
  destruct (fill_loop _ _ _ _ _ _ _ _ _ _ _ _) as [[[s1 t1] need]|] eqn:El; [|discriminate].
  intros E Hok. injection E as <- <-.
  assert (O1 : ok t1) by (destruct need; [apply (ok_null true); exact Hok|exact Hok]).
  apply (ok_ignore false). exact (ok_loop _ _ _ _ _ _ _ _ _ _ _ _ El O1).
Qed.
Lemma sim_fill ext busy fuel old s t th s' t' : RI t th -> conf_ok s -> (q_running (t_q T Y (t_ignore T Y false t)) = true -> may_start) ->
  fill_queue A T Y ext busy fuel old s t = Some (s', t') -> ok t' ->
  exists ws th', R0 t' th' /\ conf_ok s' /\ Forall Wok ws /\
    fill_queue A hq X ext busy fuel old s (set_w ws th) = Some (s', th').
Proof.
  intros HR Hs Hst. unfold fill_queue.
  destruct (negb (isRampGeneratorActive (s_rg s))); [intros E _; injection E as <- <-; exists [], (set_w [] th); auto|].
  destruct (negb (checkValidConfig (rg_params (s_rg s)) =? MOVE_OK)); [intros E _; injection E as <- <-; exists [], (set_w [] th); auto|].
  cbv zeta.
  set (t1 := t_ignore T Y false t) in *. set (th1 := t_ignore hq X false th).
  assert (HR1 : R t1 th1) by exact (R_ignore _ _ HR).
  rewrite (R_ticks _ _ HR1).
  destruct (R_fields _ _ HR1) as ((F & Eq) & _ & _). rewrite Eq in *.
  change (q_running (set_ent F (tqueue th1))) with (q_running (tqueue th1)) in *.
  destruct (fill_loop A T Y ext busy (negb (q_running (tqueue th1))) fuel old (ticksInQueue A (tqueue th1)) false s t1)
    as [[[s1 t2] need]|] eqn:El; [|discriminate].
  intros E Hok. injection E as <- <-.
  assert (O1 : ok t2) by (destruct need; [apply (ok_null true); exact Hok|exact Hok]).
  assert (Hst2 : negb (negb (q_running (tqueue th1))) = true -> may_start) by (rewrite negb_involutive; exact Hst).
  destruct (sim_loop _ _ _ _ _ _ _ _ _ th1 _ _ _ HR1 Hs Hst2 El O1) as (w1 & th2 & R2 & F2 & D2 & E2).
  destruct need.
  - destruct (sim_end t2 th2 R2 Hok) as (w2 & th3 & R3 & D3 & E3).
    exists (w1 ++ w2 ++ []), (set_w [] th3). splits; [apply R_w; exact R3|exact F2|rewrite app_nil_r; now apply Forall_app|].
    change (t_ignore hq X false (set_w (w1 ++ w2 ++ []) th)) with (set_w (w1 ++ w2 ++ []) th1).
    change (t_q hq X (set_w (w1 ++ w2 ++ []) th1)) with (tqueue th1).
    rewrite E2. change (t_null hq X) with (h_null A EXT). rewrite E3. reflexivity.
  - exists (w1 ++ []), (set_w [] th2). splits; [apply R_w, R_R0; exact R2|exact F2|now rewrite app_nil_r|].
    change (t_ignore hq X false (set_w (w1 ++ []) th)) with (set_w (w1 ++ []) th1).
    change (t_q hq X (set_w (w1 ++ []) th1)) with (tqueue th1).
    rewrite E2. reflexivity.
Qed.
(** Undefined behaviour on the one queue is undefined behaviour on the other. *)
Lemma loop_none ext busy delayed : (forall t, ok t) -> forall fuel old prepared need s t th, R t th -> conf_ok s ->
  (negb delayed = true -> may_start) -> fill_loop A T Y ext busy delayed fuel old prepared need s t = None ->
  exists ws, fill_loop A hq X ext busy delayed fuel old prepared need s (set_w ws th) = None.
Proof.
  intros OK. induction fuel as [|n IH]; intros old prepared need s t th HR Hs Hst; cbn [fill_loop]; [discriminate|].
  destruct (R_fields _ _ HR) as ((F & Eq) & Hg & Ep). rewrite Eq.
  change (fill_more A s (set_ent F (tqueue th)) prepared) with (fill_more A s (tqueue th) prepared).
  change (q_end (set_ent F (tqueue th))) with (q_end (tqueue th)).
  destruct (fill_more A s (tqueue th) prepared) eqn:C1; [|discriminate].
  destruct (rg_getNextCommand A (q_end (tqueue th)) old (s_rg s)) as [[g nc]|] eqn:Eg.
  2:{ intros _. exists []. change (t_q hq X (set_w [] th)) with (tqueue th). rewrite C1, Eg. reflexivity. }
  cbv zeta. destruct (c_ticks (n_cmd nc) =? 0) eqn:C2; [discriminate|].
  assert (Hc : cmd_ok (n_cmd nc)) by (apply (next_cmd_ok _ _ _ _ _ Eg); apply Z.eqb_neq; exact C2).
  assert (Hs1 : conf_ok (st_rg g s)) by exact Hs.
  pose proof (sim_sadd ext (busy n) (n_cmd nc) (negb delayed) (st_rg g s) t th HR Hs1 Hc Hst (OK _)) as SIM.
  pose proof (sadd_conf ext (busy n) (n_cmd nc) (negb delayed) (st_rg g s) t Hs1) as CF.
  destruct (s_add A T Y ext (busy n) (n_cmd nc) (negb delayed) (st_rg g s) t) as [[s1 t1] code] eqn:Es.
  cbn [fst snd] in SIM, CF.
  destruct (code =? AQE_OK) eqn:C3; [|destruct (code >? 0); discriminate].
  intros E. destruct SIM as (w1 & th1 & R1 & D1 & E1).
  destruct (IH _ _ _ _ _ th1 R1 (CF : conf_ok (st_rg _ s1)) Hst E) as (w2 & E2).
  exists (w1 ++ w2). change (t_q hq X (set_w (w1 ++ w2) th)) with (tqueue th).
  rewrite C1, Eg. cbv zeta. rewrite C2, E1, C3. exact E2.
Qed.
Lemma fill_none ext busy fuel old s t th : (forall t, ok t) -> RI t th -> conf_ok s ->
  (q_running (t_q T Y (t_ignore T Y false t)) = true -> may_start) ->
  fill_queue A T Y ext busy fuel old s t = None ->
  exists ws, fill_queue A hq X ext busy fuel old s (set_w ws th) = None.
Proof.
  intros OK HR Hs Hst. unfold fill_queue.
  destruct (negb (isRampGeneratorActive (s_rg s))); [discriminate|].
  destruct (negb (checkValidConfig (rg_params (s_rg s)) =? MOVE_OK)); [discriminate|].
  cbv zeta.
  set (t1 := t_ignore T Y false t) in *. set (th1 := t_ignore hq X false th).
  assert (HR1 : R t1 th1) by exact (R_ignore _ _ HR).
  rewrite (R_ticks _ _ HR1).
  destruct (R_fields _ _ HR1) as ((F & Eq) & _ & _). rewrite Eq in *.
  change (q_running (set_ent F (tqueue th1))) with (q_running (tqueue th1)) in *.
  destruct (fill_loop A T Y ext busy (negb (q_running (tqueue th1))) fuel old (ticksInQueue A (tqueue th1)) false s t1)
    as [[[s1 t2] need]|] eqn:El; [discriminate|]. intros _.
  assert (Hst2 : negb (negb (q_running (tqueue th1))) = true -> may_start) by (rewrite negb_involutive; exact Hst).
  destruct (loop_none _ _ _ OK _ _ _ _ _ _ th1 HR1 Hs Hst2 El) as (ws & E).
  exists ws. change (t_ignore hq X false (set_w ws th)) with (set_w ws th1).
  change (t_q hq X (set_w ws th1)) with (tqueue th1). rewrite E. reflexivity.
Qed.
Lemma sim_tick ext s t th : R t th -> conf_ok s ->
  let r := tick ext s (t_q T Y t) (t_pins T Y t) in
  exists th', tstep A EXT (TTick ext) (s, th) = Some (fst r, th') /\ R (t_setpins T Y (snd r) t) th' /\ conf_ok (fst r).
Proof.
  intros HR Hs. cbv zeta. destruct (R_fields _ _ HR) as ((F & Eq) & _ & Ep). rewrite Eq, Ep.
  change (tick ext s (set_ent F (tqueue th)) (hq_p th)) with (tick ext s (tqueue th) (hq_p th)).
  exists (t_setpins hq X (snd (tick ext s (tqueue th) (hq_p th))) th). splits; [reflexivity|apply R_pins; exact HR|].
  destruct (tick_conf ext s (tqueue th) (hq_p th)) as [D|[n D]]; cbv zeta in D; rewrite D; exact Hs.
Qed.
End WithArch.

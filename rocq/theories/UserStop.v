(** * UserStop: forceStop(), between the passes of the task or in the middle of one *)
From Coq Require Import ZArith Bool List Lia ZifyBool.
From Verif Require Import Base RampCalc RampGen RampRun RampMisc Queue QueueHist QueueProp Stepper StepperHist FrontHist FrontTask FrontStart UserFront.
Import ListNotations.
Open Scope Z_scope.
Ltac Zify.zify_post_hook ::= idtac.

Section WithArch.
Variable A : arch.
Variable EXT : bool.
Notation X := (hacc A EXT).
Notation step := (hstep A EXT).

(** ** The call *)
(** between the passes; the effect on the queue as event of its history *)
Definition force_stop (x : stepper * hq) : stepper * hq :=
  (fst (s_forceStop (fst x) (fqueue x)), t_ignore hq X true (snd x)).
Lemma force_stop_is x : fst (force_stop x) = fst (s_forceStop (fst x) (fqueue x))
  /\ fqueue (force_stop x) = snd (s_forceStop (fst x) (fqueue x)).
Proof. split; reflexivity. Qed.

(** The loop of fill_queue (src/FastAccelStepper.cpp:388-444) with forceStop() called by an
    interrupt in iteration [n] (counted down), if [fs n], after the next command has been
    calculated. The last component is the queue at the moment of the (last) call. *)
Fixpoint fill_loop_f (fs : nat -> bool) (ext : extcall) (busy : nat -> bool) (delayed : bool) (fuel : nat)
  (old : next_command) (prepared : Z) (need : bool) (hit : option hq) (s : stepper) (t : hq)
  : option (stepper * hq * bool * option hq) :=
  match fuel with
  | O => Some (s, t, need, hit)
  | S n =>
    if fill_more A s (t_q hq X t) prepared then
      match rg_getNextCommand A (q_end (t_q hq X t)) old (s_rg s) with
      | None => None
      | Some (g, nc) =>
        let '(s, t) := if fs n then force_stop (st_rg g s, t) else (st_rg g s, t) in
        let hit := if fs n then Some t else hit in
        let c := n_cmd nc in
        if c_ticks c =? 0 then
          Some (st_rg (rg_afterCommandEnqueued nc (s_rg s)) s, t, delayed, hit)
        else
          let '(s, t, code) := s_add A hq X ext (busy n) c (negb delayed) s t in
          if code =? AQE_OK then
            fill_loop_f fs ext busy delayed n nc (u32 (prepared + cmd_ticks c)) delayed hit
              (st_rg (rg_afterCommandEnqueued nc (s_rg s)) s) t
          else if code >? 0 then Some (s, t, need, hit)
          else Some (st_rg (rg_stopRamp (s_rg s)) s, t, need, hit)
      end
    else Some (s, t, need, hit)
  end.
Definition fill_queue_f (fs : nat -> bool) (ext : extcall) (busy : nat -> bool) (fuel : nat) (old : next_command)
  (x : stepper * hq) : option (stepper * hq * option hq) :=
  let '(s, t) := x in
  if negb (isRampGeneratorActive (s_rg s)) then Some (s, t, None)
  else if negb (checkValidConfig (rg_params (s_rg s)) =? MOVE_OK) then Some (s, t, None)
  else
    let t := t_ignore hq X false t in
    match fill_loop_f fs ext busy (negb (q_running (t_q hq X t))) fuel old (ticksInQueue A (t_q hq X t)) false None s t with
    | None => None
    | Some (s, t, need, hit) => Some (s, (if need then fst (t_null hq X true t) else t), hit)
    end.

(** without a call it is fill_queue *)
Lemma fill_loop_f_none ext busy delayed : forall fuel old prepared need hit s t,
  fill_loop_f (fun _ => false) ext busy delayed fuel old prepared need hit s t
  = match fill_loop A hq X ext busy delayed fuel old prepared need s t with
    | None => None | Some (s', t', need') => Some (s', t', need', hit) end.
Proof.
  induction fuel as [|n IH]; intros; cbn [fill_loop_f fill_loop]; [reflexivity|].
  destruct (fill_more A s (t_q hq X t) prepared); [|reflexivity].
  destruct (rg_getNextCommand A (q_end (t_q hq X t)) old (s_rg s)) as [[g nc]|]; [|reflexivity].
  destruct (c_ticks (n_cmd nc) =? 0); [reflexivity|].
  destruct (s_add A hq X ext (busy n) (n_cmd nc) (negb delayed) (st_rg g s) t) as [[s1 t1] code].
  destruct (code =? AQE_OK); [apply IH|]. destruct (code >? 0); reflexivity.
Qed.
Lemma fill_queue_f_none ext busy fuel old s t :
  fill_queue_f (fun _ => false) ext busy fuel old (s, t)
  = match fill_queue A hq X ext busy fuel old s t with None => None | Some (s', t') => Some (s', t', None) end.
Proof.
  unfold fill_queue_f, fill_queue.
  destruct (negb (isRampGeneratorActive (s_rg s))); [reflexivity|].
  destruct (negb (checkValidConfig (rg_params (s_rg s)) =? MOVE_OK)); [reflexivity|].
  cbv zeta. rewrite fill_loop_f_none.
  destruct (fill_loop A hq X ext busy _ fuel old _ false s _) as [[[s1 t1] need]|]; reflexivity.
Qed.

(** ** Nothing is added while commands are ignored *)
Record quiet (h h' : hst) : Prop := mkQuiet {
  qu_acc : h_acc h' = h_acc h;
  qu_ign : q_ignore (h_q h') = q_ignore (h_q h);
  qu_pos : qe_pos (q_end (h_q h')) = qe_pos (q_end (h_q h));
  qu_up : qe_up (q_end (h_q h')) = qe_up (q_end (h_q h))
}.
Lemma quiet_refl h : quiet h h. Proof. constructor; reflexivity. Qed.
Lemma quiet_trans a b c : quiet a b -> quiet b c -> quiet a c.
Proof. intros [] []. constructor; congruence. Qed.
Lemma start_quiet h : quiet h (start_head A h).
Proof. unfold start_head. destruct (nonempty (h_q h) && negb (h_started h)); constructor; reflexivity. Qed.
Lemma run_quiet h b : quiet h (start_head A (with_pc b (with_q (set_running true (h_q h)) h))).
Proof. eapply quiet_trans; [|apply start_quiet]. constructor; reflexivity. Qed.
Lemma isr_quiet ev h : isr_ev ev = true -> quiet h (step ev h).
Proof.
  destruct ev; cbn [isr_ev]; intros E; try discriminate; cbn [hstep].
  - destruct (_ && _); [|apply quiet_refl]. constructor; reflexivity.
  - destruct (_ && _); [|apply quiet_refl]. eapply quiet_trans; [|apply start_quiet]. constructor; reflexivity.
  - destruct (_ && _); [apply start_quiet|apply quiet_refl].
  - destruct (_ && _); [|apply quiet_refl]. constructor; reflexivity.
Qed.
Lemma isrs_quiet : forall l h, quiet h (isr A EXT l h).
Proof.
  unfold isr. induction l as [|e l IH]; intros h; cbn [filter]; [apply quiet_refl|].
  destruct (isr_ev e) eqn:E; [|apply IH]. cbn [hrun].
  eapply quiet_trans; [apply isr_quiet, E|apply IH].
Qed.
Lemma begin_quiet c b r h : quiet h (step (EBegin c b r) h).
Proof.
  cbn [hstep]. destruct (h_pc h); try apply quiet_refl.
  destruct (add_check A r c (h_q h) =? AQE_OK); [|constructor; reflexivity].
  unfold add_prepare. destruct (direct_dir (h_q h)); constructor; reflexivity.
Qed.
Lemma commit_quiet r h : q_ignore (h_q h) = true -> quiet h (step (ECommit r) h).
Proof.
  intros H. cbn [hstep]. destruct (h_pc h); try apply quiet_refl.
  unfold add_commit. rewrite H. constructor; cbn; rewrite ?H; reflexivity.
Qed.
Lemma startq_quiet h : quiet h (step EStartQ h).
Proof.
  cbn [hstep]. destruct (h_pc h); try apply quiet_refl.
  destruct (add_starts start (h_q h)); [apply run_quiet|constructor; reflexivity].
Qed.
Lemma null_quiet b r h : quiet h (step (EAddNull b r) h).
Proof.
  cbn [hstep]. destruct (is_free (h_pc h) && a_started (q_add_null r b (h_q h) (h_pins h))); [|apply quiet_refl].
  eapply quiet_trans; [|apply start_quiet]. constructor; reflexivity.
Qed.
Definition tquiet (t t' : hq) : Prop := quiet (hq_h t) (hq_h t').
Lemma tadd_quiet c b t : q_ignore (tqueue t) = true -> tquiet t (fst (t_add hq X c b t)).
Proof.
  intros H. unfold tquiet. cbn [t_add hacc h_add fst hq_h]. unfold hcall.
  set (w := weather1 t). clearbody w. set (h := hq_h t) in *. change (q_ignore (h_q h) = true) in H.
  set (h1 := step (EBegin c b (w_r1 w)) (isr A EXT (w_i0 w) h)).
  assert (Q1 : quiet h h1) by (eapply quiet_trans; [apply isrs_quiet|apply begin_quiet]).
  set (h2 := isr A EXT (w_i1 w) h1).
  assert (Q2 : quiet h h2) by (eapply quiet_trans; [exact Q1|apply isrs_quiet]).
  assert (Q3 : quiet h (step (ECommit (w_r2 w)) h2)).
  { eapply quiet_trans; [exact Q2|apply commit_quiet]. rewrite (qu_ign _ _ Q2). exact H. }
  eapply quiet_trans; [exact Q3|]. eapply quiet_trans; [|apply isrs_quiet]. eapply quiet_trans; [apply isrs_quiet|apply startq_quiet].
Qed.
Lemma tnull_quiet b t : tquiet t (fst (t_null hq X b t)).
Proof.
  unfold tquiet. cbn [t_null hacc h_null fst hq_h].
  eapply quiet_trans; [|apply isrs_quiet]. eapply quiet_trans; [apply isrs_quiet|apply null_quiet].
Qed.
Lemma tquiet_trans a b c : tquiet a b -> tquiet b c -> tquiet a c.
Proof. apply quiet_trans. Qed.
Lemma tquiet_ign t t' : tquiet t t' -> q_ignore (tqueue t) = true -> q_ignore (tqueue t') = true.
Proof. intros [] H. unfold tqueue in *. congruence. Qed.
Lemma pauses_quiet up : forall l t, q_ignore (tqueue t) = true -> tquiet t (add_pauses hq X up l t).
Proof.
  induction l as [|d l IH]; intros t H; cbn [add_pauses]; [apply quiet_refl|].
  pose proof (tadd_quiet (mkCommand d 0 up) false t H) as Q.
  eapply tquiet_trans; [exact Q|]. apply IH. eapply tquiet_ign; eassumption.
Qed.
Definition squiet (s : stepper) (t : hq) (r : stepper * hq * Z) : Prop :=
  s_rg (fst (fst r)) = s_rg s /\ tquiet t (snd (fst r)).
Lemma last_quiet c b s t t0 : tquiet t0 t -> q_ignore (tqueue t) = true -> squiet s t0 (add_last hq X c b s t).
Proof.
  intros Q H. unfold add_last, squiet. cbn [fst snd].
  split; [destruct (s_auto s && _); reflexivity|]. eapply tquiet_trans; [exact Q|apply tadd_quiet, H].
Qed.
Lemma second_quiet c b s t : q_ignore (tqueue t) = true -> squiet s t (add_second A hq X c b s t).
Proof.
  intros H. unfold add_second.
  assert (R : tquiet t t) by apply quiet_refl.
  destruct (negb (Bool.eqb _ _)); [|now apply last_quiet].
  destruct (is_external (s_dirpin s)).
  - destruct (_ >? _); [split; [reflexivity|exact R]|].
    pose proof (tadd_quiet (ext_pause A c) b t H) as Q. cbv zeta.
    set (t1 := t_add hq X (ext_pause A c) b t) in *. clearbody t1.
    destruct (negb (snd t1 =? AQE_OK)); [split; [reflexivity|exact Q]|].
    pose proof (tquiet_ign _ _ Q H) as H1.
    pose proof (tquiet_trans _ _ _ Q (tadd_quiet (ext_pause A c) b (fst t1) H1)) as Q2.
    set (t2 := t_add hq X (ext_pause A c) b (fst t1)) in *. clearbody t2.
    destruct (negb (snd t2 =? AQE_OK)); [split; [reflexivity|exact Q2]|].
    apply last_quiet; [exact Q2|]. eapply tquiet_ign; eassumption.
  - destruct (_ && _); [|now apply last_quiet].
    pose proof (tadd_quiet (dir_pause c s) b t H) as Q. cbv zeta.
    set (t1 := t_add hq X (dir_pause c s) b t) in *. clearbody t1.
    destruct (negb (snd t1 =? AQE_OK)); [split; [reflexivity|exact Q]|].
    apply last_quiet; [exact Q|]. eapply tquiet_ign; eassumption.
Qed.
Lemma first_quiet ext busy c b s t : q_ignore (tqueue t) = true ->
  tquiet t (fst (add_first hq X ext busy c b s t)).
Proof.
  intros H. unfold add_first. assert (R : tquiet t t) by apply quiet_refl.
  destruct (_ <? _); [exact R|]. destruct (_ && _); [exact R|]. destruct (_ && _); [exact R|].
  destruct (_ && _); [|exact R]. cbv zeta.
  set (t1 := t_setpins hq X _ t).
  assert (Q1 : tquiet t t1) by apply quiet_refl.
  destruct (negb _); [exact Q1|]. destruct (_ >? 0); [|exact Q1].
  eapply tquiet_trans; [|apply tnull_quiet]. apply (pauses_quiet (c_up c) _ t1). exact H.
Qed.
Lemma s_add_quiet ext busy c b s t : q_ignore (tqueue t) = true -> squiet s t (s_add A hq X ext busy c b s t).
Proof.
  intros H. unfold s_add. cbv zeta. pose proof (first_quiet ext busy c b s t H) as Q.
  set (r := add_first hq X ext busy c b s t) in *. clearbody r.
  destruct (negb (snd r =? AQE_OK)); [split; [reflexivity|exact Q]|].
  destruct (second_quiet c b s (fst r) (tquiet_ign _ _ Q H)) as [R1 R2].
  split; [exact R1|]. eapply tquiet_trans; eassumption.
Qed.
Lemma s_add_rg ext busy c b s t : s_rg (fst (fst (s_add A hq X ext busy c b s t))) = s_rg s.
Proof.
  unfold s_add, add_second, add_last. cbv zeta.
  destruct (negb (snd (add_first hq X ext busy c b s t) =? AQE_OK)); [reflexivity|].
  repeat match goal with |- context [if ?x then _ else _] => destruct x end; reflexivity.
Qed.

(** ** The generator has been told to stop *)
Definition stopping (g : rampgen) : Prop :=
  isRampGeneratorActive g = false \/ ro_force_immediate (rg_ro g) = true /\ apply (rg_params g) = false.
Lemma forced g : ro_force_immediate (rg_ro g) = true -> rg_forceStop g = g.
Proof. destruct g as [p ro rw a]. destruct ro. cbn. intros ->. reflexivity. Qed.
Lemma forced_next qe old g : ro_force_immediate (rg_ro g) = true -> apply (rg_params g) = false ->
  exists g1 nc, rg_getNextCommand A qe old g = Some (g1, nc) /\ c_ticks (n_cmd nc) = 0
    /\ isRampGeneratorActive (rg_afterCommandEnqueued nc g1) = false
    /\ rg_targetPosition (rg_afterCommandEnqueued nc g1) = i32 (qe_pos qe).
Proof.
  intros H1 H2. destruct (forceStop_step A false old g qe H2) as (g2 & S1 & S2 & S3 & _).
  rewrite (forced g H1) in S1. unfold ramp_step in S1.
  destruct (rg_getNextCommand A qe old g) as [[g1 nc]|] eqn:E; [|discriminate].
  exists g1, nc. revert S1. destruct (Z.eqb_spec (c_ticks (n_cmd nc)) 0) as [K|K].
  - intros S1. inversion S1; subst. splits; auto.
  - destruct (_ && _); intros S1; [|discriminate]. exfalso. clear S1. revert E.
    unfold rg_getNextCommand. cbv zeta.
    assert (T : rg_take_parameters A g = g) by (unfold rg_take_parameters; rewrite H2; reflexivity).
    rewrite T. set (wk := keep_running _). clearbody wk.
    assert (F : ro_force_immediate (rg_new_target wk qe (rg_ro (rg_adjust_prus A g)) (rw_prus (rg_rw (rg_adjust_prus A g)))) = true).
    { set (pr := rw_prus _). clearbody pr.
      assert (F : ro_force_immediate (rg_ro (rg_adjust_prus A g)) = true).
      { unfold rg_adjust_prus. cbv zeta. destruct (_ =? _); cbn [rg_ro map_parameters set_config];
        match goal with |- context [recalc_ramp_steps ?x] => destruct (recalc_ramp_steps x) end; exact H1. }
      unfold rg_new_target. cbv zeta. destruct (ro_force_stop _); [exact F|].
      destruct (any_change _); [|exact F]. destruct (keep_running _); [exact F|].
      destruct (move_absolute _); exact F. }
    rewrite F. intros E. inversion E; subst. apply K. reflexivity.
Qed.
(** a calculated command leaves no request pending *)
Lemma next_applied qe old g g1 nc : rg_getNextCommand A qe old g = Some (g1, nc) -> apply (rg_params g1) = false.
Proof.
  unfold rg_getNextCommand. cbv zeta.
  assert (T : apply (rg_params (rg_take_parameters A g)) = false).
  { unfold rg_take_parameters. destruct (apply (rg_params g)) eqn:E; [reflexivity|exact E]. }
  assert (P : apply (rg_params (rg_adjust_prus A (rg_take_parameters A g))) = false).
  { set (h := rg_take_parameters A g) in *. clearbody h. unfold rg_adjust_prus. cbv zeta.
    destruct (_ =? _); cbn [rg_ro map_parameters set_config];
    match goal with |- context [recalc_ramp_steps ?x] => destruct (recalc_ramp_steps x) end; exact T. }
  set (g2 := rg_adjust_prus A (rg_take_parameters A g)) in *. clearbody g2.
  destruct (ro_force_immediate _).
  - intros K. inversion K. exact P.
  - destruct (getNextCommand_ _ _ _ _) as [n|]; [|discriminate]. intros K. inversion K. exact P.
Qed.

(** ** A pass of the task *)
Definition since (hit : option hq) (s : stepper) (t : hq) : Prop :=
  forall tf, hit = Some tf -> acc_of t = acc_of tf /\ pos_of t = pos_of tf /\ stopping (s_rg s).
Lemma loop_since fs ext busy delayed : forall fuel old prepared need hit s t s' t' need' hit',
  since hit s t ->
  fill_loop_f fs ext busy delayed fuel old prepared need hit s t = Some (s', t', need', hit') ->
  since hit' s' t'.
Proof.
  induction fuel as [|n IH]; intros old prepared need hit s t s' t' need' hit' H; cbn [fill_loop_f].
  { intros E. inversion E; subst. exact H. }
  destruct (fill_more A s (t_q hq X t) prepared) eqn:Em.
  2:{ intros E. inversion E; subst. exact H. }
  assert (Ha : isRampGeneratorActive (s_rg s) = true).
  { unfold fill_more in Em. apply andb_true_iff in Em. apply Em. }
  destruct (rg_getNextCommand A (q_end (t_q hq X t)) old (s_rg s)) as [[g nc]|] eqn:En; [|discriminate].
  pose proof (next_applied _ _ _ _ _ En) as Hap.
  assert (ST : forall tf, hit = Some tf -> c_ticks (n_cmd nc) = 0 /\ isRampGeneratorActive (rg_afterCommandEnqueued nc g) = false).
  { intros tf K. destruct (H tf K) as (_ & _ & [C|[C1 C2]]); [congruence|].
    destruct (forced_next (q_end (t_q hq X t)) old (s_rg s) C1 C2) as (g1 & nc1 & N1 & N2 & N3 & _).
    rewrite En in N1. inversion N1; subst. split; assumption. }
  destruct (fs n) eqn:Ef.
  - set (tf := t_ignore hq X true t). unfold force_stop. cbn [fst snd s_forceStop s_rg st_rg].
    set (sf := st_rg (rg_forceStop g) (st_rg g s)).
    assert (Sf : stopping (s_rg sf)) by (right; split; [reflexivity|exact Hap]).
    assert (If : q_ignore (tqueue tf) = true) by reflexivity.
    change (t_ignore hq X true t) with tf. clearbody tf.
    destruct (Z.eqb_spec (c_ticks (n_cmd nc)) 0) as [Ez|Ez].
    + intros E. inversion E; subst. intros tf' K. inversion K; subst. splits; auto. right. split; [reflexivity|exact Hap].
    + pose proof (s_add_quiet ext (busy n) (n_cmd nc) (negb delayed) sf tf If) as [Q1 [R1 R2 R3 R4]].
      set (r := s_add A hq X ext (busy n) (n_cmd nc) (negb delayed) sf tf) in *. clearbody r.
      destruct r as [[s1 t1] code]. cbn [fst snd] in *.
      assert (SS : forall s2, stopping (s_rg s2) -> since (Some tf) s2 t1).
      { intros s2 K tf' K'. inversion K'; subst. unfold acc_of, pos_of, tqueue. splits; auto. }
      destruct (code =? AQE_OK).
      * apply IH. apply SS. right. cbn [s_rg st_rg rg_afterCommandEnqueued with_rw rg_ro rg_params]. rewrite Q1. split; [reflexivity|exact Hap].
      * destruct (code >? 0); intros E; inversion E; subst; apply SS; [rewrite Q1; exact Sf|]. left. reflexivity.
  - destruct (Z.eqb_spec (c_ticks (n_cmd nc)) 0) as [Ez|Ez].
    + intros E. inversion E; subst. intros tf K. destruct (H tf K) as (K1 & K2 & _). splits; auto.
      left. apply (ST tf K).
    + assert (NH : hit = None).
      { destruct hit as [tf|]; [|reflexivity]. destruct (ST tf eq_refl) as [C _]. contradiction. }
      subst hit. destruct (s_add A hq X ext (busy n) (n_cmd nc) (negb delayed) (st_rg g s) t) as [[s1 t1] code].
      destruct (code =? AQE_OK).
      * apply IH. intros tf K. discriminate.
      * destruct (code >? 0); intros E; inversion E; subst; intros tf K; discriminate.
Qed.
Lemma queue_since fs ext busy fuel old x s' t' tf :
  fill_queue_f fs ext busy fuel old x = Some (s', t', Some tf) ->
  acc_of t' = acc_of tf /\ pos_of t' = pos_of tf /\ stopping (s_rg s').
Proof.
  destruct x as [s t]. unfold fill_queue_f.
  destruct (negb (isRampGeneratorActive (s_rg s))); [discriminate|].
  destruct (negb (checkValidConfig (rg_params (s_rg s)) =? MOVE_OK)); [discriminate|].
  cbv zeta. destruct (fill_loop_f fs ext busy _ fuel old _ false None s _) as [[[[s1 t1] need] hit]|] eqn:E; [|discriminate].
  intros K. inversion K; subst. clear K.
  assert (S : since (Some tf) s' t1).
  { eapply loop_since; [|exact E]. intros tf' C. discriminate. }
  destruct (S tf eq_refl) as (S1 & S2 & S3).
  destruct need; [|splits; auto].
  destruct (tnull_quiet true t1) as [Q1 Q2 Q3 Q4]. unfold acc_of, pos_of, tqueue in *.
  splits; auto; (etransitivity; [eassumption|assumption]).
Qed.

(** ** Later passes *)
Lemma stopping_pass ext busy fuel old s t : stopping (s_rg s) ->
  exists s' t', fill_queue A hq X ext busy fuel old s t = Some (s', t') /\ acc_of t' = acc_of t /\ pos_of t' = pos_of t
    /\ stopping (s_rg s')
    /\ (fuel <> O -> checkValidConfig (rg_params (s_rg s)) = MOVE_OK -> fill_more A s (tqueue t) (ticksInQueue A (tqueue t)) = true ->
        isRampGeneratorActive (s_rg s') = false /\ rg_targetPosition (s_rg s') = i32 (pos_of t)).
Proof.
  intros H. unfold fill_queue.
  destruct (isRampGeneratorActive (s_rg s)) eqn:Ha; cbn [negb].
  2:{ exists s, t. splits; auto. intros _ _ K. unfold fill_more in K. rewrite Ha, andb_false_r in K. discriminate. }
  destruct (Z.eqb_spec (checkValidConfig (rg_params (s_rg s))) MOVE_OK) as [Ev|Ev]; cbn [negb].
  2:{ exists s, t. splits; auto. intros _ K. contradiction. }
  cbv zeta. set (t0 := t_ignore hq X false t).
  destruct H as [H|[H1 H2]]; [congruence|].
  set (d := negb (q_running (t_q hq X t0))). clearbody d.
  assert (L : exists s1 need, fill_loop A hq X ext busy d fuel old (ticksInQueue A (t_q hq X t0)) false s t0 = Some (s1, t0, need)
    /\ stopping (s_rg s1)
    /\ (fuel <> O -> fill_more A s (tqueue t) (ticksInQueue A (tqueue t)) = true ->
        isRampGeneratorActive (s_rg s1) = false /\ rg_targetPosition (s_rg s1) = i32 (pos_of t))).
  { destruct fuel as [|n]; cbn [fill_loop].
    { exists s, false. split; [reflexivity|]. split; [right; auto|]. intros K. contradiction. }
    assert (T : ticksInQueue A (t_q hq X t0) = ticksInQueue A (tqueue t)) by apply ticks_ignore.
    rewrite T. change (fill_more A s (t_q hq X t0) (ticksInQueue A (tqueue t)))
      with (fill_more A s (tqueue t) (ticksInQueue A (tqueue t))).
    destruct (fill_more A s (tqueue t) (ticksInQueue A (tqueue t))).
    2:{ exists s, false. split; [reflexivity|]. split; [right; auto|]. intros _ K. discriminate. }
    destruct (forced_next (q_end (t_q hq X t0)) old (s_rg s) H1 H2) as (g1 & nc & N1 & N2 & N3 & N4).
    rewrite N1, N2. cbn [Z.eqb]. eexists _, _. split; [reflexivity|].
    cbn [s_rg st_rg]. split; [left; exact N3|]. intros _ _. split; [exact N3|exact N4]. }
  destruct L as (s1 & need & L1 & L2 & L3). rewrite L1.
  eexists _, _. split; [reflexivity|]. assert (Q : acc_of (if need then fst (t_null hq X true t0) else t0) = acc_of t
    /\ pos_of (if need then fst (t_null hq X true t0) else t0) = pos_of t).
  { destruct need; [|split; reflexivity]. destruct (tnull_quiet true t0) as [Q1 Q2 Q3 Q4].
    unfold acc_of, pos_of, tqueue. rewrite Q1, Q3. split; reflexivity. }
  destruct Q as [Q1 Q2]. splits; auto.
Qed.
Lemma stopping_step e x : stopping (s_rg (fst x)) -> exists y, tstep A EXT e x = Some y
  /\ stopping (s_rg (fst y)) /\ accepted_cmds y = accepted_cmds x /\ pos_of (snd y) = pos_of (snd x).
Proof.
  destruct x as [s t]. cbn [fst snd]. intros H. destruct e as [ext busy fuel old ws|evs|ext]; cbn [tstep].
  - destruct (stopping_pass ext busy fuel old s (set_w ws t) H) as (s' & t' & E & E1 & E2 & E3 & _).
    exists (s', t'). splits; auto.
  - eexists. split; [reflexivity|]. split; [exact H|]. unfold accepted_cmds, pos_of, tqueue. cbn [snd set_h hq_h].
    destruct (isrs_quiet evs (hq_h t)) as [Q1 Q2 Q3 Q4]. split; assumption.
  - eexists. split; [reflexivity|]. cbn [fst snd]. rewrite tick_rg. split; [exact H|]. split; reflexivity.
Qed.
Lemma stopping_run : forall l x, stopping (s_rg (fst x)) -> exists y, trun A EXT l x = Some y
  /\ stopping (s_rg (fst y)) /\ accepted_cmds y = accepted_cmds x /\ pos_of (snd y) = pos_of (snd x).
Proof.
  induction l as [|e l IH]; intros x H; cbn [trun]; [exists x; auto|].
  destruct (stopping_step e x H) as (y & -> & H1 & H2 & H3).
  destruct (IH y H1) as (z & Z1 & Z2 & Z3 & Z4). exists z. splits; auto; congruence.
Qed.

(** ** Results *)
(** forceStop() between two passes, without a pending request *)
Lemma force_between x l : apply (rg_params (s_rg (fst x))) = false ->
  exists y, trun A EXT l (force_stop x) = Some y
    /\ accepted_cmds y = accepted_cmds x /\ pos_of (snd y) = pos_of (snd x).
Proof.
  intros H. destruct (stopping_run l (force_stop x)) as (y & Y1 & Y2 & Y3 & Y4).
  { right. split; [reflexivity|exact H]. }
  exists y. splits; auto.
Qed.
(** forceStop() by an interrupt in the middle of a pass *)
Lemma force_within fs ext busy fuel old x y tf l :
  fill_queue_f fs ext busy fuel old x = Some (y, Some tf) ->
  exists z, trun A EXT l y = Some z /\ accepted_cmds z = acc_of tf /\ pos_of (snd z) = pos_of tf.
Proof.
  destruct y as [s t]. intros H. destruct (queue_since _ _ _ _ _ _ _ _ _ H) as (H1 & H2 & H3).
  destruct (stopping_run l (s, t) H3) as (z & Z1 & Z2 & Z3 & Z4). exists z. cbn [snd] in Z4.
  unfold accepted_cmds in *. cbn [snd] in *. unfold acc_of in *. splits; auto; congruence.
Qed.
(** the ramp ends with the next pass that looks at it *)
Lemma force_ends x ext busy fuel old ws : apply (rg_params (s_rg (fst x))) = false -> fuel <> O ->
  checkValidConfig (rg_params (s_rg (fst x))) = MOVE_OK ->
  fill_more A (fst x) (fqueue x) (ticksInQueue A (fqueue x)) = true ->
  exists y, tstep A EXT (TFill ext busy fuel old ws) (force_stop x) = Some y
    /\ isRampGeneratorActive (s_rg (fst y)) = false /\ rg_targetPosition (s_rg (fst y)) = i32 (pos_of (snd x)).
Proof.
  destruct x as [s t]. unfold fqueue. cbn [fst snd]. intros H1 H2 H3 H4.
  unfold force_stop. cbn [tstep fst snd s_forceStop].
  destruct (stopping_pass ext busy fuel old (st_rg (rg_forceStop (s_rg s)) s) (set_w ws (t_ignore hq X true t)))
    as (s' & t' & E & _ & _ & _ & E4).
  { right. split; [reflexivity|exact H1]. }
  exists (s', t'). split; [exact E|]. apply E4; auto.
  change (tqueue (set_w ws (t_ignore hq X true t))) with (set_ignore true (h_q (hq_h t))).
  rewrite ticks_ignore. exact H4.
Qed.
End WithArch.

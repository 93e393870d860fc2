(** * StepperHist: histories of one stepper

    The front end of Stepper.v on a queue, whose interrupt runs between all pieces of
    addQueueEntry (QueueHist.v). *)
From Coq Require Import ZArith Bool List Lia ZifyBool.
From Verif Require Import Base RampCalc RampGen Queue QueueFacts QueuePos QueueHist Stepper.
Import ListNotations.
Open Scope Z_scope.
Ltac Zify.zify_post_hook ::= idtac.
Ltac splits := repeat match goal with |- _ /\ _ => split end.

(** events caused by the interrupt routine *)
Definition isr_ev (ev : event) : bool :=
  match ev with EDec _ | EPop | EResume | EStop => true | _ => false end.

(** What happens during one call of the queue's addQueueEntry: the two readings of
    isReadyForCommands() and the interrupts before, between and behind the three pieces *)
Record weather := mkWeather {
  w_r1 : bool; w_r2 : bool; w_i0 : list event; w_i1 : list event; w_i2 : list event;
  w_i3 : list event }.
Definition fair : weather := mkWeather true true [] [] [] [].

(** The queue with its history, the levels of the enable pins, and the weather of the
    coming calls *)
Record hq := mkHq { hq_h : hst; hq_p : pins; hq_w : list weather }.

Section WithArch.
Variable A : arch.
Variable EXT : bool.
Notation L := (QUEUE_LEN A).
Notation step := (hstep A EXT).
Notation run := (hrun A EXT).

Definition isr (l : list event) (h : hst) : hst := run (filter isr_ev l) h.
(** q->addQueueEntry(&c, start) *)
Definition hcall (w : weather) (c : command) (start : bool) (h : hst) : hst :=
  step EStartQ (isr (w_i2 w) (step (ECommit (w_r2 w)) (isr (w_i1 w)
    (step (EBegin c start (w_r1 w)) (isr (w_i0 w) h))))).
(** its return value is the last one recorded *)
Definition last_code (h : hst) : Z := snd (last (h_res h) (mkCommand 0 0 true, 0)).
Definition weather1 (t : hq) : weather := match hq_w t with [] => fair | w :: _ => w end.
Definition h_add (c : command) (start : bool) (t : hq) : hq * Z :=
  let h := hcall (weather1 t) c start (hq_h t) in
  (mkHq (isr (w_i3 (weather1 t)) h) (hq_p t) (tl (hq_w t)), last_code h).
(** q->addQueueEntry(NULL, start) *)
Definition h_null (start : bool) (t : hq) : hq * Z :=
  let w := weather1 t in
  let h := isr (w_i0 w) (hq_h t) in
  (mkHq (isr (w_i3 w) (step (EAddNull start (w_r1 w)) h)) (hq_p t) (tl (hq_w t)),
   a_code (q_add_null (w_r1 w) start (h_q h) (h_pins h))).
Definition hacc : access hq := {|
  t_q := fun t => h_q (hq_h t);
  t_pins := hq_p;
  t_setpins := fun p t => mkHq (hq_h t) p (hq_w t);
  t_ignore := fun b t => mkHq (step (EIgnore b) (hq_h t)) (hq_p t) (hq_w t);
  t_add := h_add;
  t_null := h_null
|}.

(** ** Facts about one call *)
Hypothesis HA : In A all_archs.

(** what the interrupt does not change *)
Record kept (h h' : hst) : Prop := mkKept {
  k_pc : h_pc h' = h_pc h;
  k_acc : h_acc h' = h_acc h;
  k_res : h_res h' = h_res h;
  k_end : q_end (h_q h') = q_end (h_q h);
  k_ign : q_ignore (h_q h') = q_ignore (h_q h);
  k_pin : q_pin (h_q h') = q_pin (h_q h);
  k_hcu : q_hcu (h_q h') = q_hcu (h_q h);
  k_max : q_max (h_q h') = q_max (h_q h);
  k_n : queueEntries (h_q h') <= queueEntries (h_q h)
}.
Lemma kept_refl h : kept h h.
Proof. constructor; auto. lia. Qed.
Lemma kept_trans h1 h2 h3 : kept h1 h2 -> kept h2 h3 -> kept h1 h3.
Proof. intros [] []. constructor; try congruence. lia. Qed.

Lemma start_head_kept s : kept s (start_head A s).
Proof. unfold start_head. destruct (_ && _); constructor; auto; apply Z.le_refl. Qed.
Lemma kept_head s s' : kept s s' -> kept s (start_head A s').
Proof. intros. eapply kept_trans; [eassumption|apply start_head_kept]. Qed.

Lemma isr_step_kept ev h : inv A h -> isr_ev ev = true -> kept h (step ev h).
Proof.
  intros HI Hi. destruct ev; try discriminate; cbn [hstep].
  - destruct (_ && _); [constructor; auto; apply Z.le_refl|apply kept_refl].
  - destruct (nonempty (h_q h) && q_running (h_q h) && h_started h) eqn:E; [|apply kept_refl].
    apply kept_head. constructor; auto.
    cbn [h_q]. apply andb_true_iff in E as [E _]. apply andb_true_iff in E as [E _].
    apply nonempty_iff in E. rewrite (entries_pop A) by (auto; apply HI). lia.
  - destruct (_ && _); [apply start_head_kept|apply kept_refl].
  - destruct (_ && _); [constructor; auto; apply Z.le_refl|apply kept_refl].
Qed.
Lemma isr_kept : forall l h, inv A h -> inv A (isr l h) /\ kept h (isr l h).
Proof.
  unfold isr. induction l as [|ev l IH]; intros h HI; cbn [filter].
  - cbn [hrun]. split; [assumption|apply kept_refl].
  - destruct (isr_ev ev) eqn:E; [|now apply IH]. cbn [hrun].
    assert (Hs : inv A (step ev h)).
    { apply inv_step; auto. destruct ev; try discriminate; exact I. }
    destruct (IH _ Hs) as [H1 H2]. split; [assumption|].
    eapply kept_trans; [apply isr_step_kept; eassumption|assumption].
Qed.

(** the device is ready during the call *)
Definition ready (w : weather) : Prop := w_r1 w = true /\ w_r2 w = true.
Definition long_cmd (c : command) : Prop := MIN_CMD_TICKS A <= command_rate_ticks c.

(** the effect of one call on the history, as seen by the front end *)
Record call_spec (c : command) (h h' : hst) (code : Z) : Prop := mkCall {
  cs_inv : inv A h';
  cs_pc : h_pc h' = Free;
  cs_ign : q_ignore (h_q h') = q_ignore (h_q h);
  cs_pin : q_pin (h_q h') = q_pin (h_q h);
  cs_hcu : q_hcu (h_q h') = q_hcu (h_q h);
  cs_max : q_max (h_q h') = q_max (h_q h);
  cs_ok : code = AQE_OK -> q_ignore (h_q h) = false ->
          h_acc h' = h_acc h ++ [c] /\ qe_up (q_end (h_q h')) = c_up c /\ long_cmd c
          /\ qe_pos (q_end (h_q h')) = i32 (qe_pos (q_end (h_q h)) + sdelta c);
  cs_no : code <> AQE_OK \/ q_ignore (h_q h) = true ->
          h_acc h' = h_acc h /\ qe_up (q_end (h_q h')) = qe_up (q_end (h_q h))
          /\ qe_pos (q_end (h_q h')) = qe_pos (q_end (h_q h))
          /\ queueEntries (h_q h') <= queueEntries (h_q h);
  cs_n : queueEntries (h_q h') <= queueEntries (h_q h) + 1;
  cs_code : long_cmd c -> 0 <= code
}.

Lemma call_isr c h h' code l : call_spec c h h' code -> call_spec c h (isr l h') code.
Proof.
  intros [C1 C2 C3 C4 C5 C6 C7 C8 C9 C10]. destruct (isr_kept l h' C1) as [I [K1 K2 K3 K4 K5 K6 K7 K8 K9]].
  constructor; try rewrite K4; try congruence; auto; try lia.
  - intros H1 H2. rewrite K2. auto.
  - intros H. destruct (C8 H) as (D1 & D2 & D3 & D4). rewrite K2. splits; auto. lia.
Qed.
Lemma last_snoc {X} (l : list X) x d : last (l ++ [x]) d = x.
Proof. induction l as [|a [|b l] IH]; cbn in *; auto. Qed.

Lemma hcall_spec w c start h : inv A h -> cmd_ok c -> h_pc h = Free ->
  call_spec c h (hcall w c start h) (last_code (hcall w c start h))
  /\ (ready w -> queueEntries (h_q h) < L -> long_cmd c -> last_code (hcall w c start h) = AQE_OK).
Proof.
  intros HI Hc Hpc. unfold hcall.
  destruct (isr_kept (w_i0 w) h HI) as [I0 K0]. set (h0 := isr (w_i0 w) h) in *. clearbody h0.
  assert (I1 : inv A (step (EBegin c start (w_r1 w)) h0)) by (apply inv_step; auto).
  assert (P0 : h_pc h0 = Free) by (rewrite (k_pc _ _ K0); assumption).
  assert (N0 := k_n _ _ K0). pose proof (entries_range (h_q h0)) as R0.
  destruct (Z.eqb_spec (add_check A (w_r1 w) c (h_q h0)) AQE_OK) as [E|E].
  - (* prepared *)
    set (h1 := step (EBegin c start (w_r1 w)) h0) in *.
    destruct (check_ok A (w_r1 w) c (h_q h0) E) as (Hr & Hfull & Hlong).
    assert (F1 : h_pc h1 = Prepared c (next_end c (h_q h0)) start /\ h_acc h1 = h_acc h0
       /\ h_res h1 = h_res h0 /\ qe_up (q_end (h_q h1)) = qe_up (q_end (h_q h0))
       /\ qe_pos (q_end (h_q h1)) = qe_pos (q_end (h_q h0))
       /\ q_ignore (h_q h1) = q_ignore (h_q h0) /\ q_pin (h_q h1) = q_pin (h_q h0)
       /\ q_hcu (h_q h1) = q_hcu (h_q h0) /\ q_max (h_q h1) = q_max (h_q h0)
       /\ queueEntries (h_q h1) = queueEntries (h_q h0)).
    { unfold h1. cbn [hstep]. rewrite P0.
      replace (add_check A (w_r1 w) c (h_q h0) =? AQE_OK) with true by (rewrite E; reflexivity).
      cbn [h_pc h_acc h_res h_q]. unfold add_prepare. destruct (direct_dir (h_q h0)); cbn; splits; auto. }
    destruct F1 as (Fpc & Facc & Fres & Fup & Fpos & Fign & Fpin & Fhcu & Fmax & Fn). clearbody h1.
    destruct (isr_kept (w_i1 w) h1 I1) as [I2 K2]. set (h2 := isr (w_i1 w) h1) in *. clearbody h2.
    assert (P2 : h_pc h2 = Prepared c (next_end c (h_q h0)) start) by (rewrite (k_pc _ _ K2); assumption).
    assert (I3 : inv A (step (ECommit (w_r2 w)) h2)) by (apply inv_step; auto; exact I).
    assert (Hlt : queueEntries (h_q h0) < L).
    { pose proof (iv_wf A h0 I0) as (_ & _ & Hw). unfold isQueueFull in Hfull. lia. }
    assert (Ln : long_cmd c) by (unfold long_cmd; lia).
    set (h3 := step (ECommit (w_r2 w)) h2) in *.
    assert (F3 : exists code, h_res h3 = h_res h2 ++ [(c, code)]
       /\ (h_pc h3 = Free \/ exists st, h_pc h3 = Committed st)
       /\ q_ignore (h_q h3) = q_ignore (h_q h2) /\ q_pin (h_q h3) = q_pin (h_q h2)
       /\ q_hcu (h_q h3) = q_hcu (h_q h2) /\ q_max (h_q h3) = q_max (h_q h2)
       /\ (code = AQE_OK -> q_ignore (h_q h2) = false -> h_acc h3 = h_acc h2 ++ [c]
            /\ q_end (h_q h3) = next_end c (h_q h0))
       /\ (code <> AQE_OK \/ q_ignore (h_q h2) = true -> h_acc h3 = h_acc h2
            /\ q_end (h_q h3) = q_end (h_q h2) /\ queueEntries (h_q h3) <= queueEntries (h_q h2))
       /\ (w_r2 w = true -> code = AQE_OK) /\ 0 <= code
       /\ queueEntries (h_q h3) <= queueEntries (h_q h2) + 1).
    { unfold h3. cbn [hstep]. rewrite P2. unfold add_commit.
      pose proof (k_n _ _ K2). 
      destruct (q_ignore (h_q h2)) eqn:Ei; [|destruct (w_r2 w)]; cbn [fst snd h_res h_pc h_acc h_q].
      - exists AQE_OK. splits; auto; try congruence; try lia.
        + right. exists start. reflexivity.
        + intros _. splits; auto. lia.
        + unfold AQE_OK. lia.
      - exists AQE_OK. splits; auto.
        + right. exists start. reflexivity.
        + intros [K|K]; congruence.
        + unfold AQE_OK. lia.
        + pose proof (iv_wf A h2 I2) as W. rewrite (entries_commit A HA); auto; lia.
      - exists AQE_DEVICE_NOT_READY. splits; auto; try congruence; try lia.
        + discriminate.
        + intros _. splits; auto. apply Z.le_refl.
        + unfold AQE_DEVICE_NOT_READY. lia. }
    destruct F3 as (code & Gres & Gpc & Gign & Gpin & Ghcu & Gmax & Gok & Gno & Gready & Gcode & Gn).
    clearbody h3.
    destruct (isr_kept (w_i2 w) h3 I3) as [I4 K4]. set (h4 := isr (w_i2 w) h3) in *. clearbody h4.
    assert (I5 : inv A (step EStartQ h4)) by (apply inv_step; auto; exact I).
    set (h5 := step EStartQ h4) in *.
    assert (F5 : h_pc h5 = Free /\ h_acc h5 = h_acc h4 /\ h_res h5 = h_res h4
       /\ q_end (h_q h5) = q_end (h_q h4) /\ q_ignore (h_q h5) = q_ignore (h_q h4)
       /\ q_pin (h_q h5) = q_pin (h_q h4) /\ q_hcu (h_q h5) = q_hcu (h_q h4)
       /\ q_max (h_q h5) = q_max (h_q h4) /\ queueEntries (h_q h5) = queueEntries (h_q h4)).
    { unfold h5. cbn [hstep]. pose proof (k_pc _ _ K4) as Kp.
      destruct Gpc as [Gpc|[st Gpc]]; rewrite Gpc in Kp; rewrite Kp.
      - splits; auto.
      - destruct (add_starts st (h_q h4)); [|cbn; splits; auto].
        unfold start_head. destruct (_ && _); cbn; splits; auto. }
    destruct F5 as (Ppc & Pacc & Pres & Pend & Pign & Ppin & Phcu & Pmax & Pn).
    assert (EC : last_code h5 = code).
    { unfold last_code. rewrite Pres, (k_res _ _ K4), Gres, last_snoc. reflexivity. }
    rewrite EC. clearbody h5. destruct K0, K2, K4.
    split.
    + constructor; try congruence; auto.
      * intros Eo Ei. destruct Gok as [G1 G2]; [assumption|congruence|].
        splits; auto.
        -- rewrite Pacc, k_acc2, G1, k_acc1, Facc, k_acc0. reflexivity.
        -- rewrite Pend, k_end2, G2. reflexivity.
        -- rewrite Pend, k_end2, G2. cbn [next_end qe_pos]. unfold next_pos, sdelta, sgn.
           rewrite k_end0. destruct (c_up c); f_equal; lia.
      * intros Ho. destruct Gno as (G1 & G2 & G3); [destruct Ho; [now left|right; congruence]|].
        splits; [rewrite Pacc, k_acc2, G1, k_acc1, Facc; assumption
                |rewrite Pend, k_end2, G2, k_end1, Fup, k_end0; reflexivity
                |rewrite Pend, k_end2, G2, k_end1, Fpos, k_end0; reflexivity
                |lia].
      * lia.
    + intros [_ Hr2] _ _. now apply Gready.
  - (* refused *)
    assert (F1 : step (EBegin c start (w_r1 w)) h0 =
      mkH (h_q h0) (h_pins h0) Free (h_done h0) (h_base h0) (h_started h0) (h_clean h0)
          (h_acc h0) (h_left h0) (h_res h0 ++ [(c, add_check A (w_r1 w) c (h_q h0))]) (h_log h0)).
    { cbn [hstep]. rewrite P0. destruct (Z.eqb_spec (add_check A (w_r1 w) c (h_q h0)) AQE_OK); [congruence|reflexivity]. }
    set (h1 := step (EBegin c start (w_r1 w)) h0) in *.
    destruct (isr_kept (w_i1 w) h1 I1) as [I2 K2]. set (h2 := isr (w_i1 w) h1) in *. clearbody h2.
    assert (P2 : h_pc h2 = Free) by (rewrite (k_pc _ _ K2), F1; reflexivity).
    assert (E3 : step (ECommit (w_r2 w)) h2 = h2) by (cbn [hstep]; rewrite P2; reflexivity).
    rewrite E3.
    destruct (isr_kept (w_i2 w) h2 I2) as [I4 K4]. set (h4 := isr (w_i2 w) h2) in *. clearbody h4.
    assert (P4 : h_pc h4 = Free) by (rewrite (k_pc _ _ K4); assumption).
    assert (E5 : step EStartQ h4 = h4) by (cbn [hstep]; rewrite P4; reflexivity).
    rewrite E5.
    assert (EC : last_code h4 = add_check A (w_r1 w) c (h_q h0)).
    { unfold last_code. rewrite (k_res _ _ K4), (k_res _ _ K2), F1. cbn [h_res]. rewrite last_snoc. reflexivity. }
    rewrite EC. clearbody h1. subst h1. destruct K0, K2, K4. cbn [h_q h_acc h_pc h_res] in *.
    split.
    + constructor; try congruence; auto; try lia.
      * intros _. splits; try congruence. lia.
      * unfold long_cmd, add_check, AQE_DEVICE_NOT_READY, AQE_QUEUE_FULL, AQE_OK. intros Hl.
        destruct (w_r1 w); cbn [negb]; [|lia]. destruct (isQueueFull A (h_q h0)); [lia|].
        destruct (Z.ltb_spec (command_rate_ticks c) (MIN_CMD_TICKS A)); lia.
    + intros [Hr1 _] Hlt Hl. exfalso. apply E. unfold add_check. rewrite Hr1. cbn [negb].
      pose proof (iv_wf A h0 I0) as (_ & _ & Hw). unfold isQueueFull, long_cmd in *.
      destruct (Z.eqb_spec (queueEntries (h_q h0)) L); [lia|].
      destruct (Z.ltb_spec (command_rate_ticks c) (MIN_CMD_TICKS A)); [lia|reflexivity].
Qed.

(** ** While the queue is not running, the interrupt does nothing *)
Lemma isr_idle l h : q_running (h_q h) = false -> isr l h = h.
Proof.
  intros H. unfold isr. induction l as [|ev l IH]; cbn [filter]; [reflexivity|].
  destruct (isr_ev ev) eqn:E; [|exact IH]. cbn [hrun].
  assert (ES : step ev h = h).
  { destruct ev; try discriminate; cbn [hstep]; rewrite H, ?andb_false_r; reflexivity. }
  rewrite ES. exact IH.
Qed.
Lemma hcall_idle w c h : inv A h -> q_running (h_q h) = false -> h_pc h = Free ->
  q_running (h_q (hcall w c false h)) = false /\ h_left (hcall w c false h) = h_left h.
Proof.
  intros HI Hr Hpc. unfold hcall. rewrite (isr_idle (w_i0 w) h Hr).
  assert (R1 : q_running (h_q (step (EBegin c false (w_r1 w)) h)) = false
     /\ h_left (step (EBegin c false (w_r1 w)) h) = h_left h
     /\ (h_pc (step (EBegin c false (w_r1 w)) h) = Free
         \/ exists ne, h_pc (step (EBegin c false (w_r1 w)) h) = Prepared c ne false)).
  { cbn [hstep]. rewrite Hpc. destruct (add_check A (w_r1 w) c (h_q h) =? AQE_OK); cbn [h_q h_left h_pc]; splits; auto.
    - unfold add_prepare. destruct (direct_dir (h_q h)); exact Hr.
    - right. eexists. reflexivity. }
  destruct R1 as (R1 & L1 & P1). set (h1 := step (EBegin c false (w_r1 w)) h) in *. clearbody h1.
  rewrite (isr_idle (w_i1 w) h1 R1).
  assert (R2 : q_running (h_q (step (ECommit (w_r2 w)) h1)) = false
     /\ h_left (step (ECommit (w_r2 w)) h1) = h_left h1
     /\ (h_pc (step (ECommit (w_r2 w)) h1) = Free \/ h_pc (step (ECommit (w_r2 w)) h1) = Committed false)).
  { cbn [hstep]. destruct P1 as [P1|[ne P1]]; rewrite P1; [auto|]. cbn [h_q h_left h_pc].
    unfold add_commit. destruct (q_ignore (h_q h1)); [|destruct (w_r2 w)]; cbn; splits; auto. }
  destruct R2 as (R2 & L2 & P2). set (h2 := step (ECommit (w_r2 w)) h1) in *. clearbody h2.
  rewrite (isr_idle (w_i2 w) h2 R2).
  cbn [hstep]. destruct P2 as [P2|P2]; rewrite P2; [split; congruence|].
  assert (EN : add_starts false (h_q h2) = false) by (unfold add_starts; rewrite ?andb_false_r; reflexivity).
  rewrite EN. cbn [h_q h_left with_pc]. split; congruence.
Qed.
Lemma hadd_idle c t : inv A (hq_h t) -> q_running (h_q (hq_h t)) = false -> h_pc (hq_h t) = Free ->
  q_running (h_q (hq_h (fst (h_add c false t)))) = false /\ h_left (hq_h (fst (h_add c false t))) = h_left (hq_h t).
Proof.
  intros HI Hr Hpc. cbn [h_add fst hq_h].
  destruct (hcall_idle (weather1 t) c (hq_h t) HI Hr Hpc) as [H1 H2]. rewrite (isr_idle _ _ H1). auto.
Qed.
End WithArch.

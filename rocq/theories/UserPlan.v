(** * UserPlan: how much a pass of fill_queue plans ahead *)
From Coq Require Import ZArith Bool List Lia ZifyBool.
From Verif Require Import Base RampCalc RampGen RampStep Queue QueueFacts QueuePos QueueHist QueueProp
  Stepper StepperHist FrontHist FrontProp FrontFill.
Import ListNotations.
Open Scope Z_scope.
Ltac Zify.zify_post_hook ::= idtac.
Ltac splits := repeat match goal with |- _ /\ _ => split end.

Section WithArch.
Variable A : arch.
Variable EXT : bool.
Notation L := (QUEUE_LEN A).
Notation X := (hacc A EXT).
Notation step := (hstep A EXT).
Hypothesis HA : In A all_archs.

(** the commands in the queue, the first one with its remaining steps, and their duration *)
Definition pending (t : hq) : list command := map (cmd_of 0) (pend A (tqueue t)).
Definition drop_done (d : Z) (l : list command) : list command :=
  match l with [] => [] | c :: r => mkCommand (c_ticks c) (c_steps c - d) (c_up c) :: r end.
Lemma pending_drop t : pending t = drop_done (h_done (hq_h t)) (pend_cmds (h_done (hq_h t)) (pend A (tqueue t))).
Proof.
  unfold pending. destruct (pend A (tqueue t)) as [|e l]; [reflexivity|]. cbn [map pend_cmds drop_done]. f_equal.
  unfold cmd_of. cbn [c_ticks c_steps c_up]. f_equal. lia.
Qed.
Definition total (l : list command) : Z := fold_right Z.add 0 (map cmd_dur l).
Lemma total_app a b : total (a ++ b) = total a + total b.
Proof. unfold total. rewrite map_app. induction (map cmd_dur a) as [|x l IH]; cbn [app fold_right]; lia. Qed.
Lemma total_pos l : Forall cmd_ok l -> 0 <= total l.
Proof.
  unfold total. induction 1 as [|c l [H1 H2] Hl IH]; cbn [map fold_right]; [lia|].
  assert (0 <= cmd_dur c) by (unfold cmd_dur; apply Z.mul_nonneg_nonneg; lia). lia.
Qed.
Lemma pending_length t : n_of t = Z.of_nat (length (pending t)).
Proof.
  unfold n_of, pending. pose proof (entries_range (tqueue t)). rewrite map_length, pend_length. lia.
Qed.
Lemma pending_ok t : good A t -> Forall cmd_ok (pending t).
Proof.
  intros [HI _]. pose proof (iv_ent A _ HI) as H. fold (tqueue t) in H. unfold pending.
  apply Forall_forall. intros c Hc. apply in_map_iff in Hc as (e & <- & He). rewrite Forall_forall in H.
  destruct (H e He) as [H1 H2]. split; cbn [cmd_of c_ticks c_steps]; lia.
Qed.

(** the state of the queue during a pass without interrupts *)
Record quiet_t (t0 t : hq) (w : list command) : Prop := mkQuiet {
  qt_good : good A t;
  qt_w : hq_w t = [];
  qt_ign : q_ignore (tqueue t) = false;
  qt_max : q_max (tqueue t) = q_max (tqueue t0);
  qt_left : h_left (hq_h t) = h_left (hq_h t0);
  qt_done : h_done (hq_h t) = h_done (hq_h t0);
  qt_acc : acc_of t = acc_of t0 ++ w;
  qt_ok : Forall cmd_ok w
}.
Lemma quiet_trans t0 t t' w w' : quiet_t t0 t w -> quiet_t t t' w' -> quiet_t t0 t' (w ++ w').
Proof.
  intros [] []. constructor; auto; try congruence.
  - rewrite qt_acc1, qt_acc0, app_assoc. reflexivity.
  - apply Forall_app. auto.
Qed.
Lemma quiet_pending t0 t w : good A t0 -> quiet_t t0 t w -> pending t = pending t0 ++ w.
Proof.
  intros [I0 _] H. pose proof (iv_fifo A _ I0) as F0. pose proof (iv_fifo A _ (proj1 (qt_good _ _ _ H))) as F1.
  pose proof (qt_acc _ _ _ H) as E. unfold acc_of in E. rewrite F0, F1, (qt_left _ _ _ H), <- app_assoc in E.
  apply app_inv_head in E. rewrite !pending_drop. unfold tqueue. rewrite E, (qt_done _ _ _ H).
  pose proof (iv_done A _ I0) as (_ & D & _). destruct (pend A (h_q (hq_h t0))) as [|e l].
  - cbn [pend_cmds app drop_done]. rewrite (D eq_refl). destruct w as [|c w]; [reflexivity|]. cbn [drop_done].
    destruct c as [ct cs cu]. cbn [c_ticks c_steps c_up]. rewrite Z.sub_0_r. reflexivity.
  - reflexivity.
Qed.
Lemma quiet_n t0 t w : good A t0 -> quiet_t t0 t w -> n_of t = n_of t0 + Z.of_nat (length w).
Proof. intros H0 H. rewrite !pending_length, (quiet_pending _ _ _ H0 H), app_length. lia. Qed.

Definition keeps (h h' : hst) : Prop := h_left h' = h_left h /\ h_done h' = h_done h.
Lemma start_head_keeps h h' : keeps h h' -> keeps h (start_head A h').
Proof. unfold start_head. destruct (_ && _); auto. Qed.
Lemma begin_keeps c start h : keeps h (step (EBegin c start true) h).
Proof. cbn [hstep]. destruct (h_pc h); [|split; reflexivity..]. destruct (_ =? AQE_OK); split; reflexivity. Qed.
Lemma commit_keeps h : keeps h (step (ECommit true) h).
Proof. cbn [hstep]. destruct (h_pc h); split; reflexivity. Qed.
Lemma startq_keeps h : keeps h (step EStartQ h).
Proof. cbn [hstep]. destruct (h_pc h); try (split; reflexivity). destruct (add_starts _ _); [apply start_head_keeps|]; split; reflexivity. Qed.
Lemma keeps_trans a b c : keeps a b -> keeps b c -> keeps a c.
Proof. unfold keeps. intuition congruence. Qed.
Lemma hcall_keeps c start h : keeps h (hcall A EXT fair c start h).
Proof.
  unfold hcall. cbn [fair w_r1 w_r2 w_i0 w_i1 w_i2]. change (isr A EXT []) with (fun h : hst => h).
  cbv beta. eapply keeps_trans; [|apply startq_keeps]. eapply keeps_trans; [|apply commit_keeps]. apply begin_keeps.
Qed.
(** with room in the queue, only short commands are refused *)
Lemma hcall_code c start h : inv A h -> cmd_ok c -> h_pc h = Free -> queueEntries (h_q h) < L ->
  last_code (hcall A EXT fair c start h) <= 0.
Proof.
  intros HI Hc Hpc Hn.
  destruct (Z.le_gt_cases (MIN_CMD_TICKS A) (command_rate_ticks c)) as [K|K].
  - destruct (hcall_spec A EXT HA fair c start h HI Hc Hpc) as [_ H]. rewrite H; auto; [unfold AQE_OK; lia|split; reflexivity].
  - assert (E : add_check A true c (h_q h) = AQE_ERROR_TICKS_TOO_LOW).
    { unfold add_check. cbn [negb]. unfold isQueueFull.
      destruct (Z.eqb_spec (queueEntries (h_q h)) L); [lia|].
      destruct (Z.ltb_spec (command_rate_ticks c) (MIN_CMD_TICKS A)); [reflexivity|lia]. }
    unfold hcall. cbn [fair w_r1 w_r2 w_i0 w_i1 w_i2]. change (isr A EXT []) with (fun h : hst => h). cbv beta.
    set (h1 := step (EBegin c start true) h).
    assert (E1 : h_pc h1 = Free /\ h_res h1 = h_res h ++ [(c, AQE_ERROR_TICKS_TOO_LOW)]).
    { unfold h1. cbn [hstep]. rewrite Hpc, E. split; reflexivity. }
    clearbody h1. destruct E1 as [E1 E2].
    assert (E3 : step (ECommit true) h1 = h1) by (cbn [hstep]; rewrite E1; reflexivity).
    assert (E4 : step EStartQ h1 = h1) by (cbn [hstep]; rewrite E1; reflexivity).
    rewrite E3, E4. unfold last_code. rewrite E2, last_snoc. cbn. unfold AQE_ERROR_TICKS_TOO_LOW. lia.
Qed.
Definition calm_t (t : hq) : Prop := good A t /\ hq_w t = [] /\ q_ignore (tqueue t) = false.
Lemma calm_quiet t : calm_t t -> quiet_t t t [].
Proof. intros (H1 & H2 & H3). constructor; auto. now rewrite app_nil_r. Qed.
Lemma quiet_calm t0 t w : quiet_t t0 t w -> calm_t t.
Proof. intros []. split; auto. Qed.
Lemma fair_add c start t : calm_t t -> cmd_ok c ->
  let r := t_add hq X c start t in
  (snd r = AQE_OK /\ quiet_t t (fst r) [c]) \/ (snd r <> AQE_OK /\ quiet_t t (fst r) [] /\ (0 < snd r -> n_of t = L)).
Proof.
  intros (Hg & Hw & Hi) Hc. pose proof (add_ok A EXT HA c start t Hg Hc) as S.
  assert (EL : keeps (hq_h t) (hq_h (fst (t_add hq X c start t)))).
  { cbn [t_add hacc h_add fst hq_h]. unfold weather1. rewrite Hw. apply hcall_keeps. }
  destruct EL as [EL ED].
  pose proof (as_same _ _ _ _ _ S) as [SC1 SC2 SC3 SC4]. pose proof (as_good _ _ _ _ _ S) as Sg.
  pose proof (as_w _ _ _ _ _ S) as as_w0. pose proof (as_ok _ _ _ _ _ S) as as_ok0. pose proof (as_no _ _ _ _ _ S) as as_no0.
  assert (W : hq_w (fst (t_add hq X c start t)) = []) by (rewrite as_w0, Hw; reflexivity).
  destruct (Z.eq_dec (snd (t_add hq X c start t)) AQE_OK) as [E|E].
  - left. split; [exact E|]. destruct (as_ok0 E Hi) as (B1 & _). constructor; auto; congruence.
  - right. destruct (as_no0 (or_introl E)) as (B1 & _). splits; [exact E| |].
    + constructor; auto; try congruence. now rewrite app_nil_r.
    + intros P. pose proof (iv_wf A _ (proj1 Hg)) as (_ & _ & B).
      destruct (Z.eq_dec (n_of t) L) as [K|K]; [exact K|exfalso]. unfold n_of, tqueue in K.
      assert (Q := hcall_code c start (hq_h t) (proj1 Hg) Hc (proj2 Hg) ltac:(lia)).
      cbn [t_add hacc h_add snd] in P. unfold weather1 in P. rewrite Hw in P. lia.
Qed.
Lemma fair_adds start : forall l t, calm_t t -> Forall cmd_ok l ->
  let r := adds A EXT start l t in
  exists w, quiet_t t (fst r) w /\ (snd r = AQE_OK -> w = l) /\ (0 < snd r -> n_of (fst r) = L).
Proof.
  induction l as [|c l IH]; intros t Hc Hl; cbn [adds].
  - exists []. cbn [fst snd]. splits; auto; [now apply calm_quiet|unfold AQE_OK; lia].
  - inversion Hl as [|? ? H1 H2]; subst. destruct (fair_add c start t Hc H1) as [[E Q]|(E & Q & P)].
    + destruct (t_add hq X c start t) as [t1 code]. cbn [fst snd] in *. rewrite E, Z.eqb_refl.
      destruct (IH t1 (quiet_calm _ _ _ Q) H2) as (w & W1 & W2 & W3).
      exists ([c] ++ w). splits; auto; [eapply quiet_trans; eassumption|]. intros K. rewrite (W2 K). reflexivity.
    + destruct (t_add hq X c start t) as [t1 code]. cbn [fst snd] in *.
      destruct (Z.eqb_spec code AQE_OK); [contradiction|]. cbn [fst snd]. exists []. splits; auto; [congruence|].
      intros K. rewrite (quiet_n _ _ _ (proj1 Hc) Q). cbn [length]. rewrite (P K). lia.
Qed.
Lemma fair_pauses up : forall l t, calm_t t -> Forall (fun d => 0 <= d < 65536) l ->
  exists w, quiet_t t (add_pauses hq X up l t) w.
Proof.
  induction l as [|d l IH]; intros t Hc Hl; cbn [add_pauses].
  - exists []. now apply calm_quiet.
  - inversion Hl as [|? ? H1 H2]; subst.
    assert (Hk : cmd_ok (mkCommand d 0 up)) by (split; cbn; lia).
    assert (exists w, quiet_t t (fst (t_add hq X (mkCommand d 0 up) false t)) w) as (w & Q).
    { destruct (fair_add (mkCommand d 0 up) false t Hc Hk) as [[_ Q]|(_ & Q & _)]; eauto. }
    destruct (IH _ (quiet_calm _ _ _ Q) H2) as (w' & Q'). exists (w ++ w'). eapply quiet_trans; eassumption.
Qed.
Lemma fair_null start t : calm_t t -> let r := t_null hq X start t in snd r <= 0 /\ quiet_t t (fst r) [].
Proof.
  intros (Hg & Hw & Hi). destruct (null_ok A EXT HA start t Hg) as [N1 [N2 N3 N4 N5] N6 N7 N8 N9 N10].
  assert (EL : keeps (hq_h t) (hq_h (fst (t_null hq X start t)))).
  { cbn [t_null hacc h_null fst hq_h]. unfold weather1. rewrite Hw. cbn [fair w_i0 w_r1].
    change (isr A EXT [] (hq_h t)) with (hq_h t). cbn [hstep]. destruct (_ && _); [apply start_head_keeps|]; split; reflexivity. }
  destruct EL as [EL ED]. split.
  - cbn [t_null hacc h_null snd]. unfold weather1, q_add_null. rewrite Hw. cbn [fair w_r1 negb].
    destruct (_ && _); [destruct (_ =? _)|]; cbn; unfold AQE_OK, AQE_ERROR_EMPTY_QUEUE_TO_START; lia.
  - constructor; auto; try congruence; [rewrite N7, Hw; reflexivity|now rewrite app_nil_r].
Qed.

(** ** One call of addQueueEntry: src/FastAccelStepper.cpp:228-334 *)
Definition enabled_ok (ext : extcall) (s : stepper) : Prop := forall p, snd (enableOutputs ext s p) = true.
Lemma fair_s_add ext c start s t : calm_t t -> conf_ok s -> cmd_ok c -> enabled_ok ext s ->
  is_external (s_dirpin s) = false ->
  let r := s_add A hq X ext false c start s t in
  exists w, quiet_t t (snd (fst r)) w
    /\ (snd r = AQE_OK -> exists v, w = v ++ [c])
    /\ (0 < snd r -> n_of (snd (fst r)) = L)
    /\ s_plan (fst (fst r)) = s_plan s /\ s_dirpin (fst (fst r)) = s_dirpin s /\ s_rg (fst (fst r)) = s_rg s
    /\ conf_ok (fst (fst r)) /\ s_low (fst (fst r)) = s_low s /\ s_high (fst (fst r)) = s_high s.
Proof.
  intros Hc Hs Hk He Hx. unfold s_add.
  assert (FIRST : exists w, quiet_t t (fst (add_first hq X ext false c start s t)) w
    /\ snd (add_first hq X ext false c start s t) <= 0).
  { destruct (add_first_cases A EXT ext false c start s t) as [(N & E & NP)|[_ [[_ E]|[_ H]]]].
    - exists []. rewrite E. split; [now apply calm_quiet|].
      unfold add_first, pass in *. change (t_q hq X t) with (tqueue t) in *.
      destruct (Z.ltb_spec (c_ticks c) (q_max (tqueue t))); [cbn; unfold AQE_ERROR_TICKS_TOO_LOW; lia|].
      rewrite andb_false_r, andb_false_r in *. 
      destruct (Z.eqb_spec (s_dirpin s) PIN_UNDEFINED); cbn [andb] in *.
      + destruct (c_up c) eqn:U; cbn [negb] in *; [|cbn; unfold AQE_ERROR_NO_DIR_PIN_TO_TOGGLE; lia].
        exfalso. apply NP. splits; auto.
      + exfalso. apply NP. splits; auto; congruence.
    - exists []. rewrite E. split; [now apply calm_quiet|cbn; unfold AQE_OK; lia].
    - cbv zeta in H. set (en := enableOutputs ext s (hq_p t)) in *.
      assert (Q1 : quiet_t t (t_setpins hq X (fst en) t) []).
      { destruct Hc as (H1 & H2 & H3). constructor; auto. now rewrite app_nil_r. }
      destruct H as [[K _]|[(_ & _ & E)|(_ & K & E)]]; [unfold en in K; rewrite He in K; discriminate| |].
      + rewrite E. exists []. split; [exact Q1|cbn; unfold AQE_OK; lia].
      + rewrite E. destruct (pieces_range A EXT s c t Hs K) as (_ & F).
        set (d := on_delay hq X c s t) in *.
        destruct (fair_pauses (c_up c) (on_pieces (on_fuel d) d) _ (quiet_calm _ _ _ Q1) F) as (w & Q2).
        destruct (fair_null start _ (quiet_calm _ _ _ Q2)) as (E3 & Q3).
        exists (([] ++ w) ++ []). split; [|exact E3].
        eapply quiet_trans; [eapply quiet_trans; eassumption|exact Q3]. }
  destruct FIRST as (w1 & Q1 & P1).
  destruct (add_first hq X ext false c start s t) as [t1 code1]. cbn [fst snd] in *.
  destruct (Z.eqb_spec code1 AQE_OK) as [E1|E1]; cbn [negb].
  2:{ cbn [fst snd]. exists w1. splits; auto; try congruence; try apply Hs. lia. }
  rewrite add_second_eq.
  replace (no_room A c s t1) with false by (unfold no_room; rewrite Hx; destruct (Bool.eqb _ _); reflexivity).
  destruct (fair_adds start (pre_pauses A c s (up_of t1) ++ [c]) t1 (quiet_calm _ _ _ Q1)) as (w2 & Q2 & P2 & P3).
  { now apply pre_ok. }
  cbv zeta. set (r := adds A EXT start (pre_pauses A c s (up_of t1) ++ [c]) t1) in *. cbn [fst snd].
  exists (w1 ++ w2). split; [eapply quiet_trans; eassumption|].
  assert (F : forall code, s_plan (after_add code s) = s_plan s /\ s_dirpin (after_add code s) = s_dirpin s
    /\ s_rg (after_add code s) = s_rg s /\ conf_ok (after_add code s) /\ s_low (after_add code s) = s_low s
    /\ s_high (after_add code s) = s_high s).
  { intros code. unfold after_add. destruct (_ && _); splits; auto; apply Hs. }
  splits; auto; try apply F.
  intros K. exists (w1 ++ pre_pauses A c s (up_of t1)). rewrite (P2 K), app_assoc. reflexivity.
Qed.

(** ** The loop *)
Lemma cmd_ticks_dur c : cmd_ok c -> 0 <= cmd_ticks c <= cmd_dur c.
Proof.
  intros [H1 H2]. unfold cmd_ticks, cmd_dur. destruct (Z.leb_spec (c_steps c) 1).
  - replace (Z.max 1 (c_steps c)) with 1 by lia. lia.
  - replace (Z.max 1 (c_steps c)) with (c_steps c) by lia.
    assert (0 <= c_ticks c * c_steps c <= 65535 * 255) by nia.
    unfold u32. rewrite Z.mod_small by lia. lia.
Qed.
(** the ramp generator delivered no further command *)
Definition no_command (s : stepper) : Prop := exists qe old g g' n,
  rg_getNextCommand A qe old g = Some (g', n) /\ c_ticks (n_cmd n) = 0 /\ s_rg s = rg_afterCommandEnqueued n g'.
Definition planned (s : stepper) (t : hq) : Prop :=
  isRampGeneratorActive (s_rg s) = false \/ no_command s \/ n_of t = L
  \/ 2 <= n_of t /\ s_plan s <= total (pending t).
Lemma gnc_cmd_ok qe old g g' n : rg_getNextCommand A qe old g = Some (g', n) -> c_ticks (n_cmd n) <> 0 -> cmd_ok (n_cmd n).
Proof.
  unfold rg_getNextCommand. cbv zeta.
  set (b := rg_adjust_prus A (rg_take_parameters A g)). set (ro := rg_new_target _ _ _ _). clearbody b ro.
  destruct (ro_force_immediate ro); [intros E; injection E as _ <-; intros K; elim K; reflexivity|].
  cbn [with_ro rg_rw]. destruct (getNextCommand_ A ro (rg_rw b) qe old) as [m|] eqn:E; [|discriminate].
  intros H Hn. injection H as _ <-. revert E Hn. unfold getNextCommand_, gnc_pause.
  destruct (rw_pause_left (rg_rw b) >? 0).
  { intros E _. injection E as <-. split; cbn [n_cmd c_ticks c_steps]; [|lia].
    match goal with |- context [u16 ?x] => pose proof (u16_range x) end. lia. }
  destruct (gnc_delta ro qe) as [[need R]|]; [|discriminate]. cbv zeta.
  destruct (_ && _); [intros E K; injection E as <-; elim K; reflexivity|].
  destruct (gnc_planning A _) as [orig|]; [|discriminate].
  destruct (gnc_choose _ _ _ _ _ _ _) as [[s R'] pl].
  destruct (R' =? 0); [intros E K; injection E as <-; elim K; reflexivity|].
  destruct (gnc_new_ticks _ _ _ _ _ _ _ _) as [d pl'].
  destruct (gnc_min_cmd _ _ _ _ _ _) as [[[s' d'] pl'']|]; [|discriminate].
  destruct (gnc_split _ _ _) as [[steps t] pause]. destruct (gnc_prus _ _ _ _ _ _) as [P' t'].
  intros E _. injection E as <-. split; cbn [n_cmd c_ticks c_steps].
  - pose proof (u16_range t'). lia.
  - pose proof (u8_range steps). lia.
Qed.
Lemma fair_loop ext delayed : forall fuel old prepared need s t s' t' need',
  calm_t t -> conf_ok s -> enabled_ok ext s -> is_external (s_dirpin s) = false ->
  0 <= prepared <= total (pending t) -> L - n_of t < Z.of_nat fuel ->
  fill_loop A hq X ext (fun _ => false) delayed fuel old prepared need s t = Some (s', t', need') ->
  planned s' t' /\ calm_t t'.
Proof.
  induction fuel as [|fuel IH]; intros old prepared need s t s' t' need' Hc Hs He Hx Hp Hf; cbn [fill_loop].
  - pose proof (iv_wf A _ (proj1 (proj1 Hc))) as (_ & _ & B). unfold n_of, tqueue in Hf. lia.
  - change (t_q hq X t) with (tqueue t). destruct (fill_more A s (tqueue t) prepared) eqn:EM.
    + destruct (rg_getNextCommand A (q_end (tqueue t)) old (s_rg s)) as [[g nc]|] eqn:EG; [|discriminate].
      destruct (Z.eqb_spec (c_ticks (n_cmd nc)) 0) as [Z0|Z0].
      { intros H. injection H as <- <- <-. split; [|exact Hc]. right. left. unfold no_command.
        exists (q_end (tqueue t)), old, (s_rg s), g, nc. auto. }
      assert (Hk := gnc_cmd_ok _ _ _ _ _ EG Z0).
      destruct (fair_s_add ext (n_cmd nc) (negb delayed) (st_rg g s) t Hc Hs Hk He Hx)
        as (w & Q & P1 & P2 & P3 & P4 & P5 & P6 & P7 & P8).
      destruct (s_add A hq X ext false (n_cmd nc) (negb delayed) (st_rg g s) t) as [[s1 t1] code] eqn:EA.
      cbn [fst snd] in *.
      destruct (Z.eqb_spec code AQE_OK) as [EC|EC].
      * destruct (P1 EC) as (v & ->). intros H.
        assert (N : n_of t1 = n_of t + Z.of_nat (length (v ++ [n_cmd nc]))) by (apply quiet_n; [apply Hc|exact Q]).
        rewrite app_length in N. cbn [length] in N.
        refine (IH _ _ _ _ _ _ _ _ _ _ _ _ _ _ H); auto.
        -- eapply quiet_calm; eassumption.
        -- cbn [st_rg s_dirpin]. unfold enabled_ok, enableOutputs in *. cbn [st_rg s_low s_high] in *.
           rewrite P7, P8. exact He.
        -- cbn [st_rg s_dirpin]. rewrite P4. exact Hx.
        -- rewrite (quiet_pending _ _ _ (proj1 Hc) Q), !total_app.
           pose proof (cmd_ticks_dur _ Hk). pose proof (qt_ok _ _ _ Q) as O. apply Forall_app in O as [O _].
           pose proof (total_pos v O). unfold total at 3. cbn [map fold_right].
           unfold u32. pose proof (Z.mod_pos_bound (prepared + cmd_ticks (n_cmd nc)) 4294967296 ltac:(lia)).
           pose proof (Z.mod_le (prepared + cmd_ticks (n_cmd nc)) 4294967296 ltac:(lia) ltac:(lia)). lia.
        -- lia.
      * destruct (Z.gtb_spec code 0); intros HH; injection HH as <- <- <-.
        -- split; [|eapply quiet_calm; eassumption]. right. right. left. auto.
        -- split; [|eapply quiet_calm; eassumption]. left. reflexivity.
    + intros H. injection H as <- <- <-. split; [|exact Hc].
      unfold fill_more in EM. apply andb_false_iff in EM as [EM|EM]; [|left; exact EM].
      apply andb_false_iff in EM as [EM|EM].
      * right. right. left. apply negb_false_iff in EM. unfold isQueueFull in EM. apply Z.eqb_eq in EM. exact EM.
      * apply orb_false_iff in EM as [E1 E2]. right. right. right.
        apply Z.ltb_ge in E1. apply Z.leb_gt in E2. unfold n_of. lia.
Qed.
Lemma fair_pass ext fuel old s t s' t' : good A t -> hq_w t = [] -> conf_ok s -> enabled_ok ext s ->
  is_external (s_dirpin s) = false -> checkValidConfig (rg_params (s_rg s)) = MOVE_OK ->
  L < Z.of_nat fuel ->
  fill_queue A hq X ext (fun _ => false) fuel old s t = Some (s', t') -> planned s' t'.
Proof.
  intros Hg Hw Hs He Hx Hv Hf. unfold fill_queue.
  destruct (isRampGeneratorActive (s_rg s)) eqn:EA; cbn [negb].
  2:{ intros H. injection H as <- <-. left. exact EA. }
  rewrite Hv. cbv zeta. change (negb (MOVE_OK =? MOVE_OK)) with false. cbv iota.
  set (t0 := t_ignore hq X false t).
  assert (C0 : calm_t t0).
  { split; [|split; [exact Hw|reflexivity]]. split; [|apply Hg].
    change (hq_h t0) with (step (EIgnore false) (hq_h t)). apply inv_step; auto; [apply Hg|exact I]. }
  change (t_q hq X t0) with (tqueue t0).
  pose proof (iv_wf A _ (proj1 (proj1 C0))) as (_ & _ & B). fold (tqueue t0) in B.
  pose proof (entries_range (tqueue t0)) as R0.
  destruct (fill_loop A hq X ext (fun _ => false) _ fuel old _ false s t0) as [[[s1 t1] need]|] eqn:EL; [|discriminate].
  apply fair_loop in EL; auto.
  - destruct EL as [P C1]. intros H. injection H as <- <-. destruct need; [|exact P].
    destruct (fair_null true t1 C1) as [_ Q]. 
    pose proof (quiet_n _ _ _ (proj1 C1) Q) as E1. pose proof (quiet_pending _ _ _ (proj1 C1) Q) as E2.
    cbn [length] in E1. rewrite Z.add_0_r in E1. rewrite app_nil_r in E2. unfold planned in *.
    rewrite <- E1, <- E2 in P. exact P.
  - destruct (ticks_lemma A HA (hq_h t0) (proj1 (proj1 C0))) as [T _]. unfold tqueue. rewrite T.
    fold (tqueue t0). assert (O := pending_ok t0 (proj1 C0)).
    replace (tl (pend_cmds (h_done (hq_h t0)) (pend A (tqueue t0)))) with (tl (pending t0))
      by (unfold pending; destruct (pend A (tqueue t0)); reflexivity).
    change (fold_right Z.add 0 (map cmd_dur (tl (pending t0)))) with (total (tl (pending t0))).
    destruct (pending t0) as [|c l]; cbn [tl]; [cbn; lia|]. inversion O as [|? ? O1 O2]; subst.
    pose proof (total_pos l O2). pose proof (total_pos [c] (Forall_cons c O1 (Forall_nil _))).
    change (c :: l) with ([c] ++ l). rewrite total_app. lia.
  - unfold n_of. lia.
Qed.
End WithArch.

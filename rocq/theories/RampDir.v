(** * RampDir: the direction of the pauses in a move
    In a move from standstill all commands, also the pauses, have the direction of the move. *)
From Coq Require Import ZArith Bool List Lia ZifyBool.
From Verif Require Import Base Pmf PmfFacts RampCalc RampCalcFacts RampLinear RampGen RampStep
  RampRun RampMove RampSafe RampAcc RampUser.
Import ListNotations.
Open Scope Z_scope.
Ltac Zify.zify_post_hook ::= idtac.

Section WithArch.
Variable A : arch.
Hypothesis HA : In A all_archs.

(** ** One call *)
Lemma split_some d R pl steps t pause : gnc_split d R pl = (steps, t, pause) -> 1 <= steps <= 255.
Proof.
  unfold gnc_split. rewrite !fas_min_spec, fas_max_spec.
  destruct (Z.gtb_spec d 65535) as [K|K]; intros E; injection E as <- _ _; lia.
Qed.
Lemma zero_steps ro rw qe old n : getNextCommand_ A ro rw qe old = Some n -> c_ticks (n_cmd n) <> 0 ->
  c_steps (n_cmd n) = 0 -> gnc_pause rw qe = Some n.
Proof.
  unfold getNextCommand_. destruct (gnc_pause rw qe) as [m|]; [auto|].
  destruct (gnc_delta ro qe) as [[need R]|]; [|discriminate].
  destruct ((R =? 0) && (rw_prus rw <=? 1)); [intros E; injection E as <-; intros K; now contradiction K|].
  destruct (gnc_planning A (rw_curr_ticks rw)) as [orig|]; [|discriminate].
  destruct (gnc_choose _ _ _ _ _ _ _) as [[s R'] pl].
  destruct (R' =? 0); [intros E; injection E as <-; intros K; now contradiction K|].
  destruct (gnc_new_ticks _ _ _ _ _ _ _ _) as [d pl']. destruct (gnc_min_cmd _ _ _ _ _ _) as [[[s' d'] pl2]|]; [|discriminate].
  destruct (gnc_split _ _ _) as [[steps t] pause] eqn:ES. apply split_some in ES.
  destruct (gnc_prus _ _ _ _ _ _) as [P' nx]. intros E; injection E as <-. cbn [n_cmd c_ticks c_steps]. intros _ K.
  unfold u8 in K. rewrite Z.mod_small in K; lia.
Qed.
Lemma pause_dir rw qe n : gnc_pause rw qe = Some n -> rw_pause_left rw <> 0 /\ c_up (n_cmd n) = qe_up qe.
Proof.
  unfold gnc_pause. destruct (Z.gtb_spec (rw_pause_left rw) 0); [|discriminate]. intros E. injection E as <-. split; [lia|reflexivity].
Qed.

(** ** A run *)
Definition one_way (up : bool) (c : command) : Prop := c_up c = up.
Definition dir_spec (rw : ramp_rw) (qe : queue_end) (cs : list command) : Prop := forall up,
  Forall (moves_only up) cs -> (rw_pause_left rw <> 0 -> qe_up qe = up) -> Forall (one_way up) cs.
Lemma dir_cons ro rw qe old n cs : getNextCommand_ A ro rw qe old = Some n -> c_ticks (n_cmd n) <> 0 ->
  dir_spec (n_rw n) (enqueue (n_cmd n) qe) cs -> dir_spec rw qe (n_cmd n :: cs).
Proof.
  intros G Ht H up Hm Hq. inversion Hm as [|? ? M1 M2]; subst.
  assert (U : c_up (n_cmd n) = up).
  { destruct (Z.eq_dec (c_steps (n_cmd n)) 0) as [K|K]; [|exact (M1 K)].
    destruct (pause_dir _ _ _ (zero_steps _ _ _ _ _ G Ht K)) as [K1 K2]. rewrite K2. auto. }
  constructor; [exact U|]. apply H; [exact M2|]. intros _. exact U.
Qed.
Lemma dir_prepared_step qe g old B :
  let g1 := rg_prepare A qe g in
  norm g1 -> sinv (rg_ro g1) (rg_rw g1) qe B -> cfg_ok A (ro_config (rg_ro g1)) B -> acc A (rg_ro g1) (rg_rw g1) ->
  exists cs g2 qe2, ramp_step A false old g qe = Some (cs, g2, qe2) /\
    rg_ro g2 = rg_ro g1 /\ norm g2 /\
    (isRampGeneratorActive g2 = false /\ cs = [] \/
     sinv (rg_ro g2) (rg_rw g2) qe2 B /\ acc A (rg_ro g2) (rg_rw g2) /\
     smeas (rg_ro g2) (rg_rw g2) qe2 < smeas (rg_ro g1) (rg_rw g1) qe /\
     rw_curr_ticks (rg_rw g2) <> TICKS_FOR_STOPPED_MOTOR /\
     (forall cs', dir_spec (rg_rw g2) qe2 cs' -> dir_spec (rg_rw g1) qe (cs ++ cs'))).
Proof.
  intros g1 Hn Hi Hc Hsf.
  destruct (prepared_step A HA qe g old B Hn Hi Hc (acc_period_ok A HA _ _ Hsf))
    as (cs & g2 & qe2 & Hs & Hro & Hn2 & Hcase). fold g1 in Hro, Hcase.
  assert (Hs' := Hs). unfold ramp_step in Hs'. rewrite getNext_prepare in Hs' by (apply Hn).
  fold g1 in Hs'.
  destruct (getNextCommand_ A (rg_ro g1) (rg_rw g1) qe old) as [n|] eqn:EG; [|discriminate].
  destruct Hcase as [(Hact & Hd & -> & -> & Hp)|(c & -> & -> & Hi2 & Hm & HC2 & Hu2)].
  - exists [], g2, qe. split; [exact Hs|]. split; [exact Hro|]. split; [exact Hn2|]. left. auto.
  - destruct (Z.eqb_spec (c_ticks (n_cmd n)) 0) as [|Nt]; [discriminate|].
    cbn [andb] in Hs'. injection Hs' as <- <- .
    destruct (RampAcc.acc_step A HA _ _ _ _ _ _ Hi Hc Hsf EG Nt) as (Q1 & _).
    eexists _, _, _. split; [exact Hs|].
    split; [reflexivity|]. split; [exact Hn|]. right.
    split; [exact Hi2|]. split; [exact Q1|]. split; [exact Hm|]. split; [exact HC2|].
    intros cs' Hcs. cbn [app]. eapply dir_cons; eassumption.
Qed.
Lemma run_dir : forall k g qe olds B,
  smeas (rg_ro g) (rg_rw g) qe <= k ->
  norm g -> rw_curr_ticks (rg_rw g) <> TICKS_FOR_STOPPED_MOTOR ->
  sinv (rg_ro g) (rg_rw g) qe B -> cfg_ok A (ro_config (rg_ro g)) B ->
  acc A (rg_ro g) (rg_rw g) ->
  ends_at A false olds g qe (fun cs _ _ => dir_spec (rg_rw g) qe cs).
Proof.
  intros k. induction k as [k IH] using (well_founded_induction (Zwf.Zwf_well_founded (-1))).
  intros g qe olds B Hk Hn HC Hi Hc Hsf.
  pose proof (prepare_norm A qe g Hn HC) as E.
  destruct (dir_prepared_step qe g (olds O) B) as (cs & g2 & qe2 & Hs & Hro & Hn2 & Hcase);
    rewrite ?E; try assumption.
  rewrite E in Hcase, Hro.
  eapply ends_step; [apply active_not_idle, Hi|exact Hs|].
  destruct Hcase as [(Hact & ->)|(Hi2 & Hsf2 & Hm & HC2 & HQ)].
  - apply ends_idle; [assumption|]. intros up _ _. constructor.
  - pose proof (smeas_pos _ _ _ _ Hi2) as Hp. pose proof (smeas_pos _ _ _ _ Hi) as Hp0.
    apply (ends_weaken A false _ _ _ (fun cs _ _ => dir_spec (rg_rw g2) qe2 cs)); [intros cs' _ _; apply HQ|].
    apply (IH (smeas (rg_ro g2) (rg_rw g2) qe2)) with (B := B); try assumption; try lia.
    + unfold Zwf.Zwf. lia.
    + rewrite Hro. exact Hc.
Qed.
Lemma run_dir_prepared g qe olds B :
  let g1 := rg_prepare A qe g in
  norm g1 -> sinv (rg_ro g1) (rg_rw g1) qe B -> cfg_ok A (ro_config (rg_ro g1)) B -> acc A (rg_ro g1) (rg_rw g1) ->
  ends_at A false olds g qe (fun cs _ _ => dir_spec (rg_rw g1) qe cs).
Proof.
  intros g1 Hn Hi Hc Hsf.
  destruct (dir_prepared_step qe g (olds O) B Hn Hi Hc Hsf) as (cs & g2 & qe2 & Hs & Hro & Hn2 & Hcase).
  fold g1 in Hro, Hcase.
  eapply ends_step; [apply active_not_idle; rewrite <- (prepared_active A qe); apply Hi|exact Hs|].
  destruct Hcase as [(Hact & ->)|(Hi2 & Hsf2 & Hm & HC2 & HQ)].
  - apply ends_idle; [assumption|]. intros up _ _. constructor.
  - apply (ends_weaken A false _ _ _ (fun cs _ _ => dir_spec (rg_rw g2) qe2 cs)); [intros cs' _ _; apply HQ|].
    eapply run_dir; try eassumption; rewrite ?Hro; try eassumption; apply Z.le_refl.
Qed.

(** ** A move from standstill *)
Definition all_one_way (cs : list command) : Prop := forall up, Forall (moves_only up) cs -> Forall (one_way up) cs.
Lemma standstill_dir g qe olds a :
  let p := rg_params g in
  let ro := rg_ro g in
  let rw := rg_rw g in
  let t := target_of p (keep_running (parameters (ro_config ro))) (ro_target_pos ro) (qe_pos qe) in
  let d := i32 (t - qe_pos qe) in
  let M := min_travel_ticks p in
  apply p = true -> any_change p = true -> keep_running p = false ->
  ro_force_stop ro = false -> ro_force_immediate ro = false ->
  s_jump p = 0 -> 0 <= s_h p < 4294967294 -> pmfl_accel p = pmfl_from_u32 a -> 1 <= a < 2147483648 ->
  MIN_CMD_TICKS A <= M <= 1073741824 ->
  isRampGeneratorActive g = true ->
  rw_curr_ticks rw = TICKS_FOR_STOPPED_MOTOR -> rw_pause_left rw = 0 ->
  Z.abs d < 1073741824 ->
  a * Z.max (Z.abs d) 42000 <= 100000000000000 ->
  ends_at A false olds g qe (fun cs _ _ => all_one_way cs).
Proof.
  intros p ro rw t d M H1 H2 H3 H4 H5 H6 H7 H8 HaR HM Hact HC Hp HB Hab.
  pose proof (min_cmd_bounds A HA) as HN.
  destruct (prepare_pending A qe g H1 H2 H3 H4 H5 (fun _ => H6)) as
    (N & E1 & E2 & E3 & E4 & E5 & E6 & E7).
  set (c := update A (set_parameters p (ro_config ro))) in *.
  assert (EP : start_prus A p c rw = 0) by (unfold start_prus; rewrite HC, Z.eqb_refl; exact H6).
  fold p in E1, E2, E3, E5, E6, E7. fold ro in E5, E6, E7. fold rw in E7. fold c in E5, E7. rewrite EP in E7.
  fold t in E6. fold M in E1. rewrite HC, Hp in E7.
  assert (I : sinv (rg_ro (rg_prepare A qe g)) (rg_rw (rg_prepare A qe g)) qe (Z.abs d + 0)).
  { split; rewrite ?E4, ?E6, ?E7; cbn [rw_prus rw_pause_left rw_curr_ticks rw_state]; fold d; unfold TICKS_FOR_STOPPED_MOTOR; try lia.
    unfold isRampGeneratorActive in Hact. fold rw in Hact. intros K. rewrite K in Hact. discriminate. }
  assert (K : cfg_ok A (ro_config (rg_ro (rg_prepare A qe g))) (Z.abs d + 0)).
  { apply cfg_ok_derived with (a := a); rewrite ?E1, ?E2, ?E3, ?Z.add_0_r; try assumption; try lia.
    { apply prepare_derived; fold p; try assumption; [|congruence]. intros _. rewrite H8. pose proof (accel_log_range a HaR). auto. }
    rewrite E5. pose proof (update_X A (set_parameters p (ro_config ro))). fold c in H. lia. }
  assert (S : acc A (rg_ro (rg_prepare A qe g)) (rg_rw (rg_prepare A qe g))).
  { split; rewrite ?E1, ?E6, ?E7; cbn [rw_prus rw_pause_left rw_curr_ticks]; unfold TICKS_FOR_STOPPED_MOTOR; try lia. }
  apply (ends_weaken A false olds g qe (fun cs _ _ => dir_spec (rg_rw (rg_prepare A qe g)) qe cs)); [|exact (run_dir_prepared g qe olds (Z.abs d + 0) N I K S)].
  intros cs g2 qe2 HE up Hm. apply HE; [exact Hm|]. rewrite E7. cbn [rw_pause_left]. congruence.
Qed.

Section Start.
Variables (g : rampgen) (qe : queue_end) (olds : nat -> next_command).
Variables (a M v : Z) (abs changed : bool).
Hypothesis Hcfg : configured g a M.
Hypothesis Hsane : sane g.
Hypothesis Hna : isRampGeneratorActive g = false.
Hypothesis Hidle : rw_pause_left (rg_rw g) = 0.
Hypothesis Hch : changed = true.
Hypothesis Ha : 1 <= a < 2147483648.
Hypothesis HM : MIN_CMD_TICKS A <= M <= 1073741824.
Let p := set_apply true (set_any_change true (set_keep false true (set_move v abs (rg_params g)))).
Let g' := rg_startMove changed (with_params p g).
Let t := target_of p (rg_isRunningContinuously g) (ro_target_pos (rg_ro g)) (qe_pos qe).
Let d := i32 (t - qe_pos qe).
Hypothesis HB : Z.abs d < 1073741824.
Hypothesis Hab : a * Z.max (Z.abs d) 42000 <= 100000000000000.
Lemma pending_dir : ends_at A false olds g' qe (fun cs _ _ => all_one_way cs).
Proof.
  destruct (start_curr changed g (or_intror Hch)) as (E1 & E2 & E3 & E4). cbv zeta in E1, E2, E3, E4.
  destruct Hcfg as (C1 & C3 & C2 & C4 & C5). destruct Hsane as (S1 & S2 & S3 & S4 & S5).
  assert (Et : target_of (rg_params g') (keep_running (parameters (ro_config (rg_ro g'))))
                 (ro_target_pos (rg_ro g')) (qe_pos qe) = t).
  { unfold g'. rewrite started_params, started_ro. reflexivity. }
  assert (EM : min_travel_ticks (rg_params g') = M).
  { unfold g'. rewrite started_params. exact C2. }
  apply standstill_dir with (a := a); rewrite ?Et, ?EM; fold d; try assumption;
    unfold g', isRampGeneratorActive; rewrite ?started_params, ?started_ro, ?started_rw;
    cbn [rg_params with_params rg_rw rg_ro set_force_stop ro_config ro_force_stop ro_force_immediate];
    rewrite ?E1, ?E2, ?E3, ?E4; try assumption; try reflexivity.
  unfold period. rewrite Hna. reflexivity.
Qed.
End Start.

Section Calls.
Variables (g : rampgen) (qe : queue_end) (olds : nat -> next_command) (a M : Z).
Hypothesis Hcfg : configured g a M.
Hypothesis Hsane : sane g.
Hypothesis Hna : isRampGeneratorActive g = false.
Hypothesis Hidle : rw_pause_left (rg_rw g) = 0.
Hypothesis Ha : 1 <= a < 2147483648.
Hypothesis HM : MIN_CMD_TICKS A <= M <= 1073741824.
Lemma moveTo_dir pos g' r : -2147483648 <= pos < 2147483648 ->
  Z.abs (i32 (pos - qe_pos qe)) < 1073741824 -> a * Z.max (Z.abs (i32 (pos - qe_pos qe))) 42000 <= 100000000000000 ->
  rg_moveTo pos qe g = (g', r) -> ends_at A false olds g' qe (fun cs _ _ => all_one_way cs).
Proof.
  intros Hp HB Hab E. destruct (moveTo_shape g qe a M pos Hcfg (fun _ => Hidle)) as (ch & E2 & H). rewrite E in E2. injection E2 as -> _.
  destruct (moveTo_target A g qe pos Hp) as (T1 & T2).
  destruct H as [H|[H|(H1 & H2 & H3)]]; [congruence| |].
  - apply pending_dir with (a := a) (M := M); try assumption; unfold target_of;
      cbn [move_absolute move_value set_apply set_any_change set_keep set_move]; rewrite T2; assumption.
  - apply ends_idle; [rewrite H1; exact H2|]. intros up _. constructor.
Qed.
Lemma move_dir delta g' r : delta <> 0 ->
  let d := i32 (i32 (base_target g qe + pending_move g + delta) - qe_pos qe) in
  Z.abs d < 1073741824 -> a * Z.max (Z.abs d) 42000 <= 100000000000000 ->
  rg_move delta g = (g', r) -> ends_at A false olds g' qe (fun cs _ _ => all_one_way cs).
Proof.
  intros H0 d HB Hab E. destruct (move_shape g a M delta Hcfg (or_intror H0)) as (ch & E2 & H). rewrite E in E2. injection E2 as -> _.
  destruct (move_target g qe delta _ eq_refl) as (T1 & T2). fold d in T2.
  destruct H as [H|H]; [congruence|].
  apply pending_dir with (a := a) (M := M); try assumption; unfold target_of;
      cbn [move_absolute move_value set_apply set_any_change set_keep set_move]; rewrite T2; assumption.
Qed.
End Calls.
End WithArch.

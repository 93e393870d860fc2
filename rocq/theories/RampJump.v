(** * RampJump: moves from standstill with a jump start *)
From Coq Require Import ZArith Bool List Lia ZifyBool Reals.
From Verif Require Import Base Pmf PmfFacts RampCalc RampCalcFacts RampLinear RampGen RampStep RampRun RampMove
  RampPlan RampSafe RampUser.
Import ListNotations.
Open Scope Z_scope.
Ltac Zify.zify_post_hook ::= idtac.

Section WithArch.
Variable A : arch.
Variable strict : bool.
Hypothesis HA : In A all_archs.

(** The configuration has been set with setAcceleration(a), setSpeedInTicks(M) and
    setJumpStart(j), and any setLinearAcceleration(). *)
Definition configured_jump (g : rampgen) (a M j : Z) : Prop :=
  checkValidConfig (rg_params g) = MOVE_OK /\
  pmfl_accel (rg_params g) = pmfl_from_u32 a /\ min_travel_ticks (rg_params g) = M /\
  s_jump (rg_params g) = j /\ 0 <= s_h (rg_params g) < 4294967294.

(** the ramp step, at which the motor starts: [j], but not beyond the configured speed *)
Definition start_step (g : rampgen) : Z :=
  jump A (update A (set_parameters (rg_params g) (ro_config (rg_ro g)))).
(** period of the constant acceleration ramp at step [s] *)
Definition ramp_period (g : rampgen) (s : Z) : Z :=
  calculate_ticks A (update A (set_parameters (rg_params g) (ro_config (rg_ro g)))) s.

(** ** the first command *)
Lemma core_jump c P R :
  let M := min_travel_ticks (parameters c) in
  let d := fas_max M (calculate_ticks A c (P + 1)) in
  MIN_CMD_TICKS A <= M <= 1073741824 -> 1 <= P -> P < R -> P + R < 1073741824 ->
  core A c TICKS_FOR_STOPPED_MOTOR P R true =
  Some (mkOut ACC 1 (if d >? 65535 then fas_min (Z.shiftr d 1) 65535 else d)
    (if d >? 65535 then d - fas_min (Z.shiftr d 1) 65535 else 0) (P + 1)).
Proof.
  intros M d HM HP HR HB. pose proof (min_cmd_bounds A HA) as HN.
  unfold core, gnc_planning.
  assert (ET : (TICKS_FOR_STOPPED_MOTOR <? TICKS_PER_S A / 1000) = false).
  { clear - HA. revert A HA. apply arch_cases; reflexivity. }
  rewrite ET. fold M. unfold gnc_choose. cbn [negb].
  destruct (Z.eqb_spec R P); [lia|]. destruct (Z.ltb_spec R P); [lia|].
  destruct (Z.ltb_spec M TICKS_FOR_STOPPED_MOTOR); [|unfold TICKS_FOR_STOPPED_MOTOR in *; lia].
  destruct (Z.ltb_spec TICKS_FOR_STOPPED_MOTOR (2 * MIN_CMD_TICKS A)) as [L|L].
  { exfalso. unfold TICKS_FOR_STOPPED_MOTOR in L. lia. }
  rewrite Z.eqb_refl. cbn [negb].
  assert (E : (if R - P <? 2 * 1 then (ACC, R, 1) else (ACC, R, 1)) = (ACC, R, 1)) by (destruct (R - P <? 2 * 1); reflexivity).
  rewrite E. clear E. cbv beta iota. unfold gnc_new_ticks. cbn [accelerating]. fold M.
  assert (EP : u32 (R - P) = R - P) by (apply u32_id; lia). rewrite EP.
  assert (Epl : (if R - P <? 512 then if (R - P) / 2 <? 1 then if (R - P) / 2 =? 0 then 1 else (R - P) / 2 else 1 else 1) = 1).
  { destruct (R - P <? 512); [|reflexivity]. destruct (Z.ltb_spec ((R - P) / 2) 1); [|reflexivity].
    pose proof (Z.div_pos (R - P) 2 ltac:(lia) ltac:(lia)).
    destruct (Z.eqb_spec ((R - P) / 2) 0); [reflexivity|lia]. }
  rewrite Epl. rewrite (u32_id (P + 1)) by lia. fold d.
  assert (Hd : MIN_CMD_TICKS A <= d) by (unfold d; pose proof (fas_max_spec M (calculate_ticks A c (P + 1))); lia).
  unfold gnc_min_cmd. destruct (Z.ltb_spec d (MIN_CMD_TICKS A)); [lia|]. cbn [andb].
  unfold gnc_clip. rewrite Z.eqb_refl. cbn [negb]. unfold gnc_split.
  assert (Es : fas_min 255 (fas_max (u16 (fas_min 1 R)) 1) = 1).
  { pose proof (fas_min_spec 1 R). replace (fas_min 1 R) with 1 by lia. reflexivity. }
  rewrite Es. destruct (Z.gtb_spec d 65535); unfold gnc_prus; cbn [accelerating];
    rewrite (u32_id (P + 1)) by lia; reflexivity.
Qed.

(** ** pending parameters at standstill *)
Lemma prepare_jump qe g :
  let p := rg_params g in
  let ro := rg_ro g in
  let rw := rg_rw g in
  apply p = true -> any_change p = true -> keep_running p = false ->
  ro_force_stop ro = false -> ro_force_immediate ro = false ->
  rw_curr_ticks rw = TICKS_FOR_STOPPED_MOTOR ->
  let g1 := rg_prepare A qe g in
  let c1 := ro_config (rg_ro g1) in
  norm g1 /\
  min_travel_ticks (parameters c1) = min_travel_ticks p /\
  s_h (parameters c1) = s_h p /\ pmfl_accel (parameters c1) = pmfl_accel p /\
  keep_running (parameters c1) = false /\
  max_ramp_up_steps c1 = max_ramp_up_steps (update A (set_parameters p (ro_config ro))) /\
  (forall s, calculate_ticks A c1 s = ramp_period g s) /\
  ro_target_pos (rg_ro g1) =
    target_of p (keep_running (parameters (ro_config ro))) (ro_target_pos ro) (qe_pos qe) /\
  rg_rw g1 = mkRw (rw_state rw) (start_step g) (rw_pause_left rw) (rw_curr_ticks rw).
Proof.
  intros p ro rw H1 H2 H3 H4 H5 EC g1 c1. subst g1 c1. unfold rg_prepare.
  unfold rg_take_parameters. fold p. rewrite H1. fold ro.
  cbn [ro_force_immediate set_config]. rewrite H5.
  unfold start_step, jump, ramp_period. fold p ro.
  set (c0 := update A (set_parameters p (ro_config ro))).
  assert (Ep : parameters c0 = p) by (unfold c0; rewrite update_parameters; reflexivity).
  clearbody c0. destruct c0 as [p0 X th cu]. cbn [parameters] in Ep. subst p0.
  unfold rg_adjust_prus. cbn [rg_rw]. fold rw. clearbody p ro rw. rewrite EC, Z.eqb_refl.
  destruct ro as [c t fs fi]. destruct p as [mv mt sh sj pa ap ac rc va vs ma kr kc].
  cbn in H1, H2, H3, H4, H5. subst ap ac kr fs fi.
  cbn [rg_ro rg_rw rg_params set_config ro_config parameters s_jump min_travel_ticks].
  unfold target_of, norm. cbn [move_absolute move_value].
  destruct ma; cbn -[calculate_ramp_steps calculate_ticks]; repeat split; auto.
Qed.

(** ** the run *)
Section Run.
Variables (g : rampgen) (qe : queue_end) (olds : nat -> next_command) (a : Z).
Let p := rg_params g.
Let ro := rg_ro g.
Let rw := rg_rw g.
Let J := start_step g.
Let t := target_of p (keep_running (parameters (ro_config ro))) (ro_target_pos ro) (qe_pos qe).
Let d := i32 (t - qe_pos qe).
Let M := min_travel_ticks p.
Hypothesis H1 : apply p = true.
Hypothesis H2 : any_change p = true.
Hypothesis H3 : keep_running p = false.
Hypothesis H4 : ro_force_stop ro = false.
Hypothesis H5 : ro_force_immediate ro = false.
Hypothesis H7 : 0 <= s_h p < 4294967294.
Hypothesis H8 : pmfl_accel p = pmfl_from_u32 a.
Hypothesis HaR : 1 <= a < 2147483648.
Hypothesis Hact : isRampGeneratorActive g = true.
Hypothesis HC : rw_curr_ticks rw = TICKS_FOR_STOPPED_MOTOR.
Hypothesis Hp : rw_pause_left rw = 0.
Hypothesis Hq : -2147483648 <= qe_pos qe < 2147483648.
Hypothesis HM : 2 <= M <= 1073741824.
Hypothesis HB : Z.abs d + J < 1073741824.
Hypothesis Hab : a * Z.max (Z.abs d + J) 42000 <= 100000000000000.
Hypothesis HJ : 0 <= J.

Let g1 := rg_prepare A qe g.

Lemma jump_facts : norm g1 /\ sinv (rg_ro g1) (rg_rw g1) qe (Z.abs d + J) /\
  cfg_ok A (ro_config (rg_ro g1)) (Z.abs d + J) /\ ro_target_pos (rg_ro g1) = t /\
  min_travel_ticks (parameters (ro_config (rg_ro g1))) = M /\
  (forall s, calculate_ticks A (ro_config (rg_ro g1)) s = ramp_period g s) /\
  rg_rw g1 = mkRw (rw_state rw) J 0 TICKS_FOR_STOPPED_MOTOR.
Proof.
  destruct (prepare_jump qe g H1 H2 H3 H4 H5 HC) as (N & E1 & E2 & E3 & E4 & E5 & E6 & E7 & E8).
  fold p in E1, E2, E3, E5, E7. fold ro in E5, E7. fold rw in E8. fold t in E7. fold M in E1. fold J in E8.
  fold g1 in N, E1, E2, E3, E4, E5, E6, E7, E8.
  rewrite Hp, HC in E8.
  assert (Hc : 0 <= max_ramp_up_steps (ro_config (rg_ro g1)) < 4294967296).
  { rewrite E5. pose proof (update_X A (set_parameters p (ro_config ro))) as K. clear - K. lia. }
  split; [exact N|]. split; [|split; [|split; [exact E7|split; [exact E1|split; [exact E6|exact E8]]]]].
  - split; rewrite ?E4, ?E7, ?E8; cbn [rw_prus rw_pause_left rw_curr_ticks rw_state]; fold d;
      try reflexivity; try (unfold TICKS_FOR_STOPPED_MOTOR; clear - HB HJ; lia); try assumption.
    unfold isRampGeneratorActive in Hact. fold rw in Hact. intros K. rewrite K in Hact. discriminate.
  - apply cfg_ok_derived with (a := a); rewrite ?E1, ?E2, ?E3; try assumption.
    apply prepare_derived; fold p; try assumption; [|congruence]. intros _. rewrite H8. pose proof (accel_log_range a HaR). auto.
Qed.

Lemma jump_target_range : t = u32 (i32 t).
Proof.
  rewrite u32_i32. unfold t, target_of. destruct (move_absolute p); unfold u32;
    rewrite Z.mod_mod by lia; reflexivity.
Qed.

(** the move ends at its target in any case *)
Lemma jump_ends : u16 M <> 0 ->
  ends_at A false olds g qe (fun _ _ qe' => qe_pos qe' = i32 t).
Proof.
  intros Hu. destruct jump_facts as (N & I & K & E6 & E1 & _ & E7).
  assert (O : period_ok (rg_ro g1) (rg_rw g1)) by (left; rewrite E1; exact Hu).
  destruct (run_prepared A HA g qe olds (Z.abs d + J) N I K O) as (n & cs & g' & qe' & R1 & R2 & R3).
  exists n, cs, g', qe'. split; [exact R1|]. split; [exact R2|].
  fold g1 in R3. rewrite E6 in R3.
  pose proof (run_qe_range A false n olds g qe cs g' qe' Hq R1) as Hq'.
  rewrite jump_target_range in R3. apply i32_zero_pos; try assumption. apply i32_range.
Qed.

(** in direction of the last move, with enough distance: no detour *)
Lemma jump_along : MIN_CMD_TICKS A <= M -> 1 <= J -> J + 2 <= along (qe_up qe) d ->
  let per := Z.max M (ramp_period g (J + 1)) in
  ends_at A strict olds g qe (fun cs _ qe' => qe_pos qe' = i32 t /\
    total_steps cs = Z.abs d /\ Forall (valid_cmd A) cs /\ Forall (moves_only (qe_up qe)) cs /\
    speed_ok M cs /\
    exists c rest, cs = c :: rest /\ c_steps c = 1 /\ c_ticks c + pauses rest = per).
Proof.
  intros HMM HJ1 HJR per. destruct jump_facts as (N & I & K & E6 & E1 & Ec & E7).
  pose proof (min_cmd_bounds A HA) as HN.
  set (up := qe_up qe) in *.
  assert (Ed : i32 (ro_target_pos (rg_ro g1) - qe_pos qe) = d) by (rewrite E6; reflexivity).
  assert (Habs : Z.abs d = along up d) by (clear - HJR HJ1; unfold along in *; destruct up; lia).
  set (c := ro_config (rg_ro g1)) in *.
  assert (Hper : 1 <= per <= 2147483648 /\ M <= per).
  { destruct K as (_ & _ & K3 & K4). split; [|unfold per; lia]. unfold per. rewrite <- Ec.
    pose proof (K4 (J + 1) ltac:(clear - HB HJ1; lia)). clear - HM H. lia. }
  assert (Efm : fas_max M (calculate_ticks A c (J + 1)) = per).
  { pose proof (fas_max_spec M (calculate_ticks A c (J + 1))). rewrite Ec in *. unfold per. lia. }
  set (tk := if per >? 65535 then fas_min (Z.shiftr per 1) 65535 else per).
  set (pl := if per >? 65535 then per - fas_min (Z.shiftr per 1) 65535 else 0).
  assert (Htp : tk + pl = per /\ MIN_CMD_TICKS A <= tk <= 65535 /\ (pl = 0 \/ 32767 <= pl <= 2147483648)).
  { unfold tk, pl. rewrite Z.shiftr_div_pow2 by lia. change (2 ^ 1) with 2.
    pose proof (fas_min_spec (per / 2) 65535) as X1.
    destruct (Z.gtb_spec per 65535) as [g0|g0].
    - pose proof (Z.div_mod per 2 ltac:(lia)) as X2. pose proof (Z.mod_pos_bound per 2 ltac:(lia)) as X3.
      clear - g0 X1 X2 X3 Hper HN HMM. lia.
    - clear - g0 Hper HN HMM. lia. }
  pose proof (gnc_cases A (rg_ro g1) (rg_rw g1) qe (olds O) (Z.abs d + J) I) as GC.
  rewrite E7 in GC. cbn [rw_pause_left rw_prus rw_curr_ticks] in GC. specialize (GC eq_refl).
  cbv zeta in GC. rewrite Ed in GC.
  destruct GC as [(GC & _ & _)|(up1 & _ & _ & Hup & _ & GC)]; [exfalso; clear - GC HJ1 Habs HJR; lia|].
  assert (up1 = up) as -> by (apply Hup; clear - HJ1; lia).
  fold (along up d) in GC.
  replace (0 <? along up d) with true in GC by (clear - HJR HJ1; lia).
  fold c in GC. rewrite core_jump in GC; try assumption; try (rewrite ?E1; clear - HJR HJ1 Habs HB HMM HM; lia).
  rewrite E1, Efm in GC. fold tk pl in GC. cbn [o_s o_steps o_ticks o_pause o_P] in GC.
  rewrite (u16_id tk) in GC by (clear - Htp HN; lia).
  change (u8 1) with 1 in GC.
  rewrite (u32_id (pl + tk)) in GC by (clear - Htp Hper; lia).
  replace (pl + tk) with per in GC by (clear - Htp; lia).
  set (n := mkNext _ _) in GC.
  assert (Step : ramp_step A false (olds O) g qe =
    Some ([n_cmd n], rg_afterCommandEnqueued n g1, enqueue (n_cmd n) qe)).
  { unfold ramp_step. rewrite getNext_prepare by (apply N). fold g1. rewrite E7, GC.
    unfold n at 1. cbn [n_cmd c_ticks].
    destruct (Z.eqb_spec tk 0); [exfalso; clear - e Htp HN; lia|]. reflexivity. }
  assert (Hdur : MIN_CMD_TICKS A <= cmd_duration (n_cmd n)).
  { unfold cmd_duration, n. cbn [n_cmd c_ticks c_steps]. clear - Htp. lia. }
  set (qe2 := enqueue (n_cmd n) qe) in *. set (g2 := rg_afterCommandEnqueued n g1) in *.
  assert (Ero : rg_ro g2 = rg_ro g1) by reflexivity.
  assert (Erw : rg_rw g2 = mkRw (Z.lor (rstate_byte ACC)
      (if up then RAMP_DIRECTION_COUNT_UP else RAMP_DIRECTION_COUNT_DOWN)) (J + 1) pl per) by reflexivity.
  assert (Ed2 : along up (i32 (ro_target_pos (rg_ro g1) - qe_pos qe2)) = along up d - 1).
  { unfold qe2. rewrite enqueue_delta; [|unfold n; cbn; clear; lia|rewrite Ed; unfold n; cbn; clear - HB HJ; lia].
    rewrite Ed. unfold n, moved, along. cbn. destruct up; lia. }
  assert (Eup : qe_up qe2 = up) by reflexivity.
  assert (Hsf : safe A (rg_ro g2) (rg_rw g2) qe2 up).
  { split; rewrite ?Ero, ?Erw; fold c; cbn [rw_prus rw_pause_left rw_curr_ticks]; rewrite ?E1, ?Ed2.
    - clear - HMM Hper. lia.
    - unfold TICKS_FOR_STOPPED_MOTOR. clear - Hper. lia.
    - clear - Htp. lia.
    - intros _. exact Eup.
    - clear - HJR HJ1. lia.
    - left. clear - HJR. lia. }
  assert (Hi2 : sinv (rg_ro g2) (rg_rw g2) qe2 (Z.abs d + J)).
  { split; rewrite ?Ero, ?Erw; cbn [rw_prus rw_pause_left rw_curr_ticks rw_state].
    - apply I.
    - clear - HJ1. lia.
    - assert (X : Z.abs (i32 (ro_target_pos (rg_ro g1) - qe_pos qe2)) = along up d - 1).
      { clear - Ed2 HJR HJ1. unfold along in *. destruct up; lia. }
      rewrite X. clear - HB Habs. lia.
    - clear - Htp. lia.
    - clear - Hper. lia.
    - right. clear - Hper. lia.
    - destruct up; discriminate. }
  assert (HC2 : rw_curr_ticks (rg_rw g2) <> TICKS_FOR_STOPPED_MOTOR).
  { rewrite Erw. cbn. unfold TICKS_FOR_STOPPED_MOTOR. clear - Hper. lia. }
  pose proof (run_safe A strict HA (smeas (rg_ro g2) (rg_rw g2) qe2) g2 qe2 (fun k => olds (S k))
    (Z.abs d + J) up (Z.le_refl _) N HC2 Hi2 K Hsf) as R.
  assert (Hend : ends_at A strict olds g qe (fun cs g' qe' => exists cs', cs = n_cmd n :: cs' /\
    run_spec A (rg_ro g2) (rg_rw g2) qe2 up cs' g' qe')).
  { eapply ends_step; [apply active_not_idle; rewrite <- (prepared_active A qe); apply I| |].
    - apply strict_step; [exact Step|]. constructor; [exact Hdur|constructor].
    - eapply ends_weaken; [|exact (ends_soon_at _ _ _ _ _ _ R)]. intros cs g' qe' HR. exists cs. split; [reflexivity|exact HR]. }
  destruct Hend as (k & cs & g' & qe' & R1 & R2 & cs' & -> & R3 & R4 & R5 & R6 & R7 & R8 & _).
  exists k, (n_cmd n :: cs'), g', qe'. split; [exact R1|]. split; [exact R2|].
  pose proof (run_qe_range A strict k olds g qe _ g' qe' Hq R1) as Hq'.
  rewrite Ero in R3, R4, R8. fold c in R8. rewrite E1 in R8. rewrite E6 in R3. rewrite Ed2 in R4.
  rewrite Erw in R7. cbn [rw_pause_left] in R7.
  split. { rewrite jump_target_range in R3. apply i32_zero_pos; try assumption. apply i32_range. }
  split. { cbn [total_steps]. rewrite R4. unfold n. cbn [n_cmd c_steps]. clear - Habs. lia. }
  split. { constructor; [|exact R5]. split; [|split; [|exact Hdur]]; unfold n; cbn; clear - Htp; lia. }
  split. { constructor; [|exact R6]. intros _. reflexivity. }
  split. { cbn [speed_ok]. rewrite R7. unfold n. cbn [n_cmd c_ticks c_steps].
           split; [intros _; clear - Htp Hper; lia|]. split; [intros X; exfalso; clear - X; lia|exact R8]. }
  exists (n_cmd n), cs'. split; [reflexivity|]. split; [reflexivity|]. rewrite R7. unfold n. cbn. apply Htp.
Qed.
End Run.

(** ** moveTo() and move() at standstill *)
Lemma irrel g v abs changed :
  let g' := rg_startMove changed (with_params (set_apply true (set_any_change true
     (set_keep false true (set_move v abs (rg_params g))))) g) in
  start_step g' = start_step g /\ forall s, ramp_period g' s = ramp_period g s.
Proof.
  intros g'. unfold start_step, ramp_period. unfold g'. rewrite started_params, started_ro.
  cbn [rg_params with_params rg_ro set_force_stop ro_config].
  split; intros; unfold jump, calculate_ramp_steps, calculate_ticks, update; cbn;
    destruct (s_h (rg_params g) >? 0); reflexivity.
Qed.

Section MoveTo.
Variables (g : rampgen) (qe : queue_end) (olds : nat -> next_command) (a M j pos : Z).
Hypothesis Hcfg : configured_jump g a M j.
Hypothesis Hidle : idle g.
Hypothesis Ha : 1 <= a < 2147483648.
Hypothesis Hj : 0 <= j.
Hypothesis Hqe : -2147483648 <= qe_pos qe < 2147483648.
Hypothesis Hpos : -2147483648 <= pos < 2147483648.
Let J := start_step g.
Let d := i32 (pos - qe_pos qe).
Hypothesis HM : 2 <= M <= 1073741824.
Hypothesis HB : Z.abs d + J < 1073741824.
Hypothesis Hab : a * Z.max (Z.abs d + J) 42000 <= 100000000000000.

Lemma start_step_pos : 0 <= J.
Proof.
  unfold J, start_step, jump. destruct (_ && _).
  - pose proof (calculate_ramp_steps_range A (update A (set_parameters (rg_params g) (ro_config (rg_ro g))))
      (min_travel_ticks (parameters (update A (set_parameters (rg_params g) (ro_config (rg_ro g))))))). lia.
  - rewrite update_parameters. destruct Hcfg as (_ & _ & _ & E & _). cbn [parameters set_parameters]. lia.
Qed.

Lemma moveTo_jump (Q : list command -> rampgen -> queue_end -> Prop) (st : bool) :
  qe_pos qe <> pos ->
  (forall g', start_step g' = J -> (forall s, ramp_period g' s = ramp_period g s) ->
    apply (rg_params g') = true -> any_change (rg_params g') = true -> keep_running (rg_params g') = false ->
    ro_force_stop (rg_ro g') = false -> ro_force_immediate (rg_ro g') = false ->
    0 <= s_h (rg_params g') < 4294967294 -> pmfl_accel (rg_params g') = pmfl_from_u32 a ->
    isRampGeneratorActive g' = true -> rw_curr_ticks (rg_rw g') = TICKS_FOR_STOPPED_MOTOR ->
    rw_pause_left (rg_rw g') = 0 -> min_travel_ticks (rg_params g') = M ->
    target_of (rg_params g') (keep_running (parameters (ro_config (rg_ro g')))) (ro_target_pos (rg_ro g'))
      (qe_pos qe) = u32 pos ->
    ends_at A st olds g' qe Q) ->
  exists g', rg_moveTo pos qe g = (g', MOVE_OK) /\ ends_at A st olds g' qe Q.
Proof.
  intros Hne H. destruct Hcfg as (V & C1 & C2 & C3 & C4). destruct Hidle as (I1 & I2 & I3).
  unfold rg_moveTo. rewrite V. cbn [negb Z.eqb MOVE_OK]. rewrite I1. cbn [andb].
  destruct (Z.eqb_spec (qe_pos qe) pos); [contradiction|]. cbn [negb].
  eexists. split; [reflexivity|].
  destruct (irrel g pos true true) as (X1 & X2). cbv zeta in X1, X2.
  assert (Est : (rw_state (rg_rw g) =? RAMP_STATE_IDLE) = true).
  { unfold isRampGeneratorActive in I1. destruct (_ =? _); [reflexivity|discriminate]. }
  apply H; try assumption; try reflexivity;
    unfold isRampGeneratorActive; rewrite ?started_rw; cbn [rg_rw with_params];
    unfold startRampIfNotRunning; rewrite Est; try reflexivity. exact I2.
Qed.

Lemma jump_target : i32 (u32 pos) = pos /\ i32 (u32 pos - qe_pos qe) = d.
Proof.
  split; [|apply i32_u32_sub].
  rewrite i32_u32. apply i32_id. lia.
Qed.

Lemma moveTo_jump_ends : u16 M <> 0 ->
  exists g', rg_moveTo pos qe g = (g', MOVE_OK) /\
    ends_at A false olds g' qe (fun _ _ qe' => qe_pos qe' = pos).
Proof.
  intros Hu. destruct jump_target as (T1 & T2). pose proof start_step_pos as HJ.
  destruct (Z.eq_dec (qe_pos qe) pos) as [E|N].
  - destruct Hcfg as (V & _). destruct Hidle as (I1 & I2 & I3). unfold rg_moveTo. rewrite V.
    cbn [negb Z.eqb MOVE_OK]. rewrite I1. cbn [andb]. rewrite E, Z.eqb_refl. eexists. split; [reflexivity|].
    apply ends_idle; [exact I1|exact E].
  - apply moveTo_jump; [exact N|]. intros g' E1 E2 K1 K2 K3 K4 K5 K6 K7 K8 K9 K10 K11 K12.
    eapply ends_weaken; [|apply (jump_ends g' qe olds a); try assumption]; rewrite ?K12, ?K11, ?E1, ?T2; try assumption.
    intros cs g0 qe0 ->. exact T1.
Qed.

Lemma moveTo_jump_along : MIN_CMD_TICKS A <= M -> 1 <= J -> J + 2 <= along (qe_up qe) d ->
  exists g', rg_moveTo pos qe g = (g', MOVE_OK) /\
    ends_at A strict olds g' qe (fun cs _ qe' => qe_pos qe' = pos /\
      total_steps cs = Z.abs d /\ Forall (valid_cmd A) cs /\ Forall (moves_only (qe_up qe)) cs /\
      speed_ok M cs /\
      exists c rest, cs = c :: rest /\ c_steps c = 1 /\
        c_ticks c + pauses rest = Z.max M (ramp_period g (J + 1))).
Proof.
  intros HMM HJ1 HJR. destruct jump_target as (T1 & T2). pose proof start_step_pos as HJ.
  apply moveTo_jump.
  - intros E. assert (d = 0) by (unfold d; rewrite E, Z.sub_diag; reflexivity).
    unfold along in HJR. destruct (qe_up qe); lia.
  - intros g' E1 E2 K1 K2 K3 K4 K5 K6 K7 K8 K9 K10 K11 K12.
    eapply ends_weaken; [|apply (jump_along g' qe olds a); try assumption]; rewrite ?K12, ?K11, ?E1, ?T2; try assumption.
    intros cs g0 qe0. rewrite T1, E2. auto.
Qed.

Lemma start_step_limited : M <= ramp_period g j -> J = j.
Proof.
  unfold ramp_period, J, start_step, jump. destruct Hcfg as (_ & _ & E2 & E3 & _).
  rewrite update_parameters. cbn [parameters set_parameters]. rewrite E2, E3. intros H.
  destruct (Z.ltb_spec (calculate_ticks A (update A (set_parameters (rg_params g) (ro_config (rg_ro g)))) j) M);
    [lia|]. rewrite andb_false_r. reflexivity.
Qed.
End MoveTo.

(** behind the linear phase (a quarter of [s_h] is lost there) *)
Lemma ramp_period_accurate g a M j s : configured_jump g a M j ->
  1 <= a < 2147483648 -> 1 <= s < 4294967296 -> s_h (rg_params g) <= s ->
  let t := (IZR (TICKS_PER_S A) / sqrt (2 * IZR a * IZR (s - (s_h (rg_params g) + 2) / 4)))%R in
  (Rabs (IZR (ramp_period g s) - t) <= t / 150 + 1)%R.
Proof.
  intros (_ & H1 & _ & _ & H2) Ha Hs HL. unfold ramp_period.
  pose proof (above_period_accurate A (update A (set_parameters (rg_params g) (ro_config (rg_ro g)))) a s HA) as K.
  rewrite update_parameters in K. apply K; assumption.
Qed.
End WithArch.

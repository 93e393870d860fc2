(** * RampStop: stopMove() *)
From Coq Require Import ZArith Bool List Lia ZifyBool Zwf.
From Verif Require Import Base Pmf PmfFacts RampCalc RampCalcFacts RampGen RampStep RampRun RampMove RampSafe RampAcc.
Import ListNotations.
Open Scope Z_scope.
Ltac Zify.zify_post_hook ::= idtac.

(** [n] steps in direction [up] *)
Definition ahead (up : bool) (pos n : Z) : Z := if up then pos + n else pos - n.

Section WithArch.
Variable A : arch.
Hypothesis HA : In A all_archs.

Record stopping (g : rampgen) (qe : queue_end) : Prop := mkStopping {
  sp_apply : apply (rg_params g) = false;
  sp_recalc : recalc_ramp_steps (parameters (ro_config (rg_ro g))) = false;
  sp_keep : keep_running (parameters (ro_config (rg_ro g))) = false;
  sp_fs : ro_force_stop (rg_ro g) = true;
  sp_imm : ro_force_immediate (rg_ro g) = false;
  sp_target : ro_target_pos (rg_ro g) = u32 (ahead (qe_up qe) (u32 (qe_pos qe)) (rw_prus (rg_rw g)))
}.

Lemma stop_prepare_fix qe g : stopping g qe -> rw_curr_ticks (rg_rw g) <> TICKS_FOR_STOPPED_MOTOR ->
  rg_prepare A qe g = g.
Proof.
  intros [H1 H2 H3 H4 H5 H6] HC. unfold rg_prepare, rg_take_parameters. rewrite H1.
  unfold rg_adjust_prus. destruct (Z.eqb_spec (rw_curr_ticks (rg_rw g)) TICKS_FOR_STOPPED_MOTOR); [contradiction|].
  rewrite H2. unfold rg_new_target. rewrite H4. unfold ahead in H6.
  destruct g as [p [[[mv mt sh sj pa ap ac rc va vs ma kr kc] X th cu] t fs fi] [st P pl C] ac']. cbn in *. subst.
  destruct (qe_up qe); reflexivity.
Qed.

(** the first call after stopMove() *)
Lemma stop_prepare qe g : ro_force_stop (rg_ro g) = true -> ro_force_immediate (rg_ro g) = false ->
  stopping (rg_prepare A qe g) qe.
Proof.
  intros H1 H2. unfold rg_prepare. set (wk := keep_running _).
  assert (E : ro_force_stop (rg_ro (rg_take_parameters A g)) = true /\
              ro_force_immediate (rg_ro (rg_take_parameters A g)) = false /\
              apply (rg_params (rg_take_parameters A g)) = false).
  { unfold rg_take_parameters. destruct (apply (rg_params g)) eqn:Ea; [|auto].
    cbn [rg_ro rg_params]. cbn [set_config ro_force_immediate]. rewrite H2. cbn. auto. }
  set (g1 := rg_take_parameters A g) in *. clearbody g1 wk. destruct E as (E1 & E2 & E3).
  assert (F : ro_force_stop (rg_ro (rg_adjust_prus A g1)) = true /\
              ro_force_immediate (rg_ro (rg_adjust_prus A g1)) = false /\
              apply (rg_params (rg_adjust_prus A g1)) = false).
  { unfold rg_adjust_prus.
    destruct (rw_curr_ticks (rg_rw g1) =? TICKS_FOR_STOPPED_MOTOR); cbn [rg_ro map_parameters set_config];
    match goal with |- context [recalc_ramp_steps ?x] => destruct (recalc_ramp_steps x) end; cbn; auto. }
  set (g2 := rg_adjust_prus A g1) in *. clearbody g2. destruct F as (F1 & F2 & F3).
  unfold rg_new_target. rewrite F1.
  split; cbn; auto. unfold ahead. destruct (qe_up qe); reflexivity.
Qed.

Lemma stop_prepare_settled qe g : apply (rg_params g) = false ->
  recalc_ramp_steps (parameters (ro_config (rg_ro g))) = false ->
  rw_curr_ticks (rg_rw g) <> TICKS_FOR_STOPPED_MOTOR ->
  rg_rw (rg_prepare A qe g) = rg_rw g /\
  min_travel_ticks (parameters (ro_config (rg_ro (rg_prepare A qe g)))) =
    min_travel_ticks (parameters (ro_config (rg_ro g))) /\
  pmfl_accel (parameters (ro_config (rg_ro (rg_prepare A qe g)))) =
    pmfl_accel (parameters (ro_config (rg_ro g))) /\
  s_h (parameters (ro_config (rg_ro (rg_prepare A qe g)))) =
    s_h (parameters (ro_config (rg_ro g))) /\
  max_ramp_up_steps (ro_config (rg_ro (rg_prepare A qe g))) = max_ramp_up_steps (ro_config (rg_ro g)).
Proof.
  intros H1 H2 HC. unfold rg_prepare, rg_take_parameters. rewrite H1.
  unfold rg_adjust_prus. destruct (Z.eqb_spec (rw_curr_ticks (rg_rw g)) TICKS_FOR_STOPPED_MOTOR); [contradiction|].
  rewrite H2. unfold rg_new_target. destruct (ro_force_stop _); [repeat split|].
  destruct (any_change _); [|repeat split]. destruct (keep_running _); [repeat split|].
  destruct (move_absolute _); repeat split.
Qed.

Record stopcfg (c : config) (rw : ramp_rw) : Prop := mkStopcfg {
  sc_M : 1 <= min_travel_ticks (parameters c) <= 1073741824;
  sc_X : 0 <= max_ramp_up_steps c < 4294967296;
  sc_P : 0 <= rw_prus rw < 536870912;
  sc_C : 1 <= rw_curr_ticks rw <= 2147483648;
  sc_pause : 0 <= rw_pause_left rw < 4294967296;
  sc_calc : calc_pos A c (Z.max (rw_prus rw) 42000);
  sc_le : calc_le A c;
  sc_active : rw_state rw <> RAMP_STATE_IDLE
}.

Definition accepts (strict : bool) (rw : ramp_rw) : Prop :=
  strict = true -> MIN_CMD_TICKS A <= rw_curr_ticks rw /\
    (rw_pause_left rw = 0 \/ 32767 <= rw_pause_left rw).

Definition stop_spec (g : rampgen) (qe : queue_end) (cs : list command) (g' : rampgen) (qe' : queue_end) : Prop :=
  total_steps cs = rw_prus (rg_rw g) /\ Forall (moves_only (qe_up qe)) cs /\
  i32 (qe_pos qe') = i32 (ahead (qe_up qe) (qe_pos qe) (rw_prus (rg_rw g))) /\
  pauses cs = rw_pause_left (rg_rw g) /\
  speed_ok (rw_curr_ticks (rg_rw g)) cs.

Lemma i32_ahead up p n : - 1073741824 < n < 1073741824 ->
  i32 (u32 (ahead up (u32 p) n) - p) = if up then n else - n.
Proof.
  intros H. rewrite i32_u32_sub. unfold ahead.
  destruct up; (etransitivity; [|apply i32_id; lia]); apply i32_eq_iff; unfold u32;
    clear; Z.div_mod_to_equations; lia.
Qed.

Lemma u32_ahead up p n : u32 (ahead up (u32 p) n) = u32 (ahead up p n).
Proof. unfold ahead, u32. destruct up; clear; Z.div_mod_to_equations; lia. Qed.

Lemma stop_step strict old g qe : stopping g qe -> stopcfg (ro_config (rg_ro g)) (rg_rw g) ->
  accepts strict (rg_rw g) ->
  forall g0, rg_prepare A qe g0 = g ->
  exists cs g2 qe2, ramp_step A strict old g0 qe = Some (cs, g2, qe2) /\
    (isRampGeneratorActive g2 = false /\ cs = [] /\ stop_spec g qe [] g2 qe2 \/
     stopping g2 qe2 /\ stopcfg (ro_config (rg_ro g2)) (rg_rw g2) /\ accepts strict (rg_rw g2) /\
     rw_prus (rg_rw g2) * 4294967296 + rw_pause_left (rg_rw g2) <
     rw_prus (rg_rw g) * 4294967296 + rw_pause_left (rg_rw g) /\
     (forall cs' g' qe', stop_spec g2 qe2 cs' g' qe' -> stop_spec g qe (cs ++ cs') g' qe')).
Proof.
  intros Hs [HM HX HP HC Hp Hcp Hcl Hact] Hst g0 E0. pose proof (min_cmd_bounds A HA) as HN.
  unfold ramp_step. rewrite getNext_prepare by (rewrite E0; apply Hs). rewrite E0.
  set (ro := rg_ro g) in *. set (rw := rg_rw g) in *.
  pose proof Hs as [H1 H2 H3 H4 H5 H6]. fold ro rw in H2, H3, H4, H5, H6.
  set (P := rw_prus rw) in *.
  assert (Hd : i32 (ro_target_pos ro - qe_pos qe) = if qe_up qe then P else - P).
  { rewrite H6. apply i32_ahead. lia. }
  assert (Hi : sinv ro rw qe (2 * P)).
  { split; try assumption; try (clear - HP HC Hp; lia); fold P.
    rewrite Hd. clear - HP. destruct (qe_up qe); lia. }
  assert (HC' : rw_curr_ticks rw <> TICKS_FOR_STOPPED_MOTOR).
  { unfold TICKS_FOR_STOPPED_MOTOR. clear - HC. lia. }
  destruct (Z.eq_dec (rw_pause_left rw) 0) as [Ep|Np].
  - pose proof (gnc_cases A ro rw qe old _ Hi Ep) as GC. cbv zeta in GC. rewrite Hd in GC. fold P in GC.
    destruct GC as [(Ed & EP & GC)|(up1 & Hnt & HP0 & Hup & _ & GC)]; rewrite GC; clear GC.
    + cbn [n_cmd ramp_complete c_ticks Z.eqb].
      exists [], (rg_afterCommandEnqueued (ramp_complete old) g), qe.
      split; [reflexivity|]. left. split; [reflexivity|]. split; [reflexivity|].
      assert (P = 0) as E by (clear - Ed; destruct (qe_up qe); lia).
      unfold stop_spec. fold rw. fold P. rewrite E, Ep. unfold ahead. cbn.
      destruct (qe_up qe); rewrite ?Z.add_0_r, ?Z.sub_0_r; repeat split; auto.
    + assert (P1 : 1 <= P).
      { destruct (Z.eq_dec P 0) as [E|]; [|clear - HP n; lia]. specialize (HP0 E).
        clear - HP0 E. destruct up1, (qe_up qe); lia. }
      rewrite (Hup ltac:(clear - P1; lia)). clear up1 Hnt HP0 Hup.
      set (up := qe_up qe) in *.
      replace (if up then if up then P else - P else - (if up then P else - P)) with P by (clear; destruct up; lia).
      replace (Z.abs (if up then P else - P)) with P by (clear - HP; destruct up; lia).
      destruct (core_back A HA (ro_config ro) (rw_curr_ticks rw) P P (0 <? P)) as
           (o & Eo & _ & S1 & S2 & S3 & S4 & S5 & S6 & S7 & S8 & S9);
          try assumption; try (clear - HM HC P1 HP; lia).
      specialize (S7 HC'). specialize (S9 Hcl ltac:(clear - HM; lia) ltac:(right; apply HC)).
      rewrite Eo. cbn [n_cmd n_rw c_ticks].
      assert (u16 (o_ticks o) = o_ticks o) as -> by (apply u16_id; clear - S4; lia).
      destruct (Z.eqb_spec (o_ticks o) 0) as [K|_]; [clear - K S4; lia|].
      assert (u8 (o_steps o) = o_steps o) as -> by (apply u8_id; clear - S1; lia).
      assert (u32 (o_pause o + o_ticks o) = o_pause o + o_ticks o) as -> by (apply u32_id; clear - S4 S5 S6; lia).
      set (c := mkCommand (o_ticks o) (o_steps o) up).
      assert (Hnot : strict && (cmd_duration c <? MIN_CMD_TICKS A) = false).
      { destruct strict; [|reflexivity]. destruct (Hst eq_refl) as (Hm & _). cbn [andb].
        apply Z.ltb_ge. unfold cmd_duration, c. cbn [c_ticks c_steps].
        clear - Hm S7 S8 S1 S4 HN. destruct (Z.eq_dec (o_pause o) 0); nia. }
      rewrite Hnot.
      eexists _, _, _. split; [reflexivity|]. right.
      unfold rg_afterCommandEnqueued. cbn [with_rw rg_ro rg_rw rg_params n_rw].
      assert (Epos : u32 (ahead up (u32 (qe_pos (enqueue c qe))) (o_P o)) =
                     u32 (ahead up (u32 (qe_pos qe)) P)).
      { rewrite S3. unfold enqueue, c, ahead. cbn [c_up c_steps qe_pos].
        clear. unfold u32, i32. destruct up; Z.div_mod_to_equations; lia. }
      split. { split; cbn [rg_params rg_ro rg_rw rw_prus]; try assumption.
        etransitivity; [exact H6|symmetry; exact Epos]. }
      split. { fold ro. split; cbn [rw_prus rw_pause_left rw_curr_ticks rw_state]; try assumption;
         try (clear - S1 S2 S3 S4 S5 S6 S9 HP; lia).
         - intros z Hz. apply Hcp. fold P. clear - Hz S3 S1. lia.
         - clear. unfold rstate_byte. destruct (o_s o), up; vm_compute; discriminate. }
      split. { unfold accepts. intros K. destruct (Hst K) as (Hm & _).
        cbn [rw_curr_ticks rw_pause_left]. clear - Hm S7 S8 S5. lia. }
      split. { cbn [rw_prus rw_pause_left]. rewrite Ep, S3. clear - S1 S5 S6 S4. fold P. nia. }
      intros cs' g' qe' (R1 & R2 & R3 & R4 & R5). cbn [with_rw rg_rw rw_prus rw_pause_left rw_curr_ticks] in *.
      unfold stop_spec. fold rw. fold P. cbn [app total_steps pauses speed_ok c_steps c_ticks c].
      destruct (Z.eqb_spec (o_steps o) 0) as [K|_]; [clear - K S1; lia|].
      split; [clear - R1 S3; lia|].
      split; [constructor; [intros _; reflexivity|exact R2]|].
      split. { etransitivity; [exact R3|]. apply i32_eq_iff. rewrite !u32_ahead in Epos. exact Epos. }
      split; [symmetry; exact Ep|].
      split; [rewrite R4; intros _; clear - S7; lia|].
      split. { intros K. destruct (Z.eq_dec (o_pause o) 0) as [Q|Q]; [clear - Q S7; lia|].
               destruct (S8 Q) as (Q1 & _). clear - Q1 K. lia. }
      eapply speed_ok_le; [|exact R5]. clear - S7. lia.
  - destruct (pause_spec rw qe ltac:(lia)) as (p & E & K1 & K2 & K3 & K4).
    unfold getNextCommand_. rewrite E. cbn [n_cmd n_rw c_ticks].
    destruct (Z.eqb_spec p 0) as [K|_]; [clear - K K1; lia|].
    set (c := mkCommand p 0 (qe_up qe)).
    assert (Hnot : strict && (cmd_duration c <? MIN_CMD_TICKS A) = false).
    { destruct strict; [|reflexivity]. destruct (Hst eq_refl) as (Hm & Hq). cbn [andb].
      apply Z.ltb_ge. unfold cmd_duration, c. cbn [c_ticks c_steps].
      clear - Hq K1 K2 K3 K4 HN Np. lia. }
    rewrite Hnot.
    eexists _, _, _. split; [reflexivity|]. right.
    unfold rg_afterCommandEnqueued. cbn [with_rw rg_ro rg_rw rg_params n_rw].
    assert (Epos : u32 (qe_pos (enqueue c qe)) = u32 (qe_pos qe)).
    { unfold enqueue, c. cbn [c_up c_steps qe_pos]. rewrite u32_i32. rewrite Z.add_0_r, Z.sub_0_r.
      destruct (qe_up qe); reflexivity. }
    assert (Epos2 : i32 (qe_pos (enqueue c qe)) = i32 (qe_pos qe)) by (apply i32_eq_iff; exact Epos).
    split. { split; cbn [rg_params rg_ro rg_rw rw_prus]; try assumption.
        etransitivity; [exact H6|]. change (qe_up (enqueue c qe)) with (qe_up qe). rewrite Epos. reflexivity. }
    split. { fold ro. split; cbn [rw_prus rw_pause_left rw_curr_ticks rw_state]; try assumption.
         clear - K1 K2 K3 Hp. lia. }
    split. { unfold accepts. intros K. destruct (Hst K) as (Hm & Hq).
        cbn [rw_curr_ticks rw_pause_left]. clear - Hm Hq K1 K2 K3 K4 Np. lia. }
    split. { cbn [rw_prus rw_pause_left]. clear - K1. fold P. lia. }
    intros cs' g' qe' (R1 & R2 & R3 & R4 & R5). cbn [with_rw rg_rw rw_prus rw_pause_left rw_curr_ticks] in *.
    unfold stop_spec. fold rw. fold P.
    change (c :: cs') with ([c] ++ cs') in *. cbn [app total_steps pauses speed_ok c_steps c_ticks c].
    cbn [Z.eqb].
    split; [clear - R1; lia|].
    split; [constructor; [intros []; reflexivity|exact R2]|].
    split. { etransitivity; [exact R3|]. apply i32_eq_iff. change (qe_up (enqueue c qe)) with (qe_up qe).
             rewrite <- u32_ahead, Epos, u32_ahead. reflexivity. }
    split; [rewrite R4; clear; lia|].
    split; [intros []; reflexivity|]. split; [intros K; clear - K; lia|exact R5].
Qed.

Theorem stop_run strict : forall k g qe olds,
  rw_prus (rg_rw g) * 4294967296 + rw_pause_left (rg_rw g) <= k ->
  stopping g qe -> stopcfg (ro_config (rg_ro g)) (rg_rw g) -> accepts strict (rg_rw g) ->
  ends_at A strict olds g qe (stop_spec g qe).
Proof.
  intros k. induction k as [k IH] using (well_founded_induction (Zwf.Zwf_well_founded (-1))).
  intros g qe olds Hk Hs Hc Ha.
  assert (HC : rw_curr_ticks (rg_rw g) <> TICKS_FOR_STOPPED_MOTOR).
  { destruct Hc. unfold TICKS_FOR_STOPPED_MOTOR. lia. }
  destruct (stop_step strict (olds O) g qe Hs Hc Ha g (stop_prepare_fix qe g Hs HC))
    as (cs & g2 & qe2 & E & [(Hact & -> & HQ)|(Hs2 & Hc2 & Ha2 & Hm & HQ)]).
  - eapply ends_step; [apply active_not_idle, Hc|exact E|]. apply ends_idle; assumption.
  - eapply ends_step; [apply active_not_idle, Hc|exact E|].
    eapply ends_weaken; [exact HQ|].
    eapply IH; try eassumption; [|apply Z.le_refl].
    unfold Zwf. destruct Hc, Hc2. lia.
Qed.

(** stopMove() in any state of the ramp *)
Theorem stop_ends strict g qe olds :
  ro_force_stop (rg_ro g) = true -> ro_force_immediate (rg_ro g) = false ->
  let g1 := rg_prepare A qe g in
  stopcfg (ro_config (rg_ro g1)) (rg_rw g1) -> accepts strict (rg_rw g1) ->
  ends_at A strict olds g qe (stop_spec g1 qe).
Proof.
  intros H1 H2 g1 Hc Ha. pose proof (stop_prepare qe g H1 H2) as Hs. fold g1 in Hs.
  destruct (stop_step strict (olds O) g1 qe Hs Hc Ha g eq_refl)
    as (cs & g2 & qe2 & E & [(Hact & -> & HQ)|(Hs2 & Hc2 & Ha2 & Hm & HQ)]).
  - eapply ends_step; [apply active_not_idle; rewrite <- (prepared_active A qe); apply Hc|exact E|]. apply ends_idle; assumption.
  - eapply ends_step; [apply active_not_idle; rewrite <- (prepared_active A qe); apply Hc|exact E|].
    eapply ends_weaken; [exact HQ|].
    eapply stop_run; try eassumption. apply Z.le_refl.
Qed.
End WithArch.

(** * RampProp: statements about stopMove(), runForward() and runBackward() *)
From Coq Require Import ZArith Bool List Lia ZifyBool.
From Verif Require Import Base Pmf PmfFacts RampCalc RampCalcFacts RampLinear RampGen RampStep RampRun RampMove
  RampSafe RampAcc RampUser RampStop RampKeep RampMisc.
Import ListNotations.
Open Scope Z_scope.
Ltac Zify.zify_post_hook ::= idtac.

Section WithArch.
Variable A : arch.
Hypothesis HA : In A all_archs.

(** The motor runs with acceleration [a] and speed [M]; no parameters are pending. *)
Record running (g : rampgen) (a M : Z) : Prop := mkRunning {
  rn_active : isRampGeneratorActive g = true;
  rn_apply : apply (rg_params g) = false;
  rn_change : any_change (parameters (ro_config (rg_ro g))) = false;
  rn_recalc : recalc_ramp_steps (parameters (ro_config (rg_ro g))) = false;
  rn_imm : ro_force_immediate (rg_ro g) = false;
  rn_h : derived A (ro_config (rg_ro g));
  rn_a : pmfl_accel (parameters (ro_config (rg_ro g))) = pmfl_from_u32 a;
  rn_aR : 1 <= a < 2147483648;
  rn_M : min_travel_ticks (parameters (ro_config (rg_ro g))) = M;
  rn_MR : 2 <= M <= 1073741824;
  rn_X : 0 <= max_ramp_up_steps (ro_config (rg_ro g)) < 4294967296;
  rn_P : 0 <= rw_prus (rg_rw g) < 536870912;
  rn_C : 1 <= rw_curr_ticks (rg_rw g) <= 2147483648;
  rn_pause : 0 <= rw_pause_left (rg_rw g) < 4294967296;
  rn_ab : a * Z.max (rw_prus (rg_rw g)) 42000 <= 100000000000000
}.

Lemma active_idle g : isRampGeneratorActive g = true -> rw_state (rg_rw g) <> RAMP_STATE_IDLE.
Proof. unfold isRampGeneratorActive. intros H E. rewrite E, Z.eqb_refl in H. discriminate. Qed.

Lemma stop_lemma strict g a M qe olds : running g a M ->
  (strict = true -> MIN_CMD_TICKS A <= rw_curr_ticks (rg_rw g) /\
     (rw_pause_left (rg_rw g) = 0 \/ 32767 <= rw_pause_left (rg_rw g))) ->
  ends_at A strict olds (rg_initiateStop g) qe (fun cs g' qe' =>
    total_steps cs = rg_stepsToStop g /\ Forall (moves_only (qe_up qe)) cs /\
    i32 (qe_pos qe') = i32 (if qe_up qe then qe_pos qe + rg_stepsToStop g else qe_pos qe - rg_stepsToStop g) /\
    pauses cs = rw_pause_left (rg_rw g) /\ speed_ok (rw_curr_ticks (rg_rw g)) cs).
Proof.
  intros [] Hs. set (g0 := rg_initiateStop g).
  destruct (stop_prepare_settled A qe g0) as (E1 & E2 & E3 & E4 & E5); try assumption.
  { unfold g0, TICKS_FOR_STOPPED_MOTOR. cbn. clear - rn_C0. lia. }
  change (rg_rw g0) with (rg_rw g) in E1. change (ro_config (rg_ro g0)) with (ro_config (rg_ro g)) in *.
  eapply ends_weaken; [|apply (stop_ends A HA strict g0 qe olds eq_refl rn_imm0)].
  - intros cs g' qe' (R1 & R2 & R3 & R4 & R5). rewrite E1 in *. auto.
  - rewrite E1.
    assert (B : cfg_ok A (ro_config (rg_ro (rg_prepare A qe g0))) (rw_prus (rg_rw g))).
    { apply cfg_ok_derived with (a := a); rewrite ?E2, ?E3, ?E4, ?E5, ?rn_M0; try assumption.
      - apply prepare_derived; try assumption; [|intros _; exact rn_h0]. unfold g0. cbn. congruence.
      - clear - rn_P0. lia. }
    destruct B as (B1 & B2 & B3 & B4). split; try assumption.
    + clear - B1. lia.
    + apply active_idle. assumption.
  - unfold accepts. rewrite E1. exact Hs.
Qed.

(** ** reversal *)
Lemma reversal_lemma g a M qe olds : running g a M ->
  keep_running (parameters (ro_config (rg_ro g))) = false -> ro_force_stop (rg_ro g) = false ->
  let d := i32 (ro_target_pos (rg_ro g) - qe_pos qe) in
  along (qe_up qe) d < 0 ->
  Z.abs d + rw_prus (rg_rw g) < 1073741824 ->
  a * Z.max (Z.abs d + rw_prus (rg_rw g)) 42000 <= 100000000000000 ->
  exists n cs g' qe', ramp_run A false olds n g qe = Some (cs, g', qe') /\
    total_steps cs = rg_stepsToStop g /\ Forall (moves_only (qe_up qe)) cs /\
    rg_stepsToStop g' = 0 /\ rw_pause_left (rg_rw g') = 0 /\
    pauses cs = rw_pause_left (rg_rw g) /\ speed_ok (rw_curr_ticks (rg_rw g)) cs /\
    isRampGeneratorActive g' = true.
Proof.
  intros [] Hk Hf d Hd HB Hab.
  destruct (rev_run A HA (Z.abs d + rw_prus (rg_rw g)) _ g qe olds (Z.le_refl _)) as (n & cs & g' & qe' & E & R).
  - repeat split; assumption.
  - split; [|clear - rn_C0; lia|exact Hd]. split; try assumption; fold d; try (clear - rn_P0 rn_C0 HB; lia).
    apply active_idle. assumption.
  - apply cfg_ok_derived with (a := a); rewrite ?rn_M0; try assumption.
  - exists n, cs, g', qe'. split; [exact E|exact R].
Qed.

(** ** speed limit of a single command *)
Lemma speed_lemma g a M qe old n : running g a M ->
  keep_running (parameters (ro_config (rg_ro g))) = false ->
  let d := i32 (ro_target_pos (rg_ro g) - qe_pos qe) in
  Z.abs d + rw_prus (rg_rw g) < 1073741824 ->
  M <= 65535 \/ M <= rw_curr_ticks (rg_rw g) ->
  getNextCommand_ A (rg_ro g) (rg_rw g) qe old = Some n ->
  c_ticks (n_cmd n) <> 0 -> c_steps (n_cmd n) <> 0 ->
  rw_pause_left (rg_rw g) = 0 /\
  Z.min M (rw_curr_ticks (rg_rw g)) <= c_ticks (n_cmd n) + rw_pause_left (n_rw n) /\
  (2 <= c_steps (n_cmd n) -> rw_pause_left (n_rw n) = 0).
Proof.
  intros [] Hk d HB HM En Nt Ns.
  set (ro := rg_ro g) in *. set (rw := rg_rw g) in *.
  destruct (Z.eq_dec (rw_pause_left rw) 0) as [Ep|Np].
  2: { exfalso. destruct (pause_spec rw qe ltac:(lia)) as (p & E & _).
       unfold getNextCommand_ in En. rewrite E in En. injection En as <-. cbn in Ns. auto. }
  split; [exact Ep|].
  assert (Hi : sinv ro rw qe (Z.abs d + rw_prus rw)).
  { split; try assumption; fold d; try (clear - rn_P0 rn_C0 HB; lia). apply active_idle. assumption. }
  assert (Cf : cfg_ok A (ro_config ro) (rw_prus rw)).
  { apply cfg_ok_derived with (a := a); rewrite ?rn_M0; try assumption. clear - rn_P0. lia. }
  destruct Cf as (K1 & K2 & K3 & K4).
  pose proof (gnc_cases A ro rw qe old _ Hi Ep) as GC. cbv zeta in GC. fold d in GC.
  set (P := rw_prus rw) in *.
  assert (HC' : rw_curr_ticks rw <> TICKS_FOR_STOPPED_MOTOR).
  { unfold TICKS_FOR_STOPPED_MOTOR. clear - rn_C0. lia. }
  destruct GC as [(_ & _ & GC)|(up & Hnt & HP0 & Hup & _ & GC)].
  { rewrite GC in En. injection En as <-. cbn in Nt. contradiction. }
  fold (along up d) in *. set (rho := along up d) in *.
  rewrite GC in En. clear GC.
  assert (Hcase : (exists o, core A (ro_config ro) (rw_curr_ticks rw) P (Z.abs d) (0 <? rho) = Some o /\
     1 <= o_steps o <= 255 /\ 1 <= o_ticks o <= 65535 /\
     0 <= o_pause o /\ Z.min M (rw_curr_ticks rw) <= o_ticks o + o_pause o /\
     (o_pause o <> 0 -> o_steps o = 1))).
  { destruct (Z_lt_le_dec 0 rho) as [L|L].
    - replace (0 <? rho) with true by (clear - L; lia).
      assert (Ea : Z.abs d = rho) by (clear - L; unfold rho, along in *; destruct up; lia). rewrite Ea.
      destruct (Z_lt_le_dec P rho) as [L'|L'].
      + destruct (core_ahead A HA (ro_config ro) (rw_curr_ticks rw) P rho) as
          (o & Eo & _ & S1 & S2 & S3 & _ & S5 & S6 & S7 & _ & S9 & _);
          try assumption; try (clear - K1 rn_C0 rn_P0 L' HB Ea; lia).
        exists o. rewrite Eo. split; [reflexivity|]. split; [exact S1|].
        rewrite rn_M0 in *.
        assert (T : 1 <= o_ticks o <= 65535).
        { destruct S7 as [S7|(_ & E & _ & _ & S7)]; [apply S7|].
          rewrite E. destruct HM as [HM|HM]; [lia|].
          assert (M < 2 * MIN_CMD_TICKS A) by (clear - S7 HM; lia). pose proof (min_cmd_bounds A HA). lia. }
        split; [exact T|]. split; [apply S5|]. split; [|intros Q; apply S6; exact Q].
        apply S9. intros E. contradiction.
      + destruct (core_back A HA (ro_config ro) (rw_curr_ticks rw) P rho true) as
           (o & Eo & _ & S1 & S2 & S3 & S4 & S5 & S6 & S7 & S8 & S9);
          try assumption; try (clear - K1 rn_C0 rn_P0 L' L HB; lia).
        exists o. rewrite Eo. specialize (S7 HC'). split; [reflexivity|].
        split; [exact S1|]. split; [exact S4|]. split; [exact S5|]. split; [clear - S7; lia|].
        intros Q. apply S8, Q.
    - replace (0 <? rho) with false by (clear - L; lia).
      assert (P1 : 1 <= P) by (clear - HP0 L rn_P0; lia).
      destruct (core_back A HA (ro_config ro) (rw_curr_ticks rw) P (Z.abs d) false) as
           (o & Eo & _ & S1 & S2 & S3 & S4 & S5 & S6 & S7 & S8 & S9);
          try assumption; try (clear - K1 rn_C0 rn_P0 P1 L HB; lia).
      exists o. rewrite Eo. specialize (S7 HC'). split; [reflexivity|].
      split; [exact S1|]. split; [exact S4|]. split; [exact S5|]. split; [clear - S7; lia|].
      intros Q. apply S8, Q. }
  destruct Hcase as (o & Eo & S1 & S2 & S3 & S4 & S5). rewrite Eo in En. injection En as <-.
  cbn [n_cmd n_rw c_ticks c_steps rw_pause_left].
  rewrite (u16_id (o_ticks o)) by (clear - S2; lia). rewrite (u8_id (o_steps o)) by (clear - S1; lia).
  split; [exact S4|]. intros Q. clear - S5 Q S3. lia.
Qed.

(** ** runForward(), runBackward() *)
Lemma run_lemma N up n g qe olds : idle g -> checkValidConfig (rg_params g) = MOVE_OK ->
  s_jump (rg_params g) = 0 ->
  let c := update A (set_parameters (rg_params g) (ro_config (rg_ro g))) in
  let M := min_travel_ticks (rg_params g) in
  17 <= M <= 1073741824 -> 0 <= N <= KR - 101000 ->
  (forall s, N <= s < KR -> calculate_ticks A c s <= M) ->
  (forall s, 1 <= s < 4294967296 -> calculate_ticks A c s <= 1073741824) ->
  exists g1, rg_startRun up g = (g1, MOVE_OK) /\
  exists cs g' qe', ramp_run A true olds n g1 qe = Some (cs, g', qe') /\ length cs = n /\
    isRampGeneratorActive g' = true /\ Forall (queue_cmd A) cs /\ Forall (fun c => c_up c = up) cs /\
    speed_ok_prefix M cs.
Proof.
  intros (Hact & Hp & Hi) V Hj c M HM HN HF HL. unfold rg_startRun. rewrite V. cbn [negb Z.eqb MOVE_OK].
  eexists. split; [reflexivity|].
  set (g1 := mkRg _ _ _ _).
  assert (Est : startRampIfNotRunning (rg_rw g) = mkRw RAMP_STATE_ACCELERATE (rw_prus (rg_rw g)) 0 TICKS_FOR_STOPPED_MOTOR).
  { unfold startRampIfNotRunning. unfold isRampGeneratorActive in Hact. apply negb_false_iff in Hact.
    rewrite Hact, Hp. reflexivity. }
  destruct (prepare_running A qe g1) as (P1 & P2 & P3 & P4 & P5 & P6 & P7 & P8 & P9);
    try reflexivity; try assumption.
  { cbn [rg_rw g1]. rewrite Est. reflexivity. }
  assert (Hcalc : forall s, calculate_ticks A (ro_config (rg_ro (rg_prepare A qe g1))) s = calculate_ticks A c s).
  { intros s. rewrite P2. unfold c, calculate_ticks, update. cbn. destruct (s_h (rg_params g) >? 0); reflexivity. }
  clear P2. cbn [rg_rw g1] in P9. rewrite Est in P9. cbn [rw_state rw_pause_left] in P9.
  change (min_travel_ticks (rg_params g1)) with M in P3.
  change (keep_running_count_up (rg_params g1)) with up in P7.
  assert (Hn := P1).
  destruct (keep_run_prepared A HA N up n g1 qe olds) as (cs & g' & qe' & E & L & Ha & K1 & K2 & K3 & K4).
  - exact P1.
  - rewrite P9. split; rewrite ?P3, ?P6, ?P7; cbn [rw_prus rw_curr_ticks rw_pause_left rw_state];
      unfold TICKS_FOR_STOPPED_MOTOR; try assumption; try (clear - HM HN; lia); auto; try discriminate.
  - split; rewrite ?P3; [exact HM|]. split; [exact HN|]. split; [rewrite P8; pose proof (update_X A (set_parameters (rg_params g1) (ro_config (rg_ro g1)))); clear - H; lia|].
    split.
    + intros s Hs. rewrite Hcalc, P3. apply HF, Hs.
    + intros s Hs. rewrite Hcalc. apply HL, Hs.
  - exists cs, g', qe'. rewrite P3 in K3. auto 10.
Qed.

Lemma run_const_lemma up n g qe olds a M : idle g -> configured g a M -> s_h (rg_params g) <= 50000000 ->
  1 <= a < 2147483648 -> 17 <= M <= 1073741824 -> 1000000 <= a * (M * M) ->
  exists g1, rg_startRun up g = (g1, MOVE_OK) /\
  exists cs g' qe', ramp_run A true olds n g1 qe = Some (cs, g', qe') /\ length cs = n /\
    isRampGeneratorActive g' = true /\ Forall (queue_cmd A) cs /\ Forall (fun c => c_up c = up) cs /\
    speed_ok_prefix M cs.
Proof.
  intros Hi (V & Ea & EM & Ej & Eh) Hh Ha HM HaM.
  assert (Eq : parameters (update A (set_parameters (rg_params g) (ro_config (rg_ro g)))) = rg_params g)
    by (rewrite update_parameters; reflexivity).
  pose proof (accel_log_range a Ha) as La.
  rewrite <- EM in *.
  apply (run_lemma (KR - 101000) up n g qe olds Hi V Ej HM); [unfold KR; lia|..].
  - intros s Hs. unfold KR in Hs.
    destruct (quarter_spec _ Eh) as (_ & B & Q & _).
    assert (G : 255000000 <= s - quarter (s_h (rg_params g))) by (clear - Hs Hh B; lia).
    apply calc_small with (a := a); rewrite ?Eq; try assumption; try (clear - Hs Hh HM; lia).
    clear - G HaM HM. set (s' := s - _) in *. clearbody s'. nia.
  - apply calc_le_derived; rewrite ?Eq; try assumption.
    + apply update_derived; cbn [parameters set_parameters]; try assumption. rewrite Ea. exact La.
    + rewrite Ea. exact La.
Qed.
End WithArch.

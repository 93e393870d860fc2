(** * RampAcc: moves in any ramp state with a speed below one step per MIN_CMD_TICKS *)
From Coq Require Import ZArith Bool List Lia ZifyBool.
From Verif Require Import Base Pmf PmfFacts RampCalc RampCalcFacts RampLinear RampGen RampStep RampRun RampMove RampSafe.
Import ListNotations.
Open Scope Z_scope.
Ltac Zify.zify_post_hook ::= idtac.

Section WithArch.
Variable A : arch.
(** does the queue refuse commands below its minimum duration *)
Variable strict : bool.
Hypothesis HA : In A all_archs.

Record acc (ro : ramp_ro) (rw : ramp_rw) : Prop := mkAcc {
  ac_M : MIN_CMD_TICKS A <= min_travel_ticks (parameters (ro_config ro));
  ac_C : MIN_CMD_TICKS A <= rw_curr_ticks rw;
  ac_MC : min_travel_ticks (parameters (ro_config ro)) <= 65535 \/
          min_travel_ticks (parameters (ro_config ro)) <= rw_curr_ticks rw;
  ac_stop : rw_curr_ticks rw = TICKS_FOR_STOPPED_MOTOR -> rw_prus rw = 0;
  ac_pause : rw_pause_left rw = 0 \/ 32767 <= rw_pause_left rw
}.

Lemma acc_step ro rw qe old B n :
  sinv ro rw qe B -> cfg_ok A (ro_config ro) B -> acc ro rw ->
  getNextCommand_ A ro rw qe old = Some n -> c_ticks (n_cmd n) <> 0 ->
  let c := n_cmd n in
  let M := min_travel_ticks (parameters (ro_config ro)) in
  acc ro (n_rw n) /\
  MIN_CMD_TICKS A <= c_ticks c <= 65535 /\ 0 <= c_steps c <= 255 /\
  Z.min M (rw_curr_ticks rw) <= rw_curr_ticks (n_rw n) /\
  (c_steps c <> 0 -> rw_pause_left rw = 0 /\
     c_ticks c + rw_pause_left (n_rw n) = rw_curr_ticks (n_rw n) /\
     (2 <= c_steps c -> rw_pause_left (n_rw n) = 0)) /\
  (c_steps c = 0 -> rw_pause_left rw = c_ticks c + rw_pause_left (n_rw n)).
Proof.
  intros Hi Hc [Hm HmC Hmc Hs Hpa] G Ht. cbv zeta.
  pose proof (min_cmd_bounds A HA) as HN.
  pose proof Hi as [Hk HP HB Hp HC Hst Hact].
  destruct Hc as (HM & HX & Hcp & Hcl).
  destruct (Z.eq_dec (rw_pause_left rw) 0) as [Ep|Np].
  - pose proof (gnc_cases A ro rw qe old B Hi Ep) as GC. cbv zeta in GC.
    set (c := ro_config ro) in *. set (M := min_travel_ticks (parameters c)) in *.
    set (P := rw_prus rw) in *. set (d := i32 (ro_target_pos ro - qe_pos qe)) in *.
    set (C := rw_curr_ticks rw) in *.
    destruct GC as [(Ed & EP & GC)|(up1 & Hnt & HP0 & Hup & Hdist & GC)].
    { rewrite GC in G. injection G as <-. cbn in Ht. congruence. }
    rewrite GC in G. clear GC.
    set (rho := if up1 then d else - d) in *.
    assert (HC4 : 1 <= C < 4294967296) by (unfold TICKS_FOR_STOPPED_MOTOR in Hst; lia).
    assert (HC5 : C = TICKS_FOR_STOPPED_MOTOR \/ C <= 2147483648) by (clear - Hst; intuition).
    assert (Hcp' : calc_pos A c (Z.max P 42000)) by (clear - Hcp HB HP; intros z Hz; apply Hcp; lia).
    assert (Hmeas : Z.abs d + P < 1073741824) by (clear - HB; lia).
    assert (Hrho : 0 < rho /\ Z.abs d = rho \/ rho <= 0) by (clear; unfold rho; destruct up1; lia).
    assert (Step : exists o, core A c C P (Z.abs d) (0 <? rho) = Some o /\
        1 <= o_steps o <= 255 /\ 0 <= o_P o /\
        MIN_CMD_TICKS A <= o_ticks o <= 65535 /\ 0 <= o_pause o < 4294967296 /\
        Z.min M C <= o_pause o + o_ticks o <= 2147483648 /\
        (o_pause o <> 0 -> o_steps o = 1 /\ 32767 <= o_pause o)).
    { clear Hact Hdist Hst Hp Hup Hpa. clearbody rho d.
      destruct (Z.lt_ge_cases P rho) as [L|L].
      - assert (0 <? rho = true) as -> by (clear - L HP; lia).
        assert (E : Z.abs d = rho) by (clear - Hrho L HP; lia). rewrite E in *.
        destruct (core_ahead A HA c C P rho) as
           (o & Eo & _ & S1 & S2 & S3 & S4 & S5 & S6 & S7 & S8 & S9 & S10);
          try assumption; [fold M; clear - HM; lia|clear - L HP; lia|clear - L Hmeas HP; lia|].
        fold M in S7, S8, S9, S10. clear S10 S4.
        exists o. split; [exact Eo|].
        specialize (S8 Hcl ltac:(clear - HM; lia) HC5).
        specialize (S9 ltac:(clear - HM Hm; intros _; lia)).
        split; [exact S1|]. split; [exact S3|].
        split. { clear - S7 S9 HN Hm HmC Hmc S5 S6.
                 destruct S7 as [S7|(_ & S7 & _ & _ & S11)]; [lia|]. rewrite S7. lia. }
        split; [exact S5|].
        split; [clear - S8 S9; lia|]. exact S6.
      - assert (P1 : 1 <= P) by (clear - L HP HP0; lia).
        assert (HCs : C <> TICKS_FOR_STOPPED_MOTOR) by (clear - Hs P1; intros K; specialize (Hs K); lia).
        destruct (core_back A HA c C P (Z.abs d) (0 <? rho)) as
           (o & Eo & _ & S1 & S2 & S3 & S4 & S5 & S6 & S7 & S8 & S9);
          try assumption;
          [fold M; clear - HM; lia|clear - P1 Hmeas; lia|
           destruct Hrho as [(K1 & K2)|K]; [right; clear - K2 L; lia|left; clear - K; lia]|].
        fold M in S9. specialize (S9 Hcl ltac:(clear - HM; lia) HC5). specialize (S7 HCs).
        exists o. split; [exact Eo|].
        split; [exact S1|]. split; [clear - S2 S3; lia|].
        split. { clear - S4 S7 S8 HN HmC. lia. }
        split; [clear - S4 S5 S6; lia|].
        split; [clear - S7 S9; lia|].
        clear - S8; lia. }
    destruct Step as (o & Eo & S1 & S3 & S4 & S5 & S6 & S7).
    rewrite Eo in G. injection G as <-. cbn [n_cmd n_rw c_ticks c_steps c_up rw_pause_left rw_curr_ticks rw_prus].
    assert (u8 (o_steps o) = o_steps o) as -> by (apply u8_id; clear - S1; lia).
    assert (u32 (o_pause o + o_ticks o) = o_pause o + o_ticks o) as ->
      by (apply u32_id; clear - S4 S5 S6 HN; lia).
    assert (u16 (o_ticks o) = o_ticks o) as -> by (apply u16_id; clear - S4 HN; lia).
    split.
    { split; cbn [rw_prus rw_pause_left rw_curr_ticks rw_state]; fold c; fold M.
      - exact Hm.
      - clear - S6 Hm HmC. lia.
      - clear - S6 Hm Hmc. lia.
      - unfold TICKS_FOR_STOPPED_MOTOR. clear - S6. lia.
      - clear - S7. lia. }
    repeat split; try (clear - S4 S1 S6 HN; lia); try assumption.
    intros K. destruct (Z.eq_dec (o_pause o) 0) as [Q|Q]; [exact Q|]. destruct (S7 Q) as [Q1 _]. lia.
  - destruct (pause_spec rw qe ltac:(lia)) as (p & E & H1 & H2 & H3 & H4).
    unfold getNextCommand_ in G. rewrite E in G. injection G as <-.
    cbn [n_cmd n_rw c_ticks c_steps c_up rw_pause_left rw_curr_ticks rw_prus] in *.
    split.
    { split; cbn [rw_prus rw_pause_left rw_curr_ticks rw_state]; try assumption. lia. }
    assert (32767 <= p) by (clear - Hpa Np H1 H2 H3 H4; lia).
    repeat split; try (clear - H HN H1 Hm; lia); try congruence; try lia.
Qed.

Lemma acc_period_ok ro rw : acc ro rw -> period_ok ro rw.
Proof.
  intros [Hm HmC Hmc Hs _]. unfold period_ok. set (M := min_travel_ticks _) in *.
  pose proof (min_cmd_bounds A HA).
  destruct (Z.eq_dec (u16 M) 0) as [E|E]; [right|left; exact E].
  split; [|exact Hs]. 
  destruct (Z.le_gt_cases 65536 M); [lia|]. rewrite u16_id in E by lia. lia.
Qed.

Lemma speed_ok_le m m' cs : m <= m' -> speed_ok m' cs -> speed_ok m cs.
Proof.
  intros H. induction cs as [|c cs IH]; [trivial|]. cbn [speed_ok].
  intros (H1 & H2 & H3). repeat split; auto; lia.
Qed.

Definition acc_spec (ro : ramp_ro) (rw : ramp_rw)
  (cs : list command) (g' : rampgen) (qe' : queue_end) : Prop :=
  i32 (ro_target_pos ro - qe_pos qe') = 0 /\
  Forall (valid_cmd A) cs /\
  pauses cs = rw_pause_left rw /\
  speed_ok (Z.min (min_travel_ticks (parameters (ro_config ro))) (rw_curr_ticks rw)) cs.

Lemma acc_prepared_step qe g old B :
  let g1 := rg_prepare A qe g in
  norm g1 -> sinv (rg_ro g1) (rg_rw g1) qe B -> cfg_ok A (ro_config (rg_ro g1)) B ->
  acc (rg_ro g1) (rg_rw g1) ->
  exists cs g2 qe2, ramp_step A strict old g qe = Some (cs, g2, qe2) /\
    rg_ro g2 = rg_ro g1 /\ norm g2 /\
    (isRampGeneratorActive g2 = false /\ cs = [] /\
       acc_spec (rg_ro g1) (rg_rw g1) [] g2 qe2 \/
     sinv (rg_ro g2) (rg_rw g2) qe2 B /\ acc (rg_ro g2) (rg_rw g2) /\
     smeas (rg_ro g2) (rg_rw g2) qe2 < smeas (rg_ro g1) (rg_rw g1) qe /\
     rw_curr_ticks (rg_rw g2) <> TICKS_FOR_STOPPED_MOTOR /\
     (forall cs' g' qe', acc_spec (rg_ro g2) (rg_rw g2) cs' g' qe' ->
        acc_spec (rg_ro g1) (rg_rw g1) (cs ++ cs') g' qe')).
Proof.
  intros g1 Hn Hi Hc Hsf.
  destruct (prepared_step A HA qe g old B Hn Hi Hc (acc_period_ok _ _ Hsf))
    as (cs & g2 & qe2 & Hs & Hro & Hn2 & Hcase). fold g1 in Hro, Hcase.
  assert (Hs' := Hs). unfold ramp_step in Hs'. rewrite getNext_prepare in Hs' by (apply Hn).
  fold g1 in Hs'.
  destruct (getNextCommand_ A (rg_ro g1) (rg_rw g1) qe old) as [n|] eqn:EG; [|discriminate].
  destruct Hcase as [(Hact & Hd & -> & -> & Hp)|(c & -> & -> & Hi2 & Hm & HC2 & Hu2)].
  - exists [], g2, qe. split; [apply strict_step; [exact Hs|constructor]|].
    split; [exact Hro|]. split; [exact Hn2|]. left. split; [exact Hact|]. split; [reflexivity|].
    unfold acc_spec. rewrite Hd. cbn. repeat split; auto.
  - destruct (Z.eqb_spec (c_ticks (n_cmd n)) 0) as [|Nt]; [discriminate|].
    cbn [andb] in Hs'. injection Hs' as <- <- .
    destruct (acc_step _ _ _ _ _ _ Hi Hc Hsf EG Nt) as (Q1 & Q2 & Q3 & Q4 & Q5 & Q6).
    pose proof (min_cmd_bounds A HA) as HN.
    assert (Hdur : MIN_CMD_TICKS A <= cmd_duration (n_cmd n)).
    { unfold cmd_duration. clear - Q2 Q3 HN. nia. }
    eexists _, _, _. split; [apply strict_step; [exact Hs|repeat constructor; exact Hdur]|].
    split; [reflexivity|]. split; [exact Hn|]. right.
    split; [exact Hi2|]. split; [exact Q1|]. split; [exact Hm|]. split; [exact HC2|].
    unfold rg_afterCommandEnqueued in *. cbn [with_rw rg_ro rg_rw] in *.
    intros cs' g' qe' (R1 & R3 & R5 & R6).
    set (c := n_cmd n) in *. set (M := min_travel_ticks _) in *.
    assert (R6' : speed_ok (Z.min M (rw_curr_ticks (rg_rw g1))) cs').
    { eapply speed_ok_le; [|exact R6]. clear - Q4. lia. }
    unfold acc_spec. cbn [app total_steps pauses speed_ok]. split; [exact R1|].
    split; [constructor; [split; [lia|split; [lia|exact Hdur]]|exact R3]|].
    destruct (Z.eqb_spec (c_steps c) 0) as [E0|N0].
    + specialize (Q6 E0).
      split; [lia|]. split; [intros; contradiction|]. split; [lia|exact R6'].
    + destruct (Q5 N0) as (Q8 & Q9 & Q10).
      split; [lia|]. split; [fold M; lia|]. split; [|exact R6']. intros K. specialize (Q10 K). fold M. lia.
Qed.

Theorem run_acc : forall k g qe olds B,
  smeas (rg_ro g) (rg_rw g) qe <= k ->
  norm g -> rw_curr_ticks (rg_rw g) <> TICKS_FOR_STOPPED_MOTOR ->
  sinv (rg_ro g) (rg_rw g) qe B -> cfg_ok A (ro_config (rg_ro g)) B ->
  acc (rg_ro g) (rg_rw g) ->
  ends_at A strict olds g qe (acc_spec (rg_ro g) (rg_rw g)).
Proof.
  intros k. induction k as [k IH] using (well_founded_induction (Zwf.Zwf_well_founded (-1))).
  intros g qe olds B Hk Hn HC Hi Hc Hsf.
  pose proof (prepare_norm A qe g Hn HC) as E.
  destruct (acc_prepared_step qe g (olds O) B) as (cs & g2 & qe2 & Hs & Hro & Hn2 & Hcase);
    rewrite ?E; try assumption.
  rewrite E in Hcase, Hro.
  eapply ends_step; [apply active_not_idle, Hi|exact Hs|].
  destruct Hcase as [(Hact & -> & HQ)|(Hi2 & Hsf2 & Hm & HC2 & HQ)].
  - apply ends_idle; assumption.
  - pose proof (smeas_pos _ _ _ _ Hi2) as Hp. pose proof (smeas_pos _ _ _ _ Hi) as Hp0.
    apply (ends_weaken A strict _ _ _ (acc_spec (rg_ro g2) (rg_rw g2))); [exact HQ|].
    apply (IH (smeas (rg_ro g2) (rg_rw g2) qe2)) with (B := B); try assumption; try lia.
    + unfold Zwf.Zwf. lia.
    + rewrite Hro. exact Hc.
Qed.

Theorem run_acc_prepared g qe olds B :
  let g1 := rg_prepare A qe g in
  norm g1 -> sinv (rg_ro g1) (rg_rw g1) qe B -> cfg_ok A (ro_config (rg_ro g1)) B ->
  acc (rg_ro g1) (rg_rw g1) ->
  ends_at A strict olds g qe (acc_spec (rg_ro g1) (rg_rw g1)).
Proof.
  intros g1 Hn Hi Hc Hsf.
  destruct (acc_prepared_step qe g (olds O) B Hn Hi Hc Hsf) as (cs & g2 & qe2 & Hs & Hro & Hn2 & Hcase).
  fold g1 in Hro, Hcase.
  eapply ends_step; [apply active_not_idle; rewrite <- (prepared_active A qe); apply Hi|exact Hs|].
  destruct Hcase as [(Hact & -> & HQ)|(Hi2 & Hsf2 & Hm & HC2 & HQ)].
  - apply ends_idle; assumption.
  - apply (ends_weaken A strict _ _ _ (acc_spec (rg_ro g2) (rg_rw g2))); [exact HQ|].
    eapply run_acc; try eassumption; rewrite ?Hro; try eassumption. apply Z.le_refl.
Qed.

(** a pending move in any ramp state: every command is accepted by the queue *)
Theorem move_accepted g qe olds a :
  let p := rg_params g in
  let ro := rg_ro g in
  let rw := rg_rw g in
  let c := update A (set_parameters p (ro_config ro)) in
  let P := start_prus A p c rw in
  let t := target_of p (keep_running (parameters (ro_config ro))) (ro_target_pos ro) (qe_pos qe) in
  let d := i32 (t - qe_pos qe) in
  let M := min_travel_ticks p in
  let C := rw_curr_ticks rw in
  apply p = true -> any_change p = true -> keep_running p = false ->
  ro_force_stop ro = false -> ro_force_immediate ro = false ->
  s_jump p = 0 -> 0 <= s_h p < 4294967294 -> pmfl_accel p = pmfl_from_u32 a -> 1 <= a < 2147483648 ->
  MIN_CMD_TICKS A <= M <= 1073741824 -> (M <= 65535 \/ M <= C) ->
  isRampGeneratorActive g = true ->
  MIN_CMD_TICKS A <= C -> 0 <= rw_prus rw ->
  (rw_pause_left rw = 0 \/ 32767 <= rw_pause_left rw < 4294967296) ->
  (C = TICKS_FOR_STOPPED_MOTOR /\ rw_pause_left rw = 0 \/ C <= 2147483648) ->
  -2147483648 <= qe_pos qe < 2147483648 ->
  Z.abs d + P < 1073741824 ->
  a * Z.max (Z.abs d + P) 42000 <= 100000000000000 ->
  ends_at A strict olds g qe (fun cs _ qe' => qe_pos qe' = i32 t /\
    Forall (valid_cmd A) cs /\ pauses cs = rw_pause_left rw /\ speed_ok (Z.min M C) cs).
Proof.
  intros p ro rw c P t d M C H1 H2 H3 H4 H5 H6 H7 H8 HaR HM HuM Hact HC HPr Hp Hst Hq HB Hab.
  pose proof (min_cmd_bounds A HA) as HN.
  destruct (prepare_pending A qe g H1 H2 H3 H4 H5 (fun _ => H6)) as
    (N & E1 & E2 & E3 & E4 & E5 & E6 & E7).
  fold p in E1, E2, E3, E5, E6, E7. fold ro in E5, E6, E7. fold rw in E7. fold c in E5, E7. fold P in E7.
  fold t in E6. fold M in E1. fold C in E7.
  assert (HP : 0 <= P).
  { unfold P, start_prus. destruct (_ =? _); [lia|]. destruct (recalc_ramp_steps p); [|exact HPr].
    pose proof (calculate_ramp_steps_range A c (rw_curr_ticks rw)). lia. }
  assert (I : sinv (rg_ro (rg_prepare A qe g)) (rg_rw (rg_prepare A qe g)) qe (Z.abs d + P)).
  { split; rewrite ?E4, ?E6, ?E7; cbn [rw_prus rw_pause_left rw_curr_ticks rw_state]; fold d; try lia.
    unfold isRampGeneratorActive in Hact. fold rw in Hact. intros K. rewrite K in Hact. discriminate. }
  assert (K : cfg_ok A (ro_config (rg_ro (rg_prepare A qe g))) (Z.abs d + P)).
  { apply cfg_ok_derived with (a := a); rewrite ?E1, ?E2, ?E3; try assumption; try lia.
    { apply prepare_derived; fold p; try assumption; [|congruence]. intros _. rewrite H8. pose proof (accel_log_range a HaR). auto. }
    rewrite E5. pose proof (update_X A (set_parameters p (ro_config ro))). fold c in H. lia. }
  assert (S : acc (rg_ro (rg_prepare A qe g)) (rg_rw (rg_prepare A qe g))).
  { split; rewrite ?E1, ?E6, ?E7; cbn [rw_prus rw_pause_left rw_curr_ticks]; try lia.
    intros K0. unfold P, start_prus. fold C. rewrite K0, Z.eqb_refl. exact H6. }
  destruct (run_acc_prepared g qe olds (Z.abs d + P) N I K S)
    as (n & cs & g' & qe' & R1 & R2 & R3 & R4 & R5 & R6).
  exists n, cs, g', qe'. split; [exact R1|]. split; [exact R2|].
  rewrite E6 in R3. rewrite E1 in R6. rewrite E7 in R5, R6. cbn [rw_pause_left rw_curr_ticks] in R5, R6.
  pose proof (run_qe_range A strict n olds g qe cs g' qe' Hq R1) as Hq'.
  assert (Ht : t = u32 (i32 t)).
  { rewrite u32_i32. unfold t, target_of. destruct (move_absolute p); unfold u32;
      rewrite Z.mod_mod by lia; reflexivity. }
  split. { rewrite Ht in R3. apply i32_zero_pos; try assumption. apply i32_range. }
  repeat split; assumption.
Qed.
End WithArch.

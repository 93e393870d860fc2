(** * RampSafe: moves from standstill with a speed below one step per MIN_CMD_TICKS *)
From Coq Require Import ZArith Bool List Lia ZifyBool.
From Verif Require Import Base Pmf PmfFacts RampCalc RampCalcFacts RampLinear RampGen RampStep RampRun RampMove.
Import ListNotations.
Open Scope Z_scope.
Ltac Zify.zify_post_hook ::= idtac.

Section WithArch.
Variable A : arch.
(** does the queue refuse commands below its minimum duration *)
Variable strict : bool.
Hypothesis HA : In A all_archs.

Definition along (up : bool) (d : Z) : Z := if up then d else - d.

Record safe (ro : ramp_ro) (rw : ramp_rw) (qe : queue_end) (up : bool) : Prop := mkSafe {
  sf_M : MIN_CMD_TICKS A <= min_travel_ticks (parameters (ro_config ro)) <= rw_curr_ticks rw;
  sf_stop : rw_curr_ticks rw = TICKS_FOR_STOPPED_MOTOR -> rw_prus rw = 0;
  sf_pause : rw_pause_left rw = 0 \/ 32767 <= rw_pause_left rw;
  sf_up : rw_prus rw <> 0 -> qe_up qe = up;
  sf_along : 0 <= along up (i32 (ro_target_pos ro - qe_pos qe));
  sf_v : rw_prus rw <= along up (i32 (ro_target_pos ro - qe_pos qe)) \/
         i32 (ro_target_pos ro - qe_pos qe) = 0 /\ rw_prus rw <= 1
}.

Lemma safe_step ro rw qe old B up n :
  sinv ro rw qe B -> cfg_ok A (ro_config ro) B -> safe ro rw qe up ->
  getNextCommand_ A ro rw qe old = Some n -> c_ticks (n_cmd n) <> 0 ->
  let c := n_cmd n in
  let M := min_travel_ticks (parameters (ro_config ro)) in
  safe ro (n_rw n) (enqueue c qe) up /\
  Z.min M 32767 <= c_ticks c <= 65535 /\ 0 <= c_steps c <= 255 /\
  M <= rw_curr_ticks (n_rw n) /\
  (c_steps c <> 0 -> c_up c = up /\ rw_pause_left rw = 0 /\
     c_ticks c + rw_pause_left (n_rw n) = rw_curr_ticks (n_rw n) /\
     (2 <= c_steps c -> rw_pause_left (n_rw n) = 0) /\
     c_steps c <= along up (i32 (ro_target_pos ro - qe_pos qe)) /\
     along up (i32 (ro_target_pos ro - qe_pos (enqueue c qe))) =
     along up (i32 (ro_target_pos ro - qe_pos qe)) - c_steps c) /\
  (c_steps c = 0 -> rw_pause_left rw = c_ticks c + rw_pause_left (n_rw n) /\ rw_pause_left rw <> 0).
Proof.
  intros Hi Hc [Hm Hs Hpa Hu Hal Hv] G Ht. cbv zeta.
  pose proof (min_cmd_bounds A HA) as HN.
  pose proof Hi as [Hk HP HB Hp HC Hst Hact].
  destruct Hc as (HM & HX & Hcp & Hcl).
  destruct (Z.eq_dec (rw_pause_left rw) 0) as [Ep|Np].
  - pose proof (gnc_cases A ro rw qe old B Hi Ep) as GC. cbv zeta in GC.
    set (c := ro_config ro) in *. set (M := min_travel_ticks (parameters c)) in *.
    set (P := rw_prus rw) in *. set (d := i32 (ro_target_pos ro - qe_pos qe)) in *.
    set (C := rw_curr_ticks rw) in *.
    destruct GC as [(Ed & EP & GC)|(up1 & Hnt & HP0 & Hup & Hdist & GC)].
    { rewrite GC in G. injection G as <-. cbn in Ht. congruence. }
    rewrite GC in G. clear GC.
    assert (Eup : up1 = up).
    { destruct (Z.eq_dec P 0) as [E0|N0]; [|rewrite Hup by assumption; apply Hu; assumption].
      specialize (HP0 E0). clear - HP0 Hal. unfold along in Hal. destruct up1, up; try reflexivity; lia. }
    subst up1. fold (along up d) in *.
    assert (Habs : Z.abs d = along up d).
    { clear - Hal. unfold along in *. destruct up; lia. }
    assert (HPv : P <= along up d).
    { destruct Hv as [Hv|(Hv1 & Hv2)]; [exact Hv|]. exfalso. apply Hnt. split; [|exact Hv2].
      clear - Hv1. unfold along. destruct up; lia. }
    assert (HC4 : 1 <= C < 4294967296) by (unfold TICKS_FOR_STOPPED_MOTOR in Hst; lia).
    assert (HC5 : C = TICKS_FOR_STOPPED_MOTOR \/ C <= 2147483648) by (clear - Hst; intuition).
    assert (Hcp' : calc_pos A c (Z.max P 42000)) by (clear - Hcp HB HP; intros z Hz; apply Hcp; lia).
    assert (Hmeas : along up d + P < 1073741824) by (clear - HB Habs; lia).
    set (rho := along up d) in *. rewrite Habs in G.
    assert (Step : exists o, core A c C P rho (0 <? rho) = Some o /\
        1 <= o_steps o <= 255 /\ o_steps o <= rho /\ 0 <= o_P o /\
        Z.min M 32767 <= o_ticks o <= 65535 /\ 0 <= o_pause o < 4294967296 /\
        M <= o_pause o + o_ticks o <= 2147483648 /\
        (o_pause o <> 0 -> o_steps o = 1 /\ 32767 <= o_pause o) /\
        (o_P o <= rho - o_steps o \/ rho - o_steps o = 0 /\ o_P o <= 1)).
    { clear Hact Hdist Hst Hp Hup Hu Hpa. clearbody rho d. clear Hv Hal.
      destruct (Z.lt_ge_cases P rho) as [L|L].
      - assert (0 <? rho = true) as -> by (clear - L HP; lia).
        destruct (core_ahead A HA c C P rho) as
           (o & Eo & _ & S1 & S2 & S3 & S4 & S5 & S6 & S7 & S8 & S9 & S10);
          try assumption; [fold M; clear - HM; lia|clear - L HP; lia|clear - L Hmeas HP; lia|].
        fold M in S7, S8, S9, S10.
        exists o. split; [exact Eo|].
        specialize (S8 Hcl ltac:(clear - HM; lia) HC5).
        specialize (S9 ltac:(clear - HM Hm; intros _; lia)).
        specialize (S10 ltac:(clear - Hm; lia) ltac:(clear - Hm; lia)).
        rewrite Z.min_l in S9 by (clear - Hm; lia).
        split; [exact S1|]. split; [exact S2|]. split; [exact S3|].
        split. { clear - S7 S9 HN Hm S5 S6. lia. }
        split; [exact S5|].
        split; [clear - S8 S9; lia|]. split; [exact S6|].
        destruct S10 as [S10|(S10 & S11)]; [left; clear - S10; lia|right].
        specialize (Hs S11). clear - S4 S1 S2 S10 Hs. lia.
      - assert (E : rho = P) by (clear - L HPv; lia).
        assert (P1 : 1 <= P) by (clear - E HP0 HP; lia).
        assert (HCs : C <> TICKS_FOR_STOPPED_MOTOR) by (clear - Hs P1; intros K; specialize (Hs K); lia).
        destruct (core_back A HA c C P rho (0 <? rho)) as
           (o & Eo & _ & S1 & S2 & S3 & S4 & S5 & S6 & S7 & S8 & S9);
          try assumption;
          [fold M; clear - HM; lia|clear - P1 Hmeas E; lia|right; clear - E; lia|].
        fold M in S9. specialize (S9 Hcl ltac:(clear - HM; lia) HC5). specialize (S7 HCs).
        exists o. split; [exact Eo|].
        split; [exact S1|]. split; [clear - S2 E; lia|]. split; [clear - S2 S3; lia|].
        split. { clear - S4 S7 S8 HN Hm. lia. }
        split; [clear - S4 S5 S6; lia|].
        split; [clear - S7 S9 Hm; lia|].
        split; [clear - S8; lia|].
        left. clear - S3 E. lia. }
    destruct Step as (o & Eo & S1 & S2 & S3 & S4 & S5 & S6 & S7 & S8).
    rewrite Eo in G. injection G as <-. cbn [n_cmd n_rw c_ticks c_steps c_up rw_pause_left rw_curr_ticks rw_prus].
    assert (u8 (o_steps o) = o_steps o) as -> by (apply u8_id; clear - S1; lia).
    assert (u32 (o_pause o + o_ticks o) = o_pause o + o_ticks o) as -> by (apply u32_id; clear - S6 HM; lia).
    assert (u16 (o_ticks o) = o_ticks o) as -> by (apply u16_id; clear - S4 HN Hm; lia).
    assert (Hd' : i32 (ro_target_pos ro - qe_pos (enqueue (mkCommand (o_ticks o) (o_steps o) up) qe))
       = moved up d (o_steps o)).
    { apply enqueue_delta; cbn [c_steps]; fold d; clear - S1 HB HP; lia. }
    assert (Ha' : along up (moved up d (o_steps o)) = rho - o_steps o).
    { clear. unfold rho, along, moved. destruct up; lia. }
    split.
    { split; cbn [rw_prus rw_pause_left rw_curr_ticks rw_state enqueue qe_up c_up];
        cbn [enqueue] in Hd'; rewrite ?Hd', ?Ha'; fold c; fold M.
      - clear - S6 Hm. lia.
      - unfold TICKS_FOR_STOPPED_MOTOR. clear - S6. lia.
      - clear - S7. lia.
      - reflexivity.
      - clear - S2. lia.
      - destruct S8 as [S8|(S8 & S9)]; [left; exact S8|right]. split; [|exact S9].
        rewrite <- Ha' in S8. clear - S8. unfold along in S8. destruct up; lia. }
    rewrite Hd', Ha'.
    repeat split; try (clear - S4 S1 S6 HN; lia); try assumption.
    + intros K. destruct (Z.eq_dec (o_pause o) 0) as [Q|Q]; [exact Q|]. destruct (S7 Q) as [Q1 _]. lia.
    + lia.
    + lia.
  - destruct (pause_spec rw qe ltac:(lia)) as (p & E & H1 & H2 & H3 & H4).
    unfold getNextCommand_ in G. rewrite E in G. injection G as <-.
    cbn [n_cmd n_rw c_ticks c_steps c_up rw_pause_left rw_curr_ticks rw_prus].
    assert (Hd' : i32 (ro_target_pos ro - qe_pos (enqueue (mkCommand p 0 (qe_up qe)) qe))
         = i32 (ro_target_pos ro - qe_pos qe)).
    { rewrite enqueue_delta; cbn [c_steps c_up]; unfold moved; [destruct (qe_up qe)|..]; lia. }
    split.
    { split; cbn [rw_prus rw_pause_left rw_curr_ticks rw_state]; rewrite ?Hd'; try assumption.
      clear - H1 H2 H3 H4 Np. lia. }
    assert (32767 <= p) by (clear - Hpa Np H1 H2 H3 H4; lia).
    repeat split; try (clear - H HN H1 Hm; lia); try congruence; try lia.
Qed.

(** ** Specification of a list of commands *)
Fixpoint total_steps (cs : list command) : Z :=
  match cs with [] => 0 | c :: cs => c_steps c + total_steps cs end.
(** duration of the leading pauses *)
Fixpoint pauses (cs : list command) : Z :=
  match cs with
  | [] => 0
  | c :: cs => if c_steps c =? 0 then c_ticks c + pauses cs else 0
  end.
(** the time between two steps is at least [M]: inside of a command its period,
    between two commands the period plus the following pauses *)
Fixpoint speed_ok (M : Z) (cs : list command) : Prop :=
  match cs with
  | [] => True
  | c :: cs =>
    (c_steps c <> 0 -> M <= c_ticks c + pauses cs) /\
    (2 <= c_steps c -> M <= c_ticks c) /\ speed_ok M cs
  end.
(** fields are in range and the queue accepts the command *)
Definition queue_cmd (c : command) : Prop :=
  0 < c_ticks c <= 65535 /\ 0 <= c_steps c <= 255 /\ MIN_CMD_TICKS A <= cmd_duration c.
(** also, no period is shorter than MIN_CMD_TICKS *)
Definition valid_cmd (c : command) : Prop :=
  MIN_CMD_TICKS A <= c_ticks c <= 65535 /\ 0 <= c_steps c <= 255 /\ MIN_CMD_TICKS A <= cmd_duration c.
(** periods and pauses are not shorter than [M] ticks or half the longest command *)
Definition at_least (M : Z) (c : command) : Prop := Z.min M 32767 <= c_ticks c.
Definition moves_only (up : bool) (c : command) : Prop := c_steps c <> 0 -> c_up c = up.

Lemma safe_period_ok ro rw qe up : safe ro rw qe up -> period_ok ro rw.
Proof.
  intros [Hm Hs _ _ _ _]. unfold period_ok. set (M := min_travel_ticks _) in *.
  pose proof (min_cmd_bounds A HA).
  destruct (Z.eq_dec (u16 M) 0) as [E|E]; [right|left; exact E].
  split; [|exact Hs]. split; [|lia].
  destruct (Z.le_gt_cases 65536 M); [assumption|]. rewrite u16_id in E by lia. lia.
Qed.

Lemma strict_step old g qe cs g2 qe2 :
  ramp_step A false old g qe = Some (cs, g2, qe2) ->
  Forall (fun c => MIN_CMD_TICKS A <= cmd_duration c) cs ->
  ramp_step A strict old g qe = Some (cs, g2, qe2).
Proof.
  unfold ramp_step. destruct (rg_getNextCommand A qe old g) as [[g' n]|]; [|discriminate].
  destruct (_ =? 0); [auto|]. cbn [andb]. intros E H. injection E as <- <- <-.
  inversion H; subst. destruct strict; [|reflexivity].
  destruct (Z.ltb_spec (cmd_duration (n_cmd n)) (MIN_CMD_TICKS A)); [lia|reflexivity].
Qed.

Definition run_spec (ro : ramp_ro) (rw : ramp_rw) (qe : queue_end) (up : bool)
  (cs : list command) (g' : rampgen) (qe' : queue_end) : Prop :=
  i32 (ro_target_pos ro - qe_pos qe') = 0 /\
  total_steps cs = along up (i32 (ro_target_pos ro - qe_pos qe)) /\
  Forall valid_cmd cs /\ Forall (moves_only up) cs /\
  pauses cs = rw_pause_left rw /\
  speed_ok (min_travel_ticks (parameters (ro_config ro))) cs /\
  Forall (at_least (min_travel_ticks (parameters (ro_config ro)))) cs.

(** one step of a prepared generator *)
Lemma safe_prepared_step qe g old B up :
  let g1 := rg_prepare A qe g in
  norm g1 -> sinv (rg_ro g1) (rg_rw g1) qe B -> cfg_ok A (ro_config (rg_ro g1)) B ->
  safe (rg_ro g1) (rg_rw g1) qe up ->
  exists cs g2 qe2, ramp_step A strict old g qe = Some (cs, g2, qe2) /\
    rg_ro g2 = rg_ro g1 /\ norm g2 /\
    (isRampGeneratorActive g2 = false /\ cs = [] /\
       run_spec (rg_ro g1) (rg_rw g1) qe up [] g2 qe2 \/
     cs <> [] /\ sinv (rg_ro g2) (rg_rw g2) qe2 B /\ safe (rg_ro g2) (rg_rw g2) qe2 up /\
     smeas (rg_ro g2) (rg_rw g2) qe2 < smeas (rg_ro g1) (rg_rw g1) qe /\
     rw_curr_ticks (rg_rw g2) <> TICKS_FOR_STOPPED_MOTOR /\
     (forall cs' g' qe', run_spec (rg_ro g2) (rg_rw g2) qe2 up cs' g' qe' ->
        run_spec (rg_ro g1) (rg_rw g1) qe up (cs ++ cs') g' qe')).
Proof.
  intros g1 Hn Hi Hc Hsf.
  destruct (prepared_step A HA qe g old B Hn Hi Hc (safe_period_ok _ _ _ _ Hsf))
    as (cs & g2 & qe2 & Hs & Hro & Hn2 & Hcase). fold g1 in Hro, Hcase.
  assert (Hs' := Hs). unfold ramp_step in Hs'. rewrite getNext_prepare in Hs' by (apply Hn).
  fold g1 in Hs'.
  destruct (getNextCommand_ A (rg_ro g1) (rg_rw g1) qe old) as [n|] eqn:EG; [|discriminate].
  destruct Hcase as [(Hact & Hd & -> & -> & Hp)|(c & -> & -> & Hi2 & Hm & HC2 & Hu2)].
  - exists [], g2, qe. split; [apply strict_step; [exact Hs|constructor]|].
    split; [exact Hro|]. split; [exact Hn2|]. left. split; [exact Hact|]. split; [reflexivity|].
    unfold run_spec. rewrite Hd. unfold along. cbn. repeat split; auto. destruct up; reflexivity.
  - destruct (Z.eqb_spec (c_ticks (n_cmd n)) 0) as [|Nt]; [discriminate|].
    cbn [andb] in Hs'. injection Hs' as <- <- .
    destruct (safe_step _ _ _ _ _ _ _ Hi Hc Hsf EG Nt) as (Q1 & Q2 & Q3 & Q4 & Q5 & Q6).
    pose proof (min_cmd_bounds A HA) as HN.
    assert (Hmin : MIN_CMD_TICKS A <= c_ticks (n_cmd n)) by (clear - Q2 HN Hsf; destruct Hsf; lia).
    assert (Hdur : MIN_CMD_TICKS A <= cmd_duration (n_cmd n)).
    { unfold cmd_duration. clear - Hmin Q3 HN. nia. }
    eexists _, _, _. split; [apply strict_step; [exact Hs|repeat constructor; exact Hdur]|].
    split; [reflexivity|]. split; [exact Hn|]. right. split; [discriminate|].
    split; [exact Hi2|]. split; [exact Q1|]. split; [exact Hm|]. split; [exact HC2|].
    unfold rg_afterCommandEnqueued in *. cbn [with_rw rg_ro rg_rw] in *.
    intros cs' g' qe' (R1 & R2 & R3 & R4 & R5 & R6 & R7).
    set (c := n_cmd n) in *.
    unfold run_spec. cbn [app total_steps pauses speed_ok]. split; [exact R1|].
    destruct (Z.eqb_spec (c_steps c) 0) as [E0|N0].
    + destruct (Q6 E0) as (Q7 & Q8).
      assert (Epos : i32 (ro_target_pos (rg_ro g1) - qe_pos (enqueue c qe)) =
                     i32 (ro_target_pos (rg_ro g1) - qe_pos qe)).
      { rewrite enqueue_delta; [unfold moved; destruct (c_up c); lia|lia|]. destruct Hi; lia. }
      rewrite Epos in R2.
      split; [lia|]. split; [constructor; [split; [lia|split; [lia|exact Hdur]]|exact R3]|].
      split; [constructor; [intros ?; contradiction|exact R4]|].
      split; [lia|]. split; [split; [intros; contradiction|]; split; [lia|exact R6]|]. constructor; [apply Q2|exact R7].
    + destruct (Q5 N0) as (Q7 & Q8 & Q9 & Q10 & Q11 & Q12).
      split; [lia|]. split; [constructor; [split; [lia|split; [lia|exact Hdur]]|exact R3]|].
      split; [constructor; [intros _; exact Q7|exact R4]|].
      split; [lia|]. split; [split; [lia|]; split; [|exact R6]; intros K; specialize (Q10 K); lia|]. constructor; [apply Q2|exact R7].
Qed.

Theorem run_safe : forall k g qe olds B up,
  smeas (rg_ro g) (rg_rw g) qe <= k ->
  norm g -> rw_curr_ticks (rg_rw g) <> TICKS_FOR_STOPPED_MOTOR ->
  sinv (rg_ro g) (rg_rw g) qe B -> cfg_ok A (ro_config (rg_ro g)) B ->
  safe (rg_ro g) (rg_rw g) qe up ->
  ends_soon A strict olds g qe (run_spec (rg_ro g) (rg_rw g) qe up).
Proof.
  intros k. induction k as [k IH] using (well_founded_induction (Zwf.Zwf_well_founded (-1))).
  intros g qe olds B up Hk Hn HC Hi Hc Hsf.
  pose proof (prepare_norm A qe g Hn HC) as E.
  destruct (safe_prepared_step qe g (olds O) B up) as (cs & g2 & qe2 & Hs & Hro & Hn2 & Hcase);
    rewrite ?E; try assumption.
  rewrite E in Hcase, Hro.
  destruct Hcase as [(Hact & -> & HQ)|(Hne & Hi2 & Hsf2 & Hm & HC2 & HQ)].
  - eapply soon_last; [apply active_not_idle, Hi|exact Hs|exact Hact|exact HQ].
  - eapply soon_step; [apply active_not_idle, Hi|exact Hne|exact Hs|].
    pose proof (smeas_pos _ _ _ _ Hi2) as Hp. pose proof (smeas_pos _ _ _ _ Hi) as Hp0.
    apply (soon_weaken A strict _ _ _ (run_spec (rg_ro g2) (rg_rw g2) qe2 up)); [exact HQ|].
    apply (IH (smeas (rg_ro g2) (rg_rw g2) qe2)) with (B := B); try assumption; try lia.
    + unfold Zwf.Zwf. lia.
    + rewrite Hro. exact Hc.
Qed.

Theorem run_safe_prepared g qe olds B up :
  let g1 := rg_prepare A qe g in
  norm g1 -> sinv (rg_ro g1) (rg_rw g1) qe B -> cfg_ok A (ro_config (rg_ro g1)) B ->
  safe (rg_ro g1) (rg_rw g1) qe up ->
  ends_soon A strict olds g qe (run_spec (rg_ro g1) (rg_rw g1) qe up).
Proof.
  intros g1 Hn Hi Hc Hsf.
  destruct (safe_prepared_step qe g (olds O) B up Hn Hi Hc Hsf) as (cs & g2 & qe2 & Hs & Hro & Hn2 & Hcase).
  fold g1 in Hro, Hcase.
  assert (Ha : isRampGeneratorActive g = true) by (apply active_not_idle; rewrite <- (prepared_active A qe); apply Hi).
  destruct Hcase as [(Hact & -> & HQ)|(Hne & Hi2 & Hsf2 & Hm & HC2 & HQ)].
  - eapply soon_last; eassumption.
  - eapply soon_step; [exact Ha|exact Hne|exact Hs|].
    apply (soon_weaken A strict _ _ _ (run_spec (rg_ro g2) (rg_rw g2) qe2 up)); [exact HQ|].
    eapply run_safe; try eassumption; rewrite ?Hro; try eassumption. apply Z.le_refl.
Qed.

(** a move from standstill *)
Theorem standstill_move g qe olds a D :
  let p := rg_params g in
  let ro := rg_ro g in
  let rw := rg_rw g in
  let t := target_of p (keep_running (parameters (ro_config ro))) (ro_target_pos ro) (qe_pos qe) in
  apply p = true -> any_change p = true -> keep_running p = false ->
  ro_force_stop ro = false -> ro_force_immediate ro = false ->
  s_jump p = 0 -> 0 <= s_h p < 4294967294 -> pmfl_accel p = pmfl_from_u32 a -> 1 <= a < 2147483648 ->
  MIN_CMD_TICKS A <= min_travel_ticks p <= 1073741824 ->
  isRampGeneratorActive g = true ->
  rw_curr_ticks rw = TICKS_FOR_STOPPED_MOTOR -> rw_pause_left rw = 0 ->
  -2147483648 <= qe_pos qe < 2147483648 ->
  D = i32 (t - qe_pos qe) ->
  Z.abs D < 1073741824 -> a * Z.max (Z.abs D) 42000 <= 100000000000000 ->
  ends_soon A strict olds g qe (fun cs _ qe' => qe_pos qe' = i32 t /\
    total_steps cs = Z.abs D /\ Forall valid_cmd cs /\ Forall (moves_only (0 <? D)) cs /\
    speed_ok (min_travel_ticks p) cs /\ Forall (at_least (min_travel_ticks p)) cs).
Proof.
  intros p ro rw t H1 H2 H3 H4 H5 H6 H7 H8 HaR HM Hact HC Hp Hq HD HB Hab.
  pose proof (min_cmd_bounds A HA) as HN.
  destruct (prepare_pending A qe g H1 H2 H3 H4 H5 (fun _ => H6)) as
    (N & E1 & E2 & E3 & E4 & E5 & E6 & E7).
  fold p in E1, E2, E3, E5, E6, E7. fold ro in E5, E6, E7. fold rw in E7. fold t in E6.
  unfold start_prus in E7. rewrite HC, Z.eqb_refl, H6, Hp in E7.
  assert (I : sinv (rg_ro (rg_prepare A qe g)) (rg_rw (rg_prepare A qe g)) qe (Z.abs D)).
  { split; rewrite ?E4, ?E6, ?E7, <- ?HD; cbn [rw_prus rw_pause_left rw_curr_ticks rw_state]; try lia.
    - unfold TICKS_FOR_STOPPED_MOTOR. lia.
    - unfold isRampGeneratorActive in Hact. fold rw in Hact. intros K. rewrite K in Hact. discriminate. }
  assert (K : cfg_ok A (ro_config (rg_ro (rg_prepare A qe g))) (Z.abs D)).
  { apply cfg_ok_derived with (a := a); rewrite ?E1, ?E2, ?E3; try assumption; try lia.
    { apply prepare_derived; fold p; try assumption; [|congruence]. intros _. rewrite H8. pose proof (accel_log_range a HaR). auto. }
    rewrite E5. pose proof (update_X A (set_parameters p (ro_config ro))). lia. }
  assert (S : safe (rg_ro (rg_prepare A qe g)) (rg_rw (rg_prepare A qe g)) qe (0 <? D)).
  { split; rewrite ?E1, ?E6, ?E7, <- ?HD; cbn [rw_prus rw_pause_left rw_curr_ticks]; try lia.
    - unfold TICKS_FOR_STOPPED_MOTOR. lia.
    - unfold along. destruct (Z.ltb_spec 0 D); lia.
    - left. unfold along. destruct (Z.ltb_spec 0 D); lia. }
  destruct (run_safe_prepared g qe olds (Z.abs D) (0 <? D) N I K S)
    as (n & cs & g' & qe' & R1 & R2 & RN & R3 & R4 & R5 & R6 & R7 & R8 & R9).
  exists n, cs, g', qe'. split; [exact R1|]. split; [exact R2|]. split; [exact RN|].
  rewrite E6 in R3, R4. rewrite E1 in R8, R9. rewrite <- HD in R4.
  pose proof (run_qe_range A strict n olds g qe cs g' qe' Hq R1) as Hq'.
  assert (Ht : t = u32 (i32 t)).
  { rewrite u32_i32. unfold t, target_of. destruct (move_absolute p); unfold u32;
      rewrite Z.mod_mod by lia; reflexivity. }
  split. { rewrite Ht in R3. apply i32_zero_pos; try assumption. apply i32_range. }
  split. { rewrite R4. unfold along. destruct (Z.ltb_spec 0 D); lia. }
  repeat split; assumption.
Qed.
End WithArch.

(** * RampOne: the number of steps of a command behind a pause
    In a move from standstill, a pause of the ramp follows a command of one step and is followed by
    a command of one step. *)
From Coq Require Import ZArith Bool List Lia ZifyBool.
From Verif Require Import Base Queue Mcpwm McpwmFacts Pmf PmfFacts RampCalc RampCalcFacts RampLinear RampGen RampStep
  RampRun RampMove RampSafe RampAcc RampUser.
Import ListNotations.
Open Scope Z_scope.
Ltac Zify.zify_post_hook ::= idtac.

Section WithArch.
Variable A : arch.
Hypothesis HA : In A all_archs.

(** ** One call *)
Lemma split_one d R pl steps t pause : gnc_split d R pl = (steps, t, pause) ->
  1 <= steps <= 255 /\ (pause <> 0 -> 65535 < t + pause /\ 0 <= t <= 65535) /\ (65535 < d -> steps = 1)
  /\ (1 <= R -> 0 <= pl <= 1 -> steps = 1).
Proof.
  unfold gnc_split. rewrite !fas_min_spec, fas_max_spec. destruct (Z.gtb_spec d 65535) as [K|K]; intros E; injection E as <- <- <-.
  - rewrite Z.shiftr_div_pow2 by lia. change (2 ^ 1) with 2. pose proof (Z.div_pos d 2 ltac:(lia) ltac:(lia)). lia.
  - repeat split; try lia. intros H1 H2. rewrite u16_id by lia. lia.
Qed.
Lemma prus_keep c s P R steps t P' t' : gnc_prus c s P R steps t = (P', t') ->
  1 <= steps <= 255 -> 0 <= P < 1073741824 -> (decelerating s = true -> R <= P) -> t' = t.
Proof.
  intros E H1 H2 H3. unfold gnc_prus in E. destruct (accelerating s); [congruence|]. destruct (decelerating s); [|congruence].
  specialize (H3 eq_refl). destruct (P <? steps); [congruence|]. destruct (Z.gtb_spec P (max_ramp_up_steps c)); [congruence|].
  destruct (Z.geb_spec P (max_ramp_up_steps c)) as [K|K]; cbn [andb] in E.
  - assert (u32 (max_ramp_up_steps c + steps) = max_ramp_up_steps c + steps) as X by (apply u32_id; lia). rewrite X in E.
    destruct (Z.leb_spec (max_ramp_up_steps c + steps) R); [lia|]. cbn [andb] in E. destruct (R >? P); congruence.
  - destruct (R >? P); congruence.
Qed.
Lemma choose_one M C P R same o s R' pl : gnc_choose A M C P R same o = (s, R', pl) ->
  M <= C -> 2 * MIN_CMD_TICKS A <= C -> 0 < MIN_CMD_TICKS A -> 0 <= P -> 0 <= R -> 1 <= o -> P + R < 1073741824 ->
  (if decelerating s then R' <= P /\ (same = false \/ R <= P) else P < R') /\ (o = 1 -> 0 <= pl <= 1).
Proof.
  intros E H1 H2 H3 H4 H5 H6 H7. unfold gnc_choose in E.
  destruct same; cbn [negb] in E.
  2: { injection E as <- <- <-. cbn. lia. }
  destruct (Z.eqb_spec R P) as [->|N]; [injection E as <- <- <-; cbn; lia|].
  destruct (Z.ltb_spec R P); [injection E as <- <- <-; cbn; lia|].
  destruct (Z.ltb_spec M C).
  - destruct (Z.ltb_spec C (2 * MIN_CMD_TICKS A)); [lia|].
    destruct (Z.ltb_spec (R - P) (2 * o)).
    + destruct (negb _); injection E as <- <- <-; cbn; [|lia]. split; [lia|]. intros ->. rewrite u16_id; lia.
    + injection E as <- <- <-. cbn. lia.
  - assert (M = C) by lia. destruct (Z.gtb_spec M C); [lia|].
    destruct (Z.ltb_spec (R - P) (2 * o)).
    + destruct (Z.ltb_spec C (MIN_CMD_TICKS A)); [lia|]. cbn [andb] in E. injection E as <- <- <-. cbn.
      split; [lia|]. intros ->. rewrite u16_id; lia.
    + injection E as <- <- <-. cbn. lia.
Qed.
Lemma new_ticks_one c s C P R pl o d pl' : gnc_new_ticks A c s C P R pl o = (d, pl') ->
  min_travel_ticks (parameters c) <= C -> 0 <= P -> P + R < 2147483648 -> (decelerating s = false -> P < R) ->
  (decelerating s = false -> min_travel_ticks (parameters c) <= d) /\ (o = 1 -> 0 <= pl <= 1 -> 0 <= pl' <= 1).
Proof.
  intros E H1 H2 H3 H4. unfold gnc_new_ticks in E. destruct s; cbn [accelerating decelerating] in E, H4 |- *.
  all: try specialize (H4 eq_refl).
  all: repeat match type of E with context [if ?b then _ else _] => destruct b eqn:? end; injection E as <- <-;
    rewrite ?fas_max_spec; split; intros; try discriminate; try lia.
  all: try (unfold u32 in *; rewrite ?Z.mod_small in * by lia; try lia; fail).
Qed.
Lemma core_one c C P R same o :
  let M := min_travel_ticks (parameters c) in
  MIN_CMD_TICKS A <= M <= C -> 2 * MIN_CMD_TICKS A <= C < 4294967296 -> 0 <= P -> 0 <= R -> P + R < 1073741824 ->
  (C = TICKS_FOR_STOPPED_MOTOR -> P < R /\ same = true) ->
  core A c C P R same = Some o ->
  (o_pause o <> 0 -> 65535 < o_pause o + o_ticks o /\ 0 <= o_ticks o <= 65535) /\ (65535 < C -> o_steps o = 1).
Proof.
  intros M H1 H2 H3 H4 H5 H6 E. pose proof (min_cmd_bounds A HA) as HN. pose proof (arch_nums A HA) as HT.
  unfold core in E. fold M in E.
  destruct (planning_spec A HA C ltac:(clear - H2 HN; lia)) as (o1 & Eo & O1 & O2 & _). rewrite Eo in E.
  assert (O3 : 65535 < C -> o1 = 1) by (intros; apply O2; clear - H HT; lia). clear Eo O2.
  destruct (gnc_choose A M C P R same o1) as [[s R'] pl] eqn:E1.
  destruct (choose_one _ _ _ _ _ _ _ _ _ E1 (proj2 H1) (proj1 H2) ltac:(clear - HN; lia) H3 H4 (proj1 O1) H5) as [F1 F2].
  destruct (gnc_new_ticks A c s C P R' pl o1) as [d pl'] eqn:E2.
  assert (HR : P + R' < 2147483648).
  { revert E1. clear - H3 H4 H5. unfold gnc_choose.
    repeat match goal with |- context [if ?b then _ else _] => destruct b end; intros E; injection E as _ <- _; lia. }
  destruct (new_ticks_one _ _ _ _ _ _ _ _ _ E2 (proj2 H1) H3 HR) as [G1 G2].
  { intros K. rewrite K in F1. exact F1. }
  destruct (gnc_min_cmd A s d P R' pl') as [[[s2 d2] pl2]|] eqn:E3; [|discriminate].
  assert (K : if decelerating s then decelerating s2 = true else s2 = s /\ d2 = d /\ pl2 = pl').
  { unfold gnc_min_cmd in E3. destruct (decelerating s) eqn:Ds.
    - destruct (_ && _); [|congruence]. destruct (d =? 0); [discriminate|].
      destruct (_ >=? R') in E3; destruct (_ >=? R') in E3; try destruct (R' <? _) in E3; injection E3 as <- _ _; auto.
    - specialize (G1 eq_refl). destruct (Z.ltb_spec d (MIN_CMD_TICKS A)) as [L|L]; [clear - L G1 H1; lia|].
      cbn [andb] in E3. injection E3 as <- <- <-. auto. }
  destruct (gnc_split (gnc_clip s2 d2 C) R' pl2) as [[steps t] pause] eqn:E4.
  destruct (split_one _ _ _ _ _ _ E4) as (S1 & S2 & S3 & S4).
  destruct (gnc_prus c s2 P R' steps t) as [P' t'] eqn:E5. injection E as <-. cbn [o_pause o_ticks o_steps].
  assert (t' = t) as ->.
  { apply (prus_keep _ _ _ _ _ _ _ _ E5 S1); [clear - H3 H4 H5; lia|]. intros K1. destruct (decelerating s) eqn:Ds; [apply F1|].
    destruct K as (K & _). congruence. }
  split; [intros K1; specialize (S2 K1); clear - S2; lia|]. intros HC.
  destruct (decelerating s) eqn:Ds.
  - apply S3. unfold gnc_clip. destruct (Z.eqb_spec C TICKS_FOR_STOPPED_MOTOR) as [K1|K1].
    + destruct (H6 K1) as [K2 K3]. destruct F1 as [_ [F1|F1]]; [congruence|clear - F1 K2; lia].
    + cbn [negb]. destruct s2; try discriminate K; cbn [accelerating decelerating]; rewrite fas_max_spec; clear - HC; lia.
  - destruct K as (-> & -> & ->). apply S4; [clear - F1 H3; lia|]. apply G2; auto.
Qed.

(** ** The run *)
Lemma one_step ro rw qe old B n :
  sinv ro rw qe B -> cfg_ok A (ro_config ro) B -> acc A ro rw ->
  2 * MIN_CMD_TICKS A <= min_travel_ticks (parameters (ro_config ro)) <= rw_curr_ticks rw ->
  getNextCommand_ A ro rw qe old = Some n -> c_ticks (n_cmd n) <> 0 ->
  let c := n_cmd n in
  min_travel_ticks (parameters (ro_config ro)) <= rw_curr_ticks (n_rw n) /\
  (c_steps c = 0 -> rw_pause_left rw <> 0 /\ rw_curr_ticks (n_rw n) = rw_curr_ticks rw) /\
  (c_steps c <> 0 -> (65535 < rw_curr_ticks rw -> c_steps c = 1) /\
     (rw_pause_left (n_rw n) <> 0 -> c_steps c = 1 /\ 65535 < rw_curr_ticks (n_rw n))).
Proof.
  intros Hi Hc Ha HM G Ht. cbv zeta. pose proof (min_cmd_bounds A HA) as HN.
  destruct (RampAcc.acc_step A HA ro rw qe old B n Hi Hc Ha G Ht) as (Q1 & Q2 & Q3 & Q4 & Q5 & Q6). cbv zeta in *.
  split; [clear - Q4 HM; lia|].
  destruct (Z.eq_dec (rw_pause_left rw) 0) as [Ep|Np].
  - split. { intros K. specialize (Q6 K). clear - Q6 Ep Q2 Q1 HN. destruct Q1 as [_ _ _ _ [L|L]]; lia. }
    intros K. destruct (Q5 K) as (_ & Q8 & Q9).
    pose proof (gnc_cases A ro rw qe old B Hi Ep) as GC. cbv zeta in GC.
    destruct GC as [(Ed & EP & GC)|(up1 & Hnt & HP0 & Hup & Hdist & GC)].
    { rewrite GC in G. injection G as <-. cbn in Ht. congruence. }
    rewrite GC in G. clear GC. set (d := i32 (ro_target_pos ro - qe_pos qe)) in *.
    destruct (core A (ro_config ro) (rw_curr_ticks rw) (rw_prus rw) (Z.abs d) (0 <? (if up1 then d else - d))) as [o|] eqn:Eo; [|discriminate].
    injection G as <-. cbn [n_cmd n_rw c_ticks c_steps rw_pause_left rw_curr_ticks] in *.
    destruct Hi as [Hk HP HB Hp HC Hst Hact]. fold d in HB. destruct Ha as [Hm HmC Hmc Hs Hpa].
    destruct (core_one (ro_config ro) (rw_curr_ticks rw) (rw_prus rw) (Z.abs d) (0 <? (if up1 then d else - d)) o) as [X1 X2]; try assumption.
    { clear - HM HN. lia. }
    { clear - HM Hst. unfold TICKS_FOR_STOPPED_MOTOR in *. lia. }
    { clear. lia. }
    { clear - HB. lia. }
    { intros K1. specialize (HP0 (Hs K1)). rewrite (Hs K1). clear - HP0. destruct up1; lia. }
    split. { intros L. rewrite (X2 L). reflexivity. }
    intros L. split.
    + clear - L Q9 K Q3. destruct (Z.le_gt_cases 2 (u8 (o_steps o))) as [J|J]; [specialize (Q9 J); contradiction|lia].
    + destruct (X1 L) as [X3 X4]. rewrite u16_id in Q8 by (clear - X4; lia). rewrite <- Q8. clear - X3. lia.
  - destruct (pause_spec rw qe ltac:(destruct Hi; lia)) as (p & E & H1 & H2 & H3 & H4).
    unfold getNextCommand_ in G. rewrite E in G. injection G as <-.
    cbn [n_cmd n_rw c_ticks c_steps rw_pause_left rw_curr_ticks] in *. split; auto. intros K. now contradiction K.
Qed.

(** [steady], and a pause at the end follows a single step *)
Definition fine (st : bool * Z) (cs : list command) : Prop :=
  steady st cs /\ let e := fold_left after1 cs st in fst e = true -> snd e = 1.
Definition even_spec (rw : ramp_rw) (cs : list command) : Prop := forall b n,
  (b = true -> n = 1 /\ 65535 < rw_curr_ticks rw) -> (rw_pause_left rw <> 0 -> n = 1 /\ 65535 < rw_curr_ticks rw) ->
  fine (b, n) cs.
Lemma even_cons ro rw qe old B n cs :
  sinv ro rw qe B -> cfg_ok A (ro_config ro) B -> acc A ro rw ->
  2 * MIN_CMD_TICKS A <= min_travel_ticks (parameters (ro_config ro)) <= rw_curr_ticks rw ->
  getNextCommand_ A ro rw qe old = Some n -> c_ticks (n_cmd n) <> 0 ->
  even_spec (n_rw n) cs -> even_spec rw (n_cmd n :: cs).
Proof.
  intros Hi Hc Ha HM G Ht H b k H1 H2. destruct (one_step ro rw qe old B n Hi Hc Ha HM G Ht) as (Q1 & Q2 & Q3). cbv zeta in *.
  unfold fine. cbn [steady fold_left]. cbv zeta. unfold after1 at 1 3 5. cbn [fst snd]. destruct (Z.eqb_spec (c_steps (n_cmd n)) 0) as [K|K].
  - destruct (Q2 K) as [Q4 Q5]. destruct (H true k) as [F1 F2]; [| |].
    + intros _. rewrite Q5. auto.
    + intros _. rewrite Q5. auto.
    + split; [split; [intros; contradiction|exact F1]|exact F2].
  - destruct (Q3 K) as [Q4 Q5]. destruct (H false (c_steps (n_cmd n))) as [F1 F2]; [discriminate|exact Q5|].
    split; [split; [|exact F1]|exact F2]. intros K1 _. destruct (H1 K1) as [-> K2]. auto.
Qed.
Lemma even_prepared_step qe g old B :
  let g1 := rg_prepare A qe g in
  norm g1 -> sinv (rg_ro g1) (rg_rw g1) qe B -> cfg_ok A (ro_config (rg_ro g1)) B -> acc A (rg_ro g1) (rg_rw g1) ->
  2 * MIN_CMD_TICKS A <= min_travel_ticks (parameters (ro_config (rg_ro g1))) <= rw_curr_ticks (rg_rw g1) ->
  exists cs g2 qe2, ramp_step A false old g qe = Some (cs, g2, qe2) /\
    rg_ro g2 = rg_ro g1 /\ norm g2 /\
    (isRampGeneratorActive g2 = false /\ cs = [] \/
     sinv (rg_ro g2) (rg_rw g2) qe2 B /\ acc A (rg_ro g2) (rg_rw g2) /\
     smeas (rg_ro g2) (rg_rw g2) qe2 < smeas (rg_ro g1) (rg_rw g1) qe /\
     rw_curr_ticks (rg_rw g2) <> TICKS_FOR_STOPPED_MOTOR /\
     min_travel_ticks (parameters (ro_config (rg_ro g1))) <= rw_curr_ticks (rg_rw g2) /\
     (forall cs', even_spec (rg_rw g2) cs' -> even_spec (rg_rw g1) (cs ++ cs'))).
Proof.
  intros g1 Hn Hi Hc Hsf HM.
  destruct (prepared_step A HA qe g old B Hn Hi Hc (acc_period_ok A HA _ _ Hsf))
    as (cs & g2 & qe2 & Hs & Hro & Hn2 & Hcase). fold g1 in Hro, Hcase.
  assert (Hs' := Hs). unfold ramp_step in Hs'. rewrite getNext_prepare in Hs' by (apply Hn).
  fold g1 in Hs'.
  destruct (getNextCommand_ A (rg_ro g1) (rg_rw g1) qe old) as [n|] eqn:EG; [|discriminate].
  destruct Hcase as [(Hact & Hd & -> & -> & Hp)|(c & -> & -> & Hi2 & Hm & HC2 & Hu2)].
  - exists [], g2, qe. split; [exact Hs|]. split; [exact Hro|]. split; [exact Hn2|]. left. auto.
  - destruct (Z.eqb_spec (c_ticks (n_cmd n)) 0) as [|Nt]; [discriminate|].
    cbn [andb] in Hs'. injection Hs' as <- <- .
    destruct (RampAcc.acc_step A HA _ _ _ _ _ _ Hi Hc Hsf EG Nt) as (Q1 & _).
    destruct (one_step _ _ _ _ _ _ Hi Hc Hsf HM EG Nt) as (Q2 & _).
    eexists _, _, _. split; [exact Hs|].
    split; [reflexivity|]. split; [exact Hn|]. right.
    split; [exact Hi2|]. split; [exact Q1|]. split; [exact Hm|]. split; [exact HC2|]. split; [exact Q2|].
    intros cs' Hcs. cbn [app]. eapply even_cons; eassumption.
Qed.
Lemma run_even : forall k g qe olds B,
  smeas (rg_ro g) (rg_rw g) qe <= k ->
  norm g -> rw_curr_ticks (rg_rw g) <> TICKS_FOR_STOPPED_MOTOR ->
  sinv (rg_ro g) (rg_rw g) qe B -> cfg_ok A (ro_config (rg_ro g)) B ->
  acc A (rg_ro g) (rg_rw g) ->
  2 * MIN_CMD_TICKS A <= min_travel_ticks (parameters (ro_config (rg_ro g))) <= rw_curr_ticks (rg_rw g) ->
  ends_at A false olds g qe (fun cs _ _ => even_spec (rg_rw g) cs).
Proof.
  intros k. induction k as [k IH] using (well_founded_induction (Zwf.Zwf_well_founded (-1))).
  intros g qe olds B Hk Hn HC Hi Hc Hsf HM.
  pose proof (prepare_norm A qe g Hn HC) as E.
  destruct (even_prepared_step qe g (olds O) B) as (cs & g2 & qe2 & Hs & Hro & Hn2 & Hcase);
    rewrite ?E; try assumption.
  rewrite E in Hcase, Hro.
  eapply ends_step; [apply active_not_idle, Hi|exact Hs|].
  destruct Hcase as [(Hact & ->)|(Hi2 & Hsf2 & Hm & HC2 & HM2 & HQ)].
  - apply ends_idle; [assumption|]. intros b n Hb _. split; [exact I|]. cbn. intros Kb. exact (proj1 (Hb Kb)).
  - pose proof (smeas_pos _ _ _ _ Hi2) as Hp. pose proof (smeas_pos _ _ _ _ Hi) as Hp0.
    apply (ends_weaken A false _ _ _ (fun cs _ _ => even_spec (rg_rw g2) cs)); [intros cs' _ _; apply HQ|].
    apply (IH (smeas (rg_ro g2) (rg_rw g2) qe2)) with (B := B); try assumption; try lia.
    + unfold Zwf.Zwf. lia.
    + rewrite Hro. exact Hc.
    + rewrite Hro. clear - HM HM2. lia.
Qed.
Lemma run_even_prepared g qe olds B :
  let g1 := rg_prepare A qe g in
  norm g1 -> sinv (rg_ro g1) (rg_rw g1) qe B -> cfg_ok A (ro_config (rg_ro g1)) B -> acc A (rg_ro g1) (rg_rw g1) ->
  2 * MIN_CMD_TICKS A <= min_travel_ticks (parameters (ro_config (rg_ro g1))) <= rw_curr_ticks (rg_rw g1) ->
  ends_at A false olds g qe (fun cs _ _ => even_spec (rg_rw g1) cs).
Proof.
  intros g1 Hn Hi Hc Hsf HM.
  destruct (even_prepared_step qe g (olds O) B Hn Hi Hc Hsf HM) as (cs & g2 & qe2 & Hs & Hro & Hn2 & Hcase).
  fold g1 in Hro, Hcase.
  eapply ends_step; [apply active_not_idle; rewrite <- (prepared_active A qe); apply Hi|exact Hs|].
  destruct Hcase as [(Hact & ->)|(Hi2 & Hsf2 & Hm & HC2 & HM2 & HQ)].
  - apply ends_idle; [assumption|]. intros b n Hb _. split; [exact I|]. cbn. intros Kb. exact (proj1 (Hb Kb)).
  - apply (ends_weaken A false _ _ _ (fun cs _ _ => even_spec (rg_rw g2) cs)); [intros cs' _ _; apply HQ|].
    eapply run_even; try eassumption; rewrite ?Hro; try eassumption; [apply Z.le_refl|]. clear - HM HM2. lia.
Qed.

(** ** A move from standstill *)
Lemma standstill_even g qe olds a :
  let p := rg_params g in
  let ro := rg_ro g in
  let rw := rg_rw g in
  let t := target_of p (keep_running (parameters (ro_config ro))) (ro_target_pos ro) (qe_pos qe) in
  let d := i32 (t - qe_pos qe) in
  let M := min_travel_ticks p in
  apply p = true -> any_change p = true -> keep_running p = false ->
  ro_force_stop ro = false -> ro_force_immediate ro = false ->
  s_jump p = 0 -> 0 <= s_h p < 4294967294 -> pmfl_accel p = pmfl_from_u32 a -> 1 <= a < 2147483648 ->
  2 * MIN_CMD_TICKS A <= M <= 1073741824 ->
  isRampGeneratorActive g = true ->
  rw_curr_ticks rw = TICKS_FOR_STOPPED_MOTOR -> rw_pause_left rw = 0 ->
  Z.abs d < 1073741824 ->
  a * Z.max (Z.abs d) 42000 <= 100000000000000 ->
  ends_at A false olds g qe (fun cs _ _ => forall b n, (b = true -> n = 1) -> fine (b, n) cs).
Proof.
  intros p ro rw t d M H1 H2 H3 H4 H5 H6 H7 H8 HaR HM Hact HC Hp HB Hab.
  pose proof (min_cmd_bounds A HA) as HN.
  destruct (prepare_pending A qe g H1 H2 H3 H4 H5 (fun _ => H6)) as
    (N & E1 & E2 & E3 & E4 & E5 & E6 & E7).
  set (c := update A (set_parameters p (ro_config ro))) in *.
  assert (EP : start_prus A p c rw = 0) by (unfold start_prus; rewrite HC, Z.eqb_refl; exact H6).
  fold p in E1, E2, E3, E5, E6, E7. fold ro in E5, E6, E7. fold rw in E7. fold c in E5, E7. rewrite EP in E7.
  fold t in E6. fold M in E1. rewrite HC, Hp in E7.
  assert (I : sinv (rg_ro (rg_prepare A qe g)) (rg_rw (rg_prepare A qe g)) qe (Z.abs d + 0)).
  { split; rewrite ?E4, ?E6, ?E7; cbn [rw_prus rw_pause_left rw_curr_ticks rw_state]; fold d; unfold TICKS_FOR_STOPPED_MOTOR; try lia.
    unfold isRampGeneratorActive in Hact. fold rw in Hact. intros K. rewrite K in Hact. discriminate. }
  assert (K : cfg_ok A (ro_config (rg_ro (rg_prepare A qe g))) (Z.abs d + 0)).
  { apply cfg_ok_derived with (a := a); rewrite ?E1, ?E2, ?E3, ?Z.add_0_r; try assumption; try lia.
    { apply prepare_derived; fold p; try assumption; [|congruence]. intros _. rewrite H8. pose proof (accel_log_range a HaR). auto. }
    rewrite E5. pose proof (update_X A (set_parameters p (ro_config ro))). fold c in H. lia. }
  assert (S : acc A (rg_ro (rg_prepare A qe g)) (rg_rw (rg_prepare A qe g))).
  { split; rewrite ?E1, ?E6, ?E7; cbn [rw_prus rw_pause_left rw_curr_ticks]; unfold TICKS_FOR_STOPPED_MOTOR; try lia. }
  assert (X : 2 * MIN_CMD_TICKS A <= min_travel_ticks (parameters (ro_config (rg_ro (rg_prepare A qe g)))) <= rw_curr_ticks (rg_rw (rg_prepare A qe g))).
  { rewrite E1, E7. cbn [rw_curr_ticks]. unfold TICKS_FOR_STOPPED_MOTOR. lia. }
  apply (ends_weaken A false olds g qe (fun cs _ _ => even_spec (rg_rw (rg_prepare A qe g)) cs)); [|exact (run_even_prepared g qe olds (Z.abs d + 0) N I K S X)].
  intros cs g2 qe2 HE b n Hb. apply HE; rewrite E7; cbn [rw_curr_ticks rw_pause_left]; [|congruence].
  intros Kb. split; [auto|]. unfold TICKS_FOR_STOPPED_MOTOR. lia.
Qed.

Section Start.
Variables (g : rampgen) (qe : queue_end) (olds : nat -> next_command).
Variables (a M v : Z) (abs changed : bool).
Hypothesis Hcfg : configured g a M.
Hypothesis Hsane : sane g.
Hypothesis Hna : isRampGeneratorActive g = false.
Hypothesis Hidle : rw_pause_left (rg_rw g) = 0.
Hypothesis Hch : changed = true.
Hypothesis Ha : 1 <= a < 2147483648.
Hypothesis HM : 2 * MIN_CMD_TICKS A <= M <= 1073741824.
Let p := set_apply true (set_any_change true (set_keep false true (set_move v abs (rg_params g)))).
Let g' := rg_startMove changed (with_params p g).
Let t := target_of p (rg_isRunningContinuously g) (ro_target_pos (rg_ro g)) (qe_pos qe).
Let d := i32 (t - qe_pos qe).
Hypothesis HB : Z.abs d < 1073741824.
Hypothesis Hab : a * Z.max (Z.abs d) 42000 <= 100000000000000.
Lemma pending_even :
  ends_at A false olds g' qe (fun cs _ _ => forall b n, (b = true -> n = 1) -> fine (b, n) cs).
Proof.
  destruct (start_curr changed g (or_intror Hch)) as (E1 & E2 & E3 & E4). cbv zeta in E1, E2, E3, E4.
  destruct Hcfg as (C1 & C3 & C2 & C4 & C5). destruct Hsane as (S1 & S2 & S3 & S4 & S5).
  assert (Et : target_of (rg_params g') (keep_running (parameters (ro_config (rg_ro g'))))
                 (ro_target_pos (rg_ro g')) (qe_pos qe) = t).
  { unfold g'. rewrite started_params, started_ro. reflexivity. }
  assert (EM : min_travel_ticks (rg_params g') = M).
  { unfold g'. rewrite started_params. exact C2. }
  apply standstill_even with (a := a); rewrite ?Et, ?EM; fold d; try assumption;
    unfold g', isRampGeneratorActive; rewrite ?started_params, ?started_ro, ?started_rw;
    cbn [rg_params with_params rg_rw rg_ro set_force_stop ro_config ro_force_stop ro_force_immediate];
    rewrite ?E1, ?E2, ?E3, ?E4; try assumption; try reflexivity.
  unfold period. rewrite Hna. reflexivity.
Qed.
End Start.

Section Calls.
Variables (g : rampgen) (qe : queue_end) (olds : nat -> next_command) (a M : Z).
Hypothesis Hcfg : configured g a M.
Hypothesis Hsane : sane g.
Hypothesis Hna : isRampGeneratorActive g = false.
Hypothesis Hidle : rw_pause_left (rg_rw g) = 0.
Hypothesis Ha : 1 <= a < 2147483648.
Hypothesis HM : 2 * MIN_CMD_TICKS A <= M <= 1073741824.
Definition even_cmds (cs : list command) : Prop := forall b n, (b = true -> n = 1) -> fine (b, n) cs.
Lemma moveTo_even pos g' r : -2147483648 <= pos < 2147483648 ->
  Z.abs (i32 (pos - qe_pos qe)) < 1073741824 -> a * Z.max (Z.abs (i32 (pos - qe_pos qe))) 42000 <= 100000000000000 ->
  rg_moveTo pos qe g = (g', r) -> ends_at A false olds g' qe (fun cs _ _ => even_cmds cs).
Proof.
  intros Hp HB Hab E. destruct (moveTo_shape g qe a M pos Hcfg (fun _ => Hidle)) as (ch & E2 & H). rewrite E in E2. injection E2 as -> _.
  destruct (moveTo_target A g qe pos Hp) as (T1 & T2).
  destruct H as [H|[H|(H1 & H2 & H3)]]; [congruence| |].
  - apply pending_even with (a := a) (M := M); try assumption; unfold target_of;
      cbn [move_absolute move_value set_apply set_any_change set_keep set_move]; rewrite T2; assumption.
  - apply ends_idle; [rewrite H1; exact H2|]. intros b n Hb. split; [exact I|exact Hb].
Qed.
Lemma move_even delta g' r : delta <> 0 ->
  let d := i32 (i32 (base_target g qe + pending_move g + delta) - qe_pos qe) in
  Z.abs d < 1073741824 -> a * Z.max (Z.abs d) 42000 <= 100000000000000 ->
  rg_move delta g = (g', r) -> ends_at A false olds g' qe (fun cs _ _ => even_cmds cs).
Proof.
  intros H0 d HB Hab E. destruct (move_shape g a M delta Hcfg (or_intror H0)) as (ch & E2 & H). rewrite E in E2. injection E2 as -> _.
  destruct (move_target g qe delta _ eq_refl) as (T1 & T2). fold d in T2.
  destruct H as [H|H]; [congruence|].
  apply pending_even with (a := a) (M := M); try assumption; unfold target_of;
      cbn [move_absolute move_value set_apply set_any_change set_keep set_move]; rewrite T2; assumption.
Qed.
End Calls.
(** all complete runs are the same *)
Lemma run_same : forall n m olds g qe cs g1 qe1 cs2 g2 qe2,
  ramp_run A false olds n g qe = Some (cs, g1, qe1) -> isRampGeneratorActive g1 = false ->
  ramp_run A false olds m g qe = Some (cs2, g2, qe2) -> isRampGeneratorActive g2 = false -> cs = cs2.
Proof.
  induction n as [|n IH]; intros m olds g qe cs g1 qe1 cs2 g2 qe2 E1 H1 E2 H2.
  - cbn in E1. injection E1 as <- <- <-. destruct m; cbn in E2; [congruence|]. rewrite H1 in E2. congruence.
  - cbn [ramp_run] in E1. destruct (isRampGeneratorActive g) eqn:Ea.
    + destruct m as [|m]; cbn [ramp_run] in E2; [congruence|]. rewrite Ea in E2.
      destruct (ramp_step A false (olds O) g qe) as [[[c g3] q3]|]; [|discriminate].
      destruct (ramp_run A false (fun k => olds (S k)) n g3 q3) as [[[l g4] q4]|] eqn:F1; [|discriminate].
      destruct (ramp_run A false (fun k => olds (S k)) m g3 q3) as [[[l' g5] q5]|] eqn:F2; [|discriminate].
      injection E1 as <- <- _. injection E2 as <- <- _. f_equal. eapply IH; eassumption.
    + injection E1 as <- <- <-. destruct m; cbn [ramp_run] in E2; [congruence|]. rewrite Ea in E2. congruence.
Qed.
End WithArch.

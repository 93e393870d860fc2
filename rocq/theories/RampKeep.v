(** * RampKeep: runForward() and runBackward() *)
From Coq Require Import ZArith Bool List Lia ZifyBool Zwf.
From Verif Require Import Base Pmf PmfFacts RampCalc RampCalcFacts RampGen RampStep RampRun RampMove RampSafe RampAcc.
Import ListNotations.
Open Scope Z_scope.
Ltac Zify.zify_post_hook ::= idtac.

Fixpoint has_step (cs : list command) : bool :=
  match cs with [] => false | c :: cs => negb (c_steps c =? 0) || has_step cs end.

(** like [speed_ok] for the beginning of a longer command sequence: the time
    behind the last step is not yet known *)
Fixpoint speed_ok_prefix (M : Z) (cs : list command) : Prop :=
  match cs with
  | [] => True
  | c :: cs =>
    (c_steps c <> 0 -> has_step cs = true -> M <= c_ticks c + pauses cs) /\
    (2 <= c_steps c -> M <= c_ticks c) /\ speed_ok_prefix M cs
  end.

Section WithArch.
Variable A : arch.
Hypothesis HA : In A all_archs.

Definition KR : Z := 268435455.

(** from [N] ramp steps on the configured speed is reached *)
Definition full_speed_from (c : config) (N : Z) : Prop :=
  forall s, N <= s < KR -> calculate_ticks A c s <= min_travel_ticks (parameters c).

Lemma core_keep c C P N :
  let M := min_travel_ticks (parameters c) in
  17 <= M <= 1073741824 -> M <= C < 4294967296 -> 0 <= P <= N + 600 -> N <= KR - 101000 ->
  0 <= N -> (M < C -> P <= N + 254) ->
  0 <= max_ramp_up_steps c < 4294967296 ->
  full_speed_from c N -> calc_le A c ->
  (C = TICKS_FOR_STOPPED_MOTOR \/ C <= 2147483648) ->
  exists o, core A c C P KR true = Some o /\ (o_s o = ACC \/ o_s o = COAST) /\
    1 <= o_steps o <= 255 /\ 0 <= o_P o <= N + 509 + 91 /\
    (P <= N + 509 -> o_P o <= N + 509) /\
    1 <= o_ticks o <= 65535 /\ 0 <= o_pause o < 4294967296 /\
    M <= o_ticks o + o_pause o <= 2147483648 /\
    (M < o_ticks o + o_pause o -> o_P o <= N + 254) /\
    MIN_CMD_TICKS A <= o_ticks o * o_steps o /\
    (o_pause o <> 0 -> o_steps o = 1 /\ 32767 <= o_pause o).
Proof.
  intros M HM HC HP HN HN0 HCP HX HF Hcl HC5. unfold core.
  destruct (planning_spec A HA C ltac:(lia)) as (o & -> & Ho & Hp1 & Hp2).
  assert (HoC : o = 1 \/ o * C <= 42000).
  { destruct (Z.lt_ge_cases C (TICKS_PER_S A / 1000)) as [L|L].
    - right. apply Hp2, L. - left. apply Hp1, L. }
  unfold KR in *.
  destruct (choose_ahead A HA M C P 268435455 o ltac:(lia) ltac:(lia) Ho ltac:(lia) HoC)
    as (s & pl & E & Hs & Hpl & Ha & Hco & Hdec). clear HoC.
  fold M. rewrite E. pose proof (min_cmd_bounds A HA) as HMin. pose proof (arch_nums A HA) as HAn.
  assert (HoC2 : 16000 <= C \/ MIN_CMD_TICKS A <= o * C).
  { destruct (Z.lt_ge_cases C (TICKS_PER_S A / 1000)) as [L|L].
    - right. specialize (Hp2 L). clear - Hp2 HMin L HAn. lia.
    - left. clear - L HAn. lia. }
  clear Hp1 Hp2 HAn.
  assert (Hs2 : s = ACC \/ s = COAST).
  { destruct s; auto; [|contradiction]. exfalso. clear - Hdec HC HP HN Ho.
    destruct (Hdec eq_refl) as [?|[?|?]]; lia. }
  assert (Nt : exists d, gnc_new_ticks A c s C P 268435455 pl o = (d, pl) /\
    M <= d < 4294967296 /\
    (s = ACC -> pl = o /\ M < C /\ d <= 1073741824 /\ (M < d -> P < N)) /\
    (s = COAST -> d = C /\ C <> TICKS_FOR_STOPPED_MOTOR)).
  { destruct Hs2 as [->| ->].
    - destruct (new_ticks_acc A c C P 268435455 pl o ltac:(lia) ltac:(lia)) as (pl' & -> & Hpl').
      assert (pl' = pl) as -> by (clear - Hpl' HP HN; lia). clear Hpl'.
      destruct (Ha eq_refl) as (-> & HMC & _).
      assert (Hu : u32 (P + o) = P + o) by (apply u32_id; clear - HP HN Ho; lia). rewrite Hu. fold M.
      pose proof (calc_range A c (P + o)) as Hr.
      pose proof (Hcl (P + o) ltac:(clear - HP HN Ho; lia)) as Hl.
      eexists. split; [reflexivity|]. split; [clear - Hr HM; lia|]. split; [|discriminate].
      intros _. split; [reflexivity|]. split; [exact HMC|]. split; [clear - Hl HM; lia|].
      intros K. destruct (Z.lt_ge_cases P N) as [|G]; [assumption|]. exfalso.
      pose proof (HF (P + o) ltac:(unfold KR; clear - G Ho HP HN; lia)) as Hf. fold M in Hf.
      clear - Hf K. lia.
    - destruct (new_ticks_coast A c C P 268435455 pl o ltac:(lia) ltac:(lia)) as (pl' & -> & Hpl').
      assert (pl' = pl) as -> by (clear - Hpl' HP HN; lia). clear Hpl'.
      exists C. split; [reflexivity|]. split; [exact HC|]. split; [discriminate|].
      intros _. split; [reflexivity|]. apply Hco; [reflexivity|]. clear - HM. lia. }
  destruct Nt as (d & -> & Hd & NA & NC). clear Ha Hdec.
  destruct (min_cmd_spec A HA s d P 268435455 pl ltac:(lia) ltac:(lia) ltac:(lia) ltac:(lia) ltac:(lia))
    as (s' & d' & pl' & -> & Hm).
  assert (Hm' : s' = s /\ d' = d /\ (1 <= pl' <= 42000) /\ (pl' = pl \/ d < MIN_CMD_TICKS A) /\
     (MIN_CMD_TICKS A <= d \/ MIN_CMD_TICKS A <= d * pl') /\ pl <= pl').
  { clear - Hm HP HN HMin Hpl.
    destruct Hm as [(-> & -> & -> & K)|[K|([(-> & K1)|(K1 & K2)] & -> & K3 & K4 & K5 & K6 & K7 & K8)]].
    - repeat split; auto; lia.
    - exfalso. lia.
    - split; [reflexivity|]. split; [reflexivity|]. split; [lia|]. split; [lia|]. split; [right; exact K7|lia].
    - exfalso. lia. }
  clear Hm. destruct Hm' as (-> & -> & Hpl2 & Hpl3 & Hdur & Hpl4).
  rewrite clip_spec.
  set (next := if C =? TICKS_FOR_STOPPED_MOTOR then d else _).
  assert (Hn : M <= next <= 2147483648 /\ (next = d \/ s = ACC /\ next = C) /\
     (M < next -> s = ACC -> P < N) /\ (s = COAST -> next = C)).
  { unfold next. clear - Hd HC HC5 NA NC Hs2. destruct (Z.eqb_spec C TICKS_FOR_STOPPED_MOTOR) as [EC|NCC].
    - destruct Hs2 as [->| ->]; [specialize (NA eq_refl)|destruct (NC eq_refl); contradiction].
      split; [lia|]. split; [left; reflexivity|]. split; [|discriminate]. intros K _. apply NA. exact K.
    - assert (C <= 2147483648) by (destruct HC5; [contradiction|assumption]). clear HC5.
      destruct Hs2 as [->| ->].
      + specialize (NA eq_refl). split; [lia|].
        split; [destruct (Z.le_gt_cases d C); [left; lia|right; split; [reflexivity|lia]]|].
        split; [|discriminate]. intros K _. apply NA. lia.
      + destruct (NC eq_refl) as (-> & _). split; [lia|]. split; [left; reflexivity|]. split; [intros _; discriminate|reflexivity]. }
  clearbody next.
  destruct (split_spec next 268435455 pl' ltac:(lia) ltac:(lia) ltac:(lia))
    as (steps & t & pause & -> & B1 & B2 & B3 & B4 & B5 & B6).
  assert (HP' : exists P', gnc_prus c s P 268435455 steps t = (P', t) /\
     (s = ACC /\ P' = P + steps \/ s = COAST /\ P' = P)).
  { unfold gnc_prus. destruct Hs2 as [->| ->]; cbn [accelerating decelerating].
    - rewrite u32_id by (clear - HP HN B1; lia). eauto.
    - eauto. }
  destruct HP' as (P' & -> & HP').
  eexists. split; [reflexivity|]. cbn [o_s o_steps o_ticks o_pause o_P].
  split; [exact Hs2|]. split; [exact B1|].
  assert (Hacc : s = ACC -> P <= N + 254) by (clear - NA HCP; intros K; apply HCP, (NA K)).
  assert (HPP : 0 <= P' <= N + 509 + 91 /\ (P <= N + 509 -> P' <= N + 509)).
  { clear - HP' HP B1 HN0 Hacc. destruct HP' as [(E & ->)|(_ & ->)]; [specialize (Hacc E)|]; lia. }
  split; [apply HPP|]. split; [apply HPP|].
  split; [exact B3|]. split; [clear - B4 B5 B3 Hn; lia|].
  split; [clear - Hn B5; lia|].
  split. { clear - Hn B5 B1 HP' HCP HC. intros K. destruct HP' as [(-> & ->)|(-> & ->)].
    - assert (P < N) by (apply Hn; [lia|reflexivity]). lia.
    - apply HCP. destruct Hn as (_ & _ & _ & K2). specialize (K2 eq_refl). lia. }
  split.
  { destruct B6 as [(B7 & B8 & B9)|(B7 & B8 & B9 & B10)].
    2:{ subst steps. clear - B9 HMin. lia. }
    assert (t = next) by (clear - B5 B8; lia). subst t.
    assert (B9' : steps = Z.min 255 pl') by (clear - B9 Hpl2; lia). clear B9. rename B9' into B9.
    assert (Hdur2 : MIN_CMD_TICKS A <= next \/ MIN_CMD_TICKS A <= next * pl').
    { destruct Hn as (_ & [->|(-> & ->)] & _).
      - exact Hdur.
      - destruct (NA eq_refl) as (-> & _). clear - HoC2 HMin Hpl4 HC HM. destruct HoC2 as [K|K]; [left; lia|right; nia]. }
    clear - Hdur2 B9 Hn HM HMin Hpl2. subst steps.
    destruct (Z.le_gt_cases pl' 255).
    - rewrite Z.min_r by lia. destruct Hdur2; nia.
    - rewrite Z.min_l by lia. nia. }
  clear - B6. lia.
Qed.

(** ** one call *)
Record keeps (ro : ramp_ro) (rw : ramp_rw) (qe : queue_end) (up : bool) (N : Z) : Prop := mkKeeps {
  kp_keep : keep_running (parameters (ro_config ro)) = true;
  kp_up : keep_running_count_up (parameters (ro_config ro)) = up;
  kp_P : 0 <= rw_prus rw <= N + 509;
  kp_qe : rw_prus rw <> 0 -> qe_up qe = up;
  kp_C : min_travel_ticks (parameters (ro_config ro)) <= rw_curr_ticks rw;
  kp_CP : min_travel_ticks (parameters (ro_config ro)) < rw_curr_ticks rw -> rw_prus rw <= N + 254;
  kp_stop : rw_curr_ticks rw = TICKS_FOR_STOPPED_MOTOR /\ rw_pause_left rw = 0 \/
            rw_curr_ticks rw <= 2147483648 /\ qe_up qe = up;
  kp_pause : rw_pause_left rw = 0 \/ 32767 <= rw_pause_left rw < 4294967296;
  kp_active : rw_state rw <> RAMP_STATE_IDLE
}.

Definition keep_cfg (c : config) (N : Z) : Prop :=
  17 <= min_travel_ticks (parameters c) <= 1073741824 /\
  0 <= N <= KR - 101000 /\ 0 <= max_ramp_up_steps c < 4294967296 /\
  full_speed_from c N /\ calc_le A c.

Lemma keep_step ro rw qe old up N : keeps ro rw qe up N -> keep_cfg (ro_config ro) N ->
  exists n, getNextCommand_ A ro rw qe old = Some n /\
  let c := n_cmd n in
  let M := min_travel_ticks (parameters (ro_config ro)) in
  c_ticks c <> 0 /\ keeps ro (n_rw n) (enqueue c qe) up N /\ queue_cmd A c /\ c_up c = up /\
  rw_curr_ticks (n_rw n) <> TICKS_FOR_STOPPED_MOTOR /\
  (c_steps c <> 0 -> rw_pause_left rw = 0 /\ M <= c_ticks c + rw_pause_left (n_rw n) /\
     (2 <= c_steps c -> rw_pause_left (n_rw n) = 0)) /\
  (c_steps c = 0 -> rw_pause_left rw = c_ticks c + rw_pause_left (n_rw n)).
Proof.
  intros [Hk Hku HP Hq HC HCP Hst Hpa Hact] (HM & HN & HX & HF & Hcl).
  pose proof (min_cmd_bounds A HA) as HMin.
  destruct (Z.eq_dec (rw_pause_left rw) 0) as [Ep|Np].
  - unfold getNextCommand_, gnc_pause. rewrite Ep. change (0 >? 0) with false. cbv iota.
    unfold gnc_delta. rewrite Hk, Hku.
    set (P := rw_prus rw) in *. set (C := rw_curr_ticks rw) in *. set (c := ro_config ro) in *.
    set (M := min_travel_ticks (parameters c)) in *.
    assert ((if P =? 0 then up else qe_up qe) = up) as ->.
    { destruct (Z.eqb_spec P 0) as [|K]; [reflexivity|]. apply Hq, K. }
    rewrite Bool.eqb_reflx. cbn [Z.eqb andb].
    assert (HC5 : C = TICKS_FOR_STOPPED_MOTOR \/ C <= 2147483648) by (clear - Hst; intuition).
    destruct (core_keep c C P N) as (o & Eo & S0 & S1 & S2 & S2' & S3 & S4 & S5 & S6 & S7 & S8);
      try assumption; try (clear - HP HN HC HC5; unfold TICKS_FOR_STOPPED_MOTOR in *; lia).
    fold M in S5, S6. unfold core in Eo. fold M in Eo. fold KR.
    destruct (gnc_planning A C) as [orig|]; [|discriminate].
    destruct (gnc_choose A M C P KR true orig) as [[s1 R1] pl1] eqn:Ech.
    assert (R1 = KR) as ->.
    { clear - Ech HP HN. unfold gnc_choose in Ech. cbn [negb] in Ech.
      destruct (Z.eqb_spec KR P); [exfalso; lia|]. destruct (Z.ltb_spec KR P); [exfalso; lia|].
      destruct (M <? C).
      - destruct (C <? _); [destruct (_ >? _); congruence|].
        destruct (_ <? _); [|congruence]. destruct (negb _); congruence.
      - destruct (M >? C); [congruence|]. destruct (_ <? _); [|congruence].
        destruct (_ && _); congruence. }
    cbn [Z.eqb KR]. fold KR.
    destruct (gnc_new_ticks A c s1 C P KR pl1 orig) as [d1 pl2].
    destruct (gnc_min_cmd A s1 d1 P KR pl2) as [[[s2 d2] pl3]|]; [|discriminate].
    destruct (gnc_split (gnc_clip s2 d2 C) KR pl3) as [[st1 t1] pa1].
    destruct (gnc_prus c s2 P KR st1 t1) as [P1 t2].
    injection Eo as <-. cbn [o_s o_steps o_ticks o_pause o_P] in *.
    eexists. split; [reflexivity|]. cbn [n_cmd n_rw c_ticks c_steps c_up rw_pause_left rw_curr_ticks].
    assert (u8 st1 = st1) as -> by (apply u8_id; clear - S1; lia).
    assert (u32 (pa1 + t2) = pa1 + t2) as -> by (apply u32_id; clear - S3 S4 S5; lia).
    assert (u16 t2 = t2) as -> by (apply u16_id; clear - S3; lia).
    split; [clear - S3; lia|].
    split. { split; cbn [rw_prus rw_pause_left rw_curr_ticks rw_state enqueue qe_up c_up]; try assumption;
        try (fold c; fold M; clear - S1 S2 S3 S4 S5 S6 HP; lia).
        - split; [apply S2|apply S2', HP].
        - intros _. reflexivity.
        - right. split; [clear - S5; lia|reflexivity].
        - clear - S8 S4. lia.
        - clear. destruct s2, up; vm_compute; discriminate. }
    split. { unfold queue_cmd, cmd_duration. cbn [c_ticks c_steps].
             rewrite Z.max_r by (clear - S1; lia). clear - S1 S3 S7. lia. }
    split; [reflexivity|]. split; [unfold TICKS_FOR_STOPPED_MOTOR; clear - S5; lia|].
    split.
    + intros _. split; [reflexivity|]. split; [clear - S5; fold M; lia|]. intros K.
      destruct (Z.eq_dec pa1 0) as [Q|Q]; [exact Q|]. destruct (S8 Q). clear - H K. lia.
    + intros K. clear - K S1. lia.
  - destruct Hst as [(_ & K)|(HC5 & Hqe)]; [contradiction|].
    destruct (pause_spec rw qe ltac:(lia)) as (p & E & K1 & K2 & K3 & K4).
    unfold getNextCommand_. rewrite E. eexists. split; [reflexivity|].
    cbn [n_cmd n_rw c_ticks c_steps c_up rw_pause_left rw_curr_ticks rw_prus].
    split; [clear - K1; lia|].
    split. { split; cbn [rw_prus rw_pause_left rw_curr_ticks rw_state enqueue qe_up c_up]; try assumption.
       - right. auto.
       - clear - Hpa K1 K2 K3 K4 Np. lia. }
    split. { unfold queue_cmd, cmd_duration. cbn [c_ticks c_steps].
             clear - K1 K2 K3 K4 Hpa Np HMin. lia. }
    split; [exact Hqe|]. split; [unfold TICKS_FOR_STOPPED_MOTOR; clear - HC5; lia|].
    split; [intros []; reflexivity|]. intros _. clear - K2. lia.
Qed.

(** ** arbitrarily long runs *)
Definition keep_spec (ro : ramp_ro) (rw : ramp_rw) (up : bool) (cs : list command) : Prop :=
  Forall (queue_cmd A) cs /\ Forall (fun c => c_up c = up) cs /\
  speed_ok_prefix (min_travel_ticks (parameters (ro_config ro))) cs /\
  (has_step cs = true -> pauses cs = rw_pause_left rw).

Lemma keep_prepared_step g qe old up N :
  let g1 := rg_prepare A qe g in
  norm g1 -> keeps (rg_ro g1) (rg_rw g1) qe up N -> keep_cfg (ro_config (rg_ro g1)) N ->
  exists c g2, ramp_step A true old g qe = Some ([c], g2, enqueue c qe) /\
    rg_ro g2 = rg_ro g1 /\ norm g2 /\ rw_curr_ticks (rg_rw g2) <> TICKS_FOR_STOPPED_MOTOR /\
    keeps (rg_ro g2) (rg_rw g2) (enqueue c qe) up N /\
    (forall cs, keep_spec (rg_ro g2) (rg_rw g2) up cs -> keep_spec (rg_ro g1) (rg_rw g1) up (c :: cs)).
Proof.
  intros g1 Hn Hk Hc. unfold ramp_step. rewrite getNext_prepare by (apply Hn). fold g1.
  destruct (keep_step (rg_ro g1) (rg_rw g1) qe old up N Hk Hc) as (n & -> & Q0 & Q1 & Q2 & Q3 & Q4 & Q5 & Q6).
  destruct (Z.eqb_spec (c_ticks (n_cmd n)) 0) as [|_]; [contradiction|]. cbn [andb].
  destruct (Z.ltb_spec (cmd_duration (n_cmd n)) (MIN_CMD_TICKS A)) as [K|_].
  { exfalso. unfold queue_cmd in Q2. clear - K Q2. lia. }
  eexists _, _. split; [reflexivity|]. unfold rg_afterCommandEnqueued. cbn [with_rw rg_ro rg_rw].
  split; [reflexivity|]. split; [exact Hn|]. split; [exact Q4|]. split; [exact Q1|].
  intros cs (R1 & R2 & R3 & R4). unfold keep_spec in *. cbn [speed_ok_prefix has_step pauses].
  split; [constructor; assumption|]. split; [constructor; assumption|].
  destruct (Z.eqb_spec (c_steps (n_cmd n)) 0) as [E0|N0]; cbn [negb orb].
  - split; [split; [intros K; contradiction|split; [intros K; clear - K E0; lia|exact R3]]|].
    intros K. rewrite (R4 K). symmetry. apply Q6, E0.
  - destruct (Q5 N0) as (Q7 & Q8 & Q9).
    split. { split; [intros _ K; rewrite (R4 K); exact Q8|]. split; [|exact R3].
      intros K. specialize (Q9 K). clear - Q9 Q8. lia. }
    intros _. symmetry. exact Q7.
Qed.

Theorem keep_run N up : forall n g qe olds,
  norm g -> rw_curr_ticks (rg_rw g) <> TICKS_FOR_STOPPED_MOTOR ->
  keeps (rg_ro g) (rg_rw g) qe up N -> keep_cfg (ro_config (rg_ro g)) N ->
  exists cs g' qe', ramp_run A true olds n g qe = Some (cs, g', qe') /\ length cs = n /\
    isRampGeneratorActive g' = true /\ keep_spec (rg_ro g) (rg_rw g) up cs.
Proof.
  induction n as [|n IH]; intros g qe olds Hn HC Hk Hc.
  - exists [], g, qe. split; [reflexivity|]. split; [reflexivity|].
    split; [apply active_not_idle, Hk|]. unfold keep_spec. cbn. repeat split; auto. discriminate.
  - pose proof (prepare_norm A qe g Hn HC) as E.
    destruct (keep_prepared_step g qe (olds O) up N) as (c & g2 & Es & Ero & Hn2 & HC2 & Hk2 & HQ);
      rewrite ?E; try assumption. rewrite E in Ero, HQ.
    destruct (IH g2 (enqueue c qe) (fun k => olds (S k))) as (cs & g' & qe' & Er & El & Ea & Eq); try assumption.
    { rewrite Ero. exact Hc. }
    exists (c :: cs), g', qe'. cbn [ramp_run]. rewrite (active_not_idle g) by (apply Hk).
    rewrite Es, Er. split; [reflexivity|]. split; [cbn; congruence|]. split; [exact Ea|]. apply HQ, Eq.
Qed.

Theorem keep_run_prepared N up n g qe olds :
  let g1 := rg_prepare A qe g in
  norm g1 -> keeps (rg_ro g1) (rg_rw g1) qe up N -> keep_cfg (ro_config (rg_ro g1)) N ->
  exists cs g' qe', ramp_run A true olds n g qe = Some (cs, g', qe') /\ length cs = n /\
    isRampGeneratorActive g' = true /\ keep_spec (rg_ro g1) (rg_rw g1) up cs.
Proof.
  intros g1 Hn Hk Hc.
  assert (Hact : isRampGeneratorActive g = true).
  { apply active_not_idle. rewrite <- (prepared_active A qe). apply Hk. }
  destruct n as [|n].
  - exists [], g, qe. split; [reflexivity|]. split; [reflexivity|].
    split; [exact Hact|]. unfold keep_spec. cbn. repeat split; auto. discriminate.
  - destruct (keep_prepared_step g qe (olds O) up N Hn Hk Hc) as (c & g2 & Es & Ero & Hn2 & HC2 & Hk2 & HQ).
    destruct (keep_run N up n g2 (enqueue c qe) (fun k => olds (S k))) as (cs & g' & qe' & Er & El & Ea & Eq); try assumption.
    { rewrite Ero. exact Hc. }
    exists (c :: cs), g', qe'. cbn [ramp_run]. rewrite Hact.
    rewrite Es, Er. split; [reflexivity|]. split; [cbn; congruence|]. split; [exact Ea|]. apply HQ, Eq.
Qed.

(** runForward()/runBackward() at standstill *)
Lemma prepare_running qe g :
  let p := rg_params g in
  let ro := rg_ro g in
  apply p = true -> any_change p = true -> keep_running p = true ->
  ro_force_stop ro = false -> ro_force_immediate ro = false ->
  rw_curr_ticks (rg_rw g) = TICKS_FOR_STOPPED_MOTOR -> s_jump p = 0 ->
  let g1 := rg_prepare A qe g in
  let c := update A (set_parameters p (ro_config ro)) in
  let c1 := ro_config (rg_ro g1) in
  norm g1 /\
  (forall s, calculate_ticks A c1 s = calculate_ticks A c s) /\
  min_travel_ticks (parameters c1) = min_travel_ticks p /\
  s_h (parameters c1) = s_h p /\ pmfl_accel (parameters c1) = pmfl_accel p /\
  keep_running (parameters c1) = true /\
  keep_running_count_up (parameters c1) = keep_running_count_up p /\
  max_ramp_up_steps c1 = max_ramp_up_steps c /\
  rg_rw g1 = mkRw (rw_state (rg_rw g)) 0 (rw_pause_left (rg_rw g)) TICKS_FOR_STOPPED_MOTOR.
Proof.
  intros p ro H1 H2 H3 H4 H5 H6 H7 g1 c c1. subst g1 c1. unfold rg_prepare.
  unfold rg_take_parameters. fold p. rewrite H1. fold ro.
  cbn [ro_force_immediate set_config]. rewrite H5. fold c.
  assert (Ep : parameters c = p) by (unfold c; rewrite update_parameters; reflexivity).
  clearbody c. destruct c as [p0 X th cu]. cbn [parameters] in Ep. subst p0.
  unfold rg_adjust_prus. cbn [rg_rw]. rewrite H6, Z.eqb_refl. clearbody p ro.
  destruct ro as [c t fs fi]. destruct p as [mv mt sh sj pa ap ac rc va vs ma kr kc].
  cbn in H1, H2, H3, H4, H5, H7. subst ap ac kr fs fi sj.
  cbn -[calculate_ticks]. unfold norm. cbn -[calculate_ticks]. repeat split; auto.
Qed.
End WithArch.

(** * RampPeriod: getPeriodInTicksAfterCommandsCompleted() *)
From Coq Require Import ZArith Bool List Lia.
From Verif Require Import Base Pmf RampCalc RampCalcFacts RampGen RampStep RampRun RampReport Queue Stepper.
Import ListNotations.
Open Scope Z_scope.
Ltac Zify.zify_post_hook ::= idtac.

(** getPeriodInUsAfterCommandsCompleted(): src/FastAccelStepper.cpp:753-758,
    src/RampGenerator.h:110-112 *)
Definition s_periodUsAfter (A : arch) (s : stepper) : Z :=
  if isRampGeneratorActive (s_rg s) then TICKS_TO_US A (rw_curr_ticks (rg_rw (s_rg s))) else 0.

Section WithArch.
Variable A : arch.

(** the period stored with a step command is its ticks and the pause behind it *)
Lemma next_period ro rw qe old n :
  let C := rw_curr_ticks rw in
  let M := min_travel_ticks (parameters (ro_config ro)) in
  getNextCommand_ A ro rw qe old = Some n -> c_steps (n_cmd n) <> 0 -> c_ticks (n_cmd n) <> 0 ->
  0 <= C < 4294967296 -> 0 <= M < 4294967296 -> 0 <= rw_prus rw ->
  M <= 65535 \/ rw_prus rw <> max_ramp_up_steps (ro_config ro) ->
  rw_curr_ticks (n_rw n) = c_ticks (n_cmd n) + rw_pause_left (n_rw n)
  /\ 0 <= rw_pause_left (n_rw n) /\ 0 < c_ticks (n_cmd n) < 65536
  /\ rw_state (n_rw n) <> RAMP_STATE_IDLE.
Proof.
  intros C M E H1 H2 HC HM HP HL. unfold getNextCommand_ in E. fold C in E. fold M in E.
  destruct (gnc_pause rw qe) as [m|] eqn:EP.
  { exfalso. revert EP. injection E as <-. unfold gnc_pause.
    destruct (rw_pause_left rw >? 0); [|discriminate]. intros EP.
    injection EP as <-. apply H1. reflexivity. }
  destruct (gnc_delta ro qe) as [[need R]|] eqn:ED; [|discriminate].
  apply gnc_delta_range in ED.
  set (up := if rw_prus rw =? 0 then need else qe_up qe) in *.
  destruct (_ && _); [injection E as <-; now elim H2|].
  destruct (gnc_planning A C) as [o|]; [|discriminate].
  destruct (gnc_choose _ _ _ _ _ _ _) as [[s R'] pl] eqn:EC.
  assert (HR' : 0 <= R').
  { revert EC. unfold gnc_choose. clear - HP ED.
    repeat match goal with |- context[if ?b then _ else _] => destruct b end;
      intros [= _ <- _]; assumption. }
  destruct (R' =? 0); [injection E as <-; now elim H2|].
  destruct (gnc_new_ticks _ _ _ _ _ _ _) as [d pl1] eqn:EN.
  pose proof (new_ticks_range _ _ _ _ _ _ _ _ _ _ HM HC EN) as Hd.
  destruct (gnc_min_cmd _ _ _ _ _ _) as [[[s' d'] pl2]|] eqn:EM; [|discriminate].
  pose proof (min_cmd_range _ _ _ _ _ _ _ _ _ Hd HR' EM) as Hd'.
  rewrite clip_spec in E. set (next := if C =? TICKS_FOR_STOPPED_MOTOR then d' else _) in *.
  assert (Hn : 0 <= next < 4294967296).
  { unfold next. clear - Hd' HC. destruct (_ =? _); [lia|]. destruct s'; lia. }
  destruct (gnc_split next R' pl2) as [[steps t] pause] eqn:ES.
  destruct (split_sum _ _ _ _ _ _ Hn ES) as (Hp & Ht & Hs & Hw).
  assert (Ht' : t <= 65535 /\ (pause = 0 \/ 32767 <= t)).
  { revert ES. unfold gnc_split. clear - Hn. rewrite !fas_min_spec, fas_max_spec, Z.shiftr_div_pow2 by lia.
    change (2 ^ 1) with 2. pose proof (Z.div_mod next 2 ltac:(lia)). pose proof (Z.mod_pos_bound next 2 ltac:(lia)).
    destruct (Z.gtb_spec next 65535); intros [= _ <- <-]; lia. }
  destruct (gnc_prus _ _ _ _ _ _) as [P' t'] eqn:EU. apply prus_ticks in EU.
  injection E as <-. cbn [n_rw n_cmd c_up c_steps c_ticks rw_state rw_curr_ticks rw_pause_left] in *.
  assert (Hq : 0 <= t' <= 65535 /\ pause + t' < 4294967296).
  { destruct EU as [->|(_ & K & ->)]; [lia|]. fold M. destruct HL as [HL|HL]; [|congruence].
    clear - HL HM Hp Ht Hs Ht' Hn Hw. clearbody next M. split; [lia|].
    destruct (Z.lt_ge_cases 65535 next) as [L|L]; [destruct (Hw L); lia|lia]. }
  assert (U : u16 t' = t') by (apply Z.mod_small; lia).
  rewrite U in *. rewrite u32_id by lia. repeat split; try lia.
  destruct s'; unfold up; destruct (if rw_prus rw =? 0 then need else qe_up qe); discriminate.
Qed.

(** a pause command: the period is kept, the pause gets shorter *)
Lemma next_pause ro rw qe old n : 0 < rw_pause_left rw < 4294967296 ->
  getNextCommand_ A ro rw qe old = Some n ->
  c_steps (n_cmd n) = 0 /\ rw_curr_ticks (n_rw n) = rw_curr_ticks rw /\ rw_state (n_rw n) = rw_state rw
  /\ rw_pause_left rw = c_ticks (n_cmd n) + rw_pause_left (n_rw n) /\ 0 <= rw_pause_left (n_rw n).
Proof.
  intros Hp E. unfold getNextCommand_, gnc_pause in E.
  destruct (Z.gtb_spec (rw_pause_left rw) 0) as [_|]; [|lia].
  injection E as <-. cbn [n_cmd n_rw c_steps c_ticks rw_curr_ticks rw_state rw_pause_left].
  set (p := if rw_pause_left rw >? 65535 then _ else _).
  assert (B : 0 <= p <= 65535 /\ p <= rw_pause_left rw).
  { unfold p. clear p. rewrite fas_min_spec, Z.shiftr_div_pow2 by lia. change (2 ^ 1) with 2.
    pose proof (Z.div_mod (rw_pause_left rw) 2 ltac:(lia)). pose proof (Z.mod_pos_bound (rw_pause_left rw) 2 ltac:(lia)).
    destruct (Z.gtb_spec (rw_pause_left rw) 65535); lia. }
  clearbody p. rewrite u32_id by lia. assert (U : u16 p = p) by (apply Z.mod_small; lia).
  rewrite U. repeat split; lia.
Qed.

(** the generator calls [getNextCommand_] with the period and the pause it has *)
Lemma next_inner qe old g g1 n : rg_getNextCommand A qe old g = Some (g1, n) -> c_ticks (n_cmd n) <> 0 ->
  getNextCommand_ A (rg_ro g1) (rg_rw g1) qe old = Some n
  /\ rw_curr_ticks (rg_rw g1) = rw_curr_ticks (rg_rw g) /\ rw_pause_left (rg_rw g1) = rw_pause_left (rg_rw g)
  /\ rw_state (rg_rw g1) = rw_state (rg_rw g).
Proof.
  intros E H2. unfold rg_getNextCommand in E.
  set (ga := rg_take_parameters A g) in *. set (gb := rg_adjust_prus A ga) in *.
  set (ro := rg_new_target _ _ _ _) in E.
  assert (Ea : rw_curr_ticks (rg_rw gb) = rw_curr_ticks (rg_rw g)
    /\ rw_pause_left (rg_rw gb) = rw_pause_left (rg_rw g) /\ rw_state (rg_rw gb) = rw_state (rg_rw g)).
  { unfold gb, rg_adjust_prus.
    assert (Fa1 : rg_rw ga = rg_rw g)
      by (unfold ga, rg_take_parameters; destruct (apply (rg_params g)); auto).
    rewrite Fa1.
    destruct (rw_curr_ticks (rg_rw g) =? TICKS_FOR_STOPPED_MOTOR); destruct (recalc_ramp_steps _);
      cbn [rg_rw with_rw rw_curr_ticks rw_pause_left rw_state]; rewrite ?Fa1; auto. }
  destruct (ro_force_immediate ro); [injection E as <- <-; now elim H2|].
  destruct (getNextCommand_ A ro (rg_rw (with_ro ro gb)) qe old) as [m|] eqn:EN; [|discriminate].
  injection E as <- <-. cbn [rg_rw rg_ro with_ro] in *. auto.
Qed.

Lemma period_after qe old s g1 n :
  rg_getNextCommand A qe old (s_rg s) = Some (g1, n) -> c_steps (n_cmd n) <> 0 -> c_ticks (n_cmd n) <> 0 ->
  let c := ro_config (rg_ro g1) in
  let M := min_travel_ticks (parameters c) in
  0 <= rw_curr_ticks (rg_rw (s_rg s)) < 4294967296 -> 0 <= M < 4294967296 -> 0 <= rw_prus (rg_rw g1) ->
  M <= 65535 \/ rw_prus (rg_rw g1) <> max_ramp_up_steps c ->
  let s' := st_rg (rg_afterCommandEnqueued n g1) s in
  s_periodAfter s' = c_ticks (n_cmd n) + rw_pause_left (rg_rw (s_rg s')) /\ 0 < c_ticks (n_cmd n)
  /\ 0 <= rw_pause_left (rg_rw (s_rg s')).
Proof.
  intros E H1 H2 c M HC HM HP HL s'.
  destruct (next_inner qe old (s_rg s) g1 n E H2) as (EN & E1 & _ & _). rewrite <- E1 in HC.
  destruct (next_period (rg_ro g1) (rg_rw g1) qe old n EN H1 H2 HC HM HP HL) as (K1 & K2 & K3 & K4).
  unfold s', s_periodAfter, isRampGeneratorActive. cbn [s_rg st_rg rg_afterCommandEnqueued with_rw rg_rw].
  destruct (Z.eqb_spec (rw_state (n_rw n)) RAMP_STATE_IDLE) as [e|_]; [contradiction|].
  cbn [negb]. rewrite K1. lia.
Qed.
Lemma period_pause qe old s g1 n :
  rg_getNextCommand A qe old (s_rg s) = Some (g1, n) -> c_ticks (n_cmd n) <> 0 ->
  0 < rw_pause_left (rg_rw (s_rg s)) < 4294967296 ->
  let s' := st_rg (rg_afterCommandEnqueued n g1) s in
  c_steps (n_cmd n) = 0 /\ s_periodAfter s' = s_periodAfter s
  /\ rw_pause_left (rg_rw (s_rg s)) = c_ticks (n_cmd n) + rw_pause_left (rg_rw (s_rg s')).
Proof.
  intros E H2 Hp s'. destruct (next_inner qe old (s_rg s) g1 n E H2) as (EN & E1 & E2 & E3).
  rewrite <- E2 in Hp. destruct (next_pause (rg_ro g1) (rg_rw g1) qe old n Hp EN) as (K1 & K2 & K3 & K4 & _).
  unfold s', s_periodAfter, isRampGeneratorActive. cbn [s_rg st_rg rg_afterCommandEnqueued with_rw rg_rw].
  rewrite K2, K3, E1, E3. rewrite <- E2. auto.
Qed.
End WithArch.

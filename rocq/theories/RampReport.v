(** * RampReport: reported speed and acceleration *)
From Coq Require Import ZArith Bool List Lia.
From Verif Require Import Base Pmf RampCalc RampGen RampStep.
Import ListNotations.
Open Scope Z_scope.
Ltac Zify.zify_post_hook ::= idtac.

Section WithArch.
Variable A : arch.

Lemma choose_coast M C P R same o s R' pl : gnc_choose A M C P R same o = (s, R', pl) ->
  s = COAST -> same = true /\ R' = R.
Proof.
  unfold gnc_choose. destruct same; cbn [negb]; [|intros [= <- _ _]; discriminate].
  destruct (R =? P); [intros [= <- _ _]; discriminate|].
  destruct (R <? P); [intros [= <- _ _]; discriminate|].
  repeat match goal with |- context[if ?b then _ else _] => destruct b end;
    intros [= <- <- _]; auto.
Qed.

Lemma new_ticks_coast_eq c C P R pl o : fst (gnc_new_ticks A c COAST C P R pl o) = C.
Proof. reflexivity. Qed.

Lemma min_cmd_state s d P R pl s' d' pl' : gnc_min_cmd A s d P R pl = Some (s', d', pl') ->
  s' = DEC \/ s' = s /\ d' = d.
Proof.
  unfold gnc_min_cmd. destruct (_ && _).
  - destruct (d =? 0); [discriminate|].
    destruct (_ >=? R); destruct (_ >=? R); try (intros [= <- <- _]; auto);
      destruct (_ <? _); intros; auto.
  - intros [= <- <- _]. auto.
Qed.

Lemma split_sum next R pl steps t pause : 0 <= next < 4294967296 ->
  gnc_split next R pl = (steps, t, pause) ->
  0 <= pause /\ 0 <= t /\ t + pause = next /\ (65535 < next -> t = next / 2 /\ pause <= 65536 \/ t = 65535).
Proof.
  intros Hn. unfold gnc_split. rewrite !fas_min_spec, fas_max_spec, Z.shiftr_div_pow2 by lia.
  change (2 ^ 1) with 2. pose proof (Z.mul_div_le next 2 ltac:(lia)).
  pose proof (Z.div_pos next 2 ltac:(lia) ltac:(lia)).
  destruct (Z.gtb_spec next 65535); intros [= _ <- <-]; lia.
Qed.

Lemma prus_ticks c s P R steps t P' t' : gnc_prus c s P R steps t = (P', t') ->
  t' = t \/ decelerating s = true /\ P = max_ramp_up_steps c /\ t' = min_travel_ticks (parameters c).
Proof.
  unfold gnc_prus. destruct (accelerating s); [intros [= _ <-]; auto|].
  destruct (decelerating s); [|intros [= _ <-]; auto].
  destruct (P <? steps); [intros [= _ <-]; auto|].
  destruct (Z.gtb_spec P (max_ramp_up_steps c)); [intros [= _ <-]; auto|].
  destruct (Z.geb_spec P (max_ramp_up_steps c)); cbn [andb].
  - destruct (_ && _); [intros [= _ <-]; right; split; [reflexivity|split; [lia|reflexivity]]|].
    destruct (R >? P); intros [= _ <-]; auto.
  - destruct (R >? P); intros [= _ <-]; auto.
Qed.

Lemma new_ticks_range c s C P R pl o d pl' : 0 <= min_travel_ticks (parameters c) < 4294967296 ->
  0 <= C < 4294967296 -> gnc_new_ticks A c s C P R pl o = (d, pl') -> 0 <= d < 4294967296.
Proof.
  intros HM HC. unfold gnc_new_ticks.
  destruct (accelerating s).
  { intros [= <- _]. rewrite fas_max_spec.
    match goal with |- context[calculate_ticks A c ?x] => pose proof (calc_range A c x) end. lia. }
  destruct (decelerating s).
  { destruct (P =? 1); [intros [= <- _]; lia|]. intros [= <- _].
    match goal with |- context[calculate_ticks A c ?x] => pose proof (calc_range A c x) end.
    destruct (_ && _); lia. }
  intros [= <- _]. lia.
Qed.

Lemma min_cmd_range s d P R pl s' d' pl' : 0 <= d < 4294967296 -> 0 <= R ->
  gnc_min_cmd A s d P R pl = Some (s', d', pl') -> 0 <= d' < 4294967296.
Proof.
  intros Hd HR. unfold gnc_min_cmd. destruct (_ && _).
  - destruct (d =? 0); [discriminate|].
    pose proof (u32_range (MIN_CMD_TICKS A + R - 1)) as U.
    assert (Q : 0 <= u32 (MIN_CMD_TICKS A + R - 1) / R < 4294967296).
    { destruct (Z.eq_dec R 0) as [->|]; [rewrite Zdiv_0_r; lia|].
      split; [apply Z.div_pos; lia|]. apply Z.div_lt_upper_bound; nia. }
    destruct (_ >=? R); destruct (_ >=? R); intros [= _ <- _]; lia.
  - intros [= _ <- _]. lia.
Qed.

(** the state byte of a command with steps and the change of the period *)
Definition state_fits (s : rstate) (C T P X M : Z) : Prop :=
  match s with
  | COAST => T = C
  | ACC => T <= C
  | _ => C <> TICKS_FOR_STOPPED_MOTOR -> P <> X \/ C <= M <= 65535 -> C <= T
  end.
Lemma gnc_delta_range ro qe up R : gnc_delta ro qe = Some (up, R) -> 0 <= R.
Proof.
  unfold gnc_delta. destruct (keep_running _); [intros [= _ <-]; lia|].
  destruct (_ =? _); [discriminate|]. intros [= _ <-]. lia.
Qed.

Lemma next_state ro rw qe old n :
  let C := rw_curr_ticks rw in
  let c := ro_config ro in
  let M := min_travel_ticks (parameters c) in
  getNextCommand_ A ro rw qe old = Some n -> c_steps (n_cmd n) <> 0 -> c_ticks (n_cmd n) <> 0 ->
  0 <= C < 4294967296 -> 0 <= M < 4294967296 -> 0 <= rw_prus rw ->
  exists s, rw_state (n_rw n) = Z.lor (rstate_byte s) (if c_up (n_cmd n) then 32 else 64) /\
    state_fits s C (rw_curr_ticks (n_rw n)) (rw_prus rw) (max_ramp_up_steps c) M.
Proof.
  intros C c M E H1 H2 HC HM HP. unfold getNextCommand_ in E. fold c C in E. fold M in E.
  destruct (gnc_pause rw qe) as [m|] eqn:EP.
  { exfalso. revert EP. injection E as <-. unfold gnc_pause.
    destruct (rw_pause_left rw >? 0); [|discriminate]. intros EP.
    injection EP as <-. apply H1. reflexivity. }
  destruct (gnc_delta ro qe) as [[need R]|] eqn:ED; [|discriminate].
  apply gnc_delta_range in ED.
  set (up := if rw_prus rw =? 0 then need else qe_up qe) in *.
  destruct (_ && _); [injection E as <-; now elim H2|].
  destruct (gnc_planning A C) as [o|]; [|discriminate].
  destruct (gnc_choose _ _ _ _ _ _ _) as [[s R'] pl] eqn:EC.
  assert (HR' : 0 <= R').
  { revert EC. unfold gnc_choose. clear - HP ED.
    repeat match goal with |- context[if ?b then _ else _] => destruct b end;
      intros [= _ <- _]; assumption. }
  destruct (R' =? 0); [injection E as <-; now elim H2|].
  destruct (gnc_new_ticks _ _ _ _ _ _ _) as [d pl1] eqn:EN.
  pose proof (new_ticks_range _ _ _ _ _ _ _ _ _ HM HC EN) as Hd.
  destruct (gnc_min_cmd _ _ _ _ _ _) as [[[s' d'] pl2]|] eqn:EM; [|discriminate].
  pose proof (min_cmd_range _ _ _ _ _ _ _ _ Hd HR' EM) as Hd'.
  apply min_cmd_state in EM.
  rewrite clip_spec in E. set (next := if C =? TICKS_FOR_STOPPED_MOTOR then d' else _) in *.
  assert (Hn : 0 <= next < 4294967296).
  { unfold next. clear - Hd' HC. destruct (_ =? _); [lia|]. destruct s'; lia. }
  destruct (gnc_split next R' pl2) as [[steps t] pause] eqn:ES.
  destruct (split_sum _ _ _ _ _ _ Hn ES) as (Hp & Ht & Hs & Hw).
  destruct (gnc_prus _ _ _ _ _ _) as [P' t'] eqn:EU. apply prus_ticks in EU.
  injection E as <-. cbn [n_rw n_cmd c_up c_steps c_ticks rw_state rw_curr_ticks] in *.
  exists s'. split; [reflexivity|].
  assert (HT : t' = t -> u32 (pause + t') = next) by (intros ->; rewrite u32_id; lia).
  assert (HX : TICKS_FOR_STOPPED_MOTOR = 4294967295) by reflexivity.
  assert (HD : decelerating s' = true -> C <> TICKS_FOR_STOPPED_MOTOR ->
    rw_prus rw <> max_ramp_up_steps c \/ C <= M <= 65535 -> C <= u32 (pause + t')).
  { intros Hs' N K. destruct EU as [EU|(_ & EU & Et)].
    - rewrite (HT EU). unfold next. apply Z.eqb_neq in N. rewrite N.
      clear - Hs'. destruct s'; try discriminate Hs'; lia.
    - destruct K as [K|K]; [congruence|]. fold M in Et.
      clear - Et K Hw Hp Hs Hn Ht HC. clearbody next C M.
      destruct (Z.lt_ge_cases 65535 next).
      + specialize (Hw ltac:(lia)). rewrite u32_id; lia.
      + rewrite u32_id; lia. }
  destruct s'; cbn [state_fits decelerating] in *.
  - destruct EM as [EM|[<- ->]]; [discriminate|]. destruct EU as [EU|[EU _]]; [|discriminate].
    rewrite (HT EU). unfold next.
    assert (F : d = C) by (revert EN; cbn; intros [= <- _]; reflexivity).
    rewrite F. destruct (C =? TICKS_FOR_STOPPED_MOTOR); reflexivity.
  - destruct EU as [EU|[EU _]]; [|discriminate]. rewrite (HT EU). unfold next.
    destruct (Z.eqb_spec C TICKS_FOR_STOPPED_MOTOR); lia.
  - exact (HD eq_refl).
  - exact (HD eq_refl).
Qed.

Lemma acceleration_of_state s up P t T g :
  rg_getCurrentAcceleration (with_rw (mkRw (Z.lor (rstate_byte s) (if up : bool then 32 else 64)) P t T) g) =
  match s with COAST => 0 | ACC => i32 (if up then rg_acceleration g else - rg_acceleration g)
  | _ => i32 (if up then - rg_acceleration g else rg_acceleration g) end.
Proof. destruct s, up; reflexivity. Qed.

(** [g1]: the generator with the parameters which are used for the command *)
Lemma reported_acceleration qe old g g1 n :
  rg_getNextCommand A qe old g = Some (g1, n) ->
  c_steps (n_cmd n) <> 0 -> c_ticks (n_cmd n) <> 0 ->
  let c := ro_config (rg_ro g1) in
  let M := min_travel_ticks (parameters c) in
  let g2 := rg_afterCommandEnqueued n g1 in
  let C := rw_curr_ticks (rg_rw g) in
  let T := rw_curr_ticks (rg_rw g2) in
  let a := rg_getCurrentAcceleration g2 in
  0 <= C < 4294967296 -> 0 <= M < 4294967296 -> 0 <= rw_prus (rg_rw g1) ->
  0 < rg_acceleration g < 2147483648 ->
  (a = 0 /\ T = C
   \/ a = (if c_up (n_cmd n) then rg_acceleration g else - rg_acceleration g) /\ T <= C
   \/ a = (if c_up (n_cmd n) then - rg_acceleration g else rg_acceleration g)
      /\ (C <> TICKS_FOR_STOPPED_MOTOR ->
          rw_prus (rg_rw g1) <> max_ramp_up_steps c \/ C <= M <= 65535 -> C <= T)).
Proof.
  intros E H1 H2 c M g2 C T a HC HM HP HAc.
  unfold rg_getNextCommand in E.
  set (ga := rg_take_parameters A g) in *. set (gb := rg_adjust_prus A ga) in *.
  set (ro := rg_new_target _ _ _ _) in E.
  assert (Ea : rw_curr_ticks (rg_rw gb) = C /\ rg_acceleration gb = rg_acceleration g).
  { unfold gb, rg_adjust_prus.
    assert (Fa : rg_rw ga = rg_rw g /\ rg_acceleration ga = rg_acceleration g)
      by (unfold ga, rg_take_parameters; destruct (apply (rg_params g)); auto).
    destruct Fa as [Fa1 Fa2]. rewrite Fa1. fold C.
    destruct (C =? TICKS_FOR_STOPPED_MOTOR); destruct (recalc_ramp_steps _);
      cbn [rg_rw with_rw rw_curr_ticks rg_acceleration]; rewrite ?Fa1; auto. }
  destruct Ea as [EC Eacc].
  destruct (ro_force_immediate ro) eqn:EI.
  { injection E as <- <-. now elim H2. }
  destruct (getNextCommand_ A ro (rg_rw (with_ro ro gb)) qe old) as [m|] eqn:EN; [|discriminate].
  injection E as <- <-. cbn [rg_rw rg_ro with_ro] in *.
  rewrite <- EC in HC.
  destruct (next_state ro (rg_rw gb) qe old m EN H1 H2 HC HM HP) as (s & Es & Hf).
  rewrite EC in *.
  assert (Ha : a = match s with COAST => 0
    | ACC => if c_up (n_cmd m) then rg_acceleration g else - rg_acceleration g
    | _ => if c_up (n_cmd m) then - rg_acceleration g else rg_acceleration g end).
  { unfold a, g2, rg_afterCommandEnqueued. destruct (n_rw m) as [st P' t' T'] eqn:Em.
    cbn [rw_state] in Es. rewrite Es. rewrite acceleration_of_state.
    cbn [rg_acceleration with_ro]. rewrite Eacc.
    destruct s, (c_up (n_cmd m)); rewrite ?i32_id by lia; lia. }
  rewrite Ha. unfold T, g2, rg_afterCommandEnqueued. cbn [rg_rw with_rw].
  destruct s; cbn [state_fits] in Hf; auto.
Qed.
End WithArch.

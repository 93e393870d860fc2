(** * RampRun: the ramp generator driven by [fill_queue] until the ramp ends *)
From Coq Require Import ZArith Bool List Lia ZifyBool Zwf.
From Verif Require Import Base Pmf PmfFacts RampCalc RampGen RampStep.
Import ListNotations.
Open Scope Z_scope.
Ltac Zify.zify_post_hook ::= idtac.

(** Duration of a command: src/StepperISR.cpp:66-69 *)
Definition cmd_duration (c : command) : Z := c_ticks c * Z.max 1 (c_steps c).

(** Effect of an accepted command on the planned end of the queue:
    src/StepperISR.cpp:111-119 (pin level omitted) *)
Definition enqueue (c : command) (qe : queue_end) : queue_end :=
  mkQueueEnd (i32 (if c_up c then qe_pos qe + c_steps c else qe_pos qe - c_steps c))
             (c_up c) (qe_dir qe).

(** One iteration of the loop in [fill_queue]: src/FastAccelStepper.cpp:388-444.
    The queue has room for the command; with [strict] it refuses commands shorter
    than MIN_CMD_TICKS (src/StepperISR.cpp:70-72), whereupon fill_queue stops the
    ramp. [old] is the content of the uninitialised local variable [cmd]. *)
Definition ramp_step (A : arch) (strict : bool) (old : next_command) (g : rampgen)
  (qe : queue_end) : option (list command * rampgen * queue_end) :=
  match rg_getNextCommand A qe old g with
  | None => None
  | Some (g', n) =>
    if c_ticks (n_cmd n) =? 0 then Some ([], rg_afterCommandEnqueued n g', qe)
    else if strict && (cmd_duration (n_cmd n) <? MIN_CMD_TICKS A)
    then Some ([], rg_stopRamp g', qe)
    else Some ([n_cmd n], rg_afterCommandEnqueued n g', enqueue (n_cmd n) qe)
  end.

(** At most [n] iterations; stops, when the ramp is not active any more. *)
Fixpoint ramp_run (A : arch) (strict : bool) (olds : nat -> next_command) (n : nat)
  (g : rampgen) (qe : queue_end) : option (list command * rampgen * queue_end) :=
  match n with
  | O => Some ([], g, qe)
  | S n' =>
    if isRampGeneratorActive g then
      match ramp_step A strict (olds O) g qe with
      | None => None
      | Some (cs, g', qe') =>
        match ramp_run A strict (fun k => olds (S k)) n' g' qe' with
        | None => None
        | Some (cs', g'', qe'') => Some (cs ++ cs', g'', qe'')
        end
      end
    else Some ([], g, qe)
  end.

(** ** Measure *)
Definition rcan (r P : Z) : Z := if P =? 0 then Z.abs r else r.
Definition meas (r P : Z) : Z :=
  if (r =? 0) && (P <=? 1) then 0
  else if P <=? r then 1 + 2 * (r + P) * 4294967296 + r
  else 1 + (2 * (P - r) + 1) * 4294967296 + P.

Lemma meas_pos r P : 0 <= P < 1073741824 -> -1073741824 < r < 1073741824 ->
  (P = 0 -> 0 <= r) -> 0 <= meas r P.
Proof.
  intros. unfold meas.
  destruct (Z.eqb_spec r 0); destruct (Z.leb_spec P 1); cbn [andb]; try lia;
    destruct (Z.leb_spec P r); lia.
Qed.

Ltac meas_tac := unfold meas, rcan; repeat
  match goal with
  | |- context [?a =? ?b] => destruct (Z.eqb_spec a b)
  | |- context [?a <=? ?b] => destruct (Z.leb_spec a b)
  end; cbn [andb]; try lia.

Lemma meas_ahead r P s P' : 0 <= P < r -> r + P < 1073741824 -> 1 <= s <= r -> 0 <= P' ->
  P' = P + s /\ (s < r \/ P = 0 /\ r = 1) \/ P' = P /\ s <= r - P \/ P' <= P /\ P' <= r - s ->
  meas (rcan (r - s) P') P' < meas r P.
Proof.
  intros H1 H2 H3 H4 H5. meas_tac.
Qed.
Lemma meas_back r P s : 1 <= P -> r <= P -> Z.abs r + P < 1073741824 -> ~ (r = 0 /\ P <= 1) ->
  1 <= s <= P ->
  meas (rcan (r - s) (P - s)) (P - s) < meas r P.
Proof.
  intros H1 H2 H3 H4 H5. meas_tac.
Qed.

(** ** One call of [_getNextCommand] *)
Lemma i32_sub_i32 a b : i32 (a - i32 b) = i32 (a - b).
Proof.
  apply i32_eq_iff. unfold i32.
  set (q := (b + 2147483648) / 4294967296).
  replace ((b + 2147483648) mod 4294967296) with ((b + 2147483648) - 4294967296 * q)
    by (unfold q; pose proof (Z.div_mod (b + 2147483648) 4294967296 ltac:(lia)); lia).
  replace (a - (b + 2147483648 - 4294967296 * q - 2147483648)) with ((a - b) + q * 4294967296) by lia.
  apply Z.mod_add. lia.
Qed.

Section WithArch.
Variable A : arch.
Hypothesis HA : In A all_archs.

Lemma gnc_eq ro rw qe old :
  let c := ro_config ro in
  let P := rw_prus rw in
  let d := i32 (ro_target_pos ro - qe_pos qe) in
  let need := if d =? 0 then negb (qe_up qe) else d >? 0 in
  let up := if P =? 0 then need else qe_up qe in
  rw_pause_left rw = 0 -> keep_running (parameters c) = false -> d <> -2147483648 -> 0 <= P ->
  getNextCommand_ A ro rw qe old =
  if (Z.abs d =? 0) && (P <=? 1) then Some (ramp_complete old)
  else match core A c (rw_curr_ticks rw) P (Z.abs d) (Bool.eqb up need) with
  | None => None
  | Some o => Some (mkNext (mkCommand (u16 (o_ticks o)) (u8 (o_steps o)) up)
                (mkRw (Z.lor (rstate_byte (o_s o))
                         (if up then RAMP_DIRECTION_COUNT_UP else RAMP_DIRECTION_COUNT_DOWN))
                      (o_P o) (o_pause o) (u32 (o_pause o + o_ticks o))))
  end.
Proof.
  intros c P d need up Hp Hk Hd HP. unfold getNextCommand_, gnc_pause.
  rewrite Hp. change (0 >? 0) with false. cbv iota.
  unfold gnc_delta. fold c. rewrite Hk. fold d.
  destruct (Z.eqb_spec d (-2147483648)); [contradiction|].
  fold need. fold P. fold up. unfold core.
  destruct ((Z.abs d =? 0) && (P <=? 1)) eqn:E; [reflexivity|].
  destruct (gnc_planning A (rw_curr_ticks rw)) as [o|]; [|reflexivity].
  destruct (gnc_choose A (min_travel_ticks (parameters c)) (rw_curr_ticks rw) P (Z.abs d)
              (Bool.eqb up need) o) as [[s R] pl] eqn:Ec.
  assert (HR : R <> 0).
  { unfold gnc_choose in Ec.
    destruct (Bool.eqb up need) eqn:Eu; cbn [negb] in Ec.
    - destruct (Z.eqb_spec (Z.abs d) P). { injection Ec as _ <- _. lia. }
      destruct (Z.ltb_spec (Z.abs d) P). { injection Ec as _ <- _. lia. }
      assert (Z.abs d = R); [|lia].
      repeat match type of Ec with
      | context [if ?b then _ else _] => destruct b
      end; congruence.
    - injection Ec as _ <- _. intros K.
      unfold up in Eu. rewrite K in Eu. cbn in Eu. destruct need; discriminate. }
  destruct (Z.eqb_spec R 0); [contradiction|].
  destruct (gnc_new_ticks A c s _ P R pl o) as [d1 pl1].
  destruct (gnc_min_cmd A s d1 P R pl1) as [[[s2 d2] pl2]|]; [|reflexivity].
  destruct (gnc_split _ R pl2) as [[steps next] pause].
  destruct (gnc_prus c s2 P R steps next) as [P' next']. reflexivity.
Qed.

(** configurations with periods of at most about one minute *)
Definition cfg_ok (c : config) (B : Z) : Prop :=
  2 <= min_travel_ticks (parameters c) <= 1073741824 /\
  0 <= max_ramp_up_steps c < 4294967296 /\
  calc_pos A c (Z.max B 42000) /\ calc_le A c.

(** signed distance to the target in moving direction *)
Definition dist (d : Z) (up : bool) (P : Z) : Z :=
  if P =? 0 then Z.abs d else if up then d else - d.

Record sinv (ro : ramp_ro) (rw : ramp_rw) (qe : queue_end) (B : Z) : Prop := mkSinv {
  si_keep : keep_running (parameters (ro_config ro)) = false;
  si_P : 0 <= rw_prus rw;
  si_B : Z.abs (i32 (ro_target_pos ro - qe_pos qe)) + rw_prus rw <= B < 1073741824;
  si_pause : 0 <= rw_pause_left rw < 4294967296;
  si_C : 1 <= rw_curr_ticks rw;
  si_stop : rw_curr_ticks rw = TICKS_FOR_STOPPED_MOTOR /\ rw_pause_left rw = 0 \/
            rw_curr_ticks rw <= 2147483648;
  si_active : rw_state rw <> RAMP_STATE_IDLE
}.

Definition smeas (ro : ramp_ro) (rw : ramp_rw) (qe : queue_end) : Z :=
  let d := i32 (ro_target_pos ro - qe_pos qe) in
  meas (dist d (qe_up qe) (rw_prus rw)) (rw_prus rw) * 4294967296 + rw_pause_left rw.

Lemma smeas_pos ro rw qe B : sinv ro rw qe B -> 0 <= smeas ro rw qe.
Proof.
  intros [? HP HB Hp _ _ _]. unfold smeas.
  set (d := i32 (ro_target_pos ro - qe_pos qe)) in *.
  pose proof (meas_pos (dist d (qe_up qe) (rw_prus rw)) (rw_prus rw)) as K.
  assert (0 <= meas (dist d (qe_up qe) (rw_prus rw)) (rw_prus rw)); [|lia].
  apply K; unfold dist; destruct (Z.eqb_spec (rw_prus rw) 0); destruct (qe_up qe); lia.
Qed.

(** the pieces of a long period *)
Lemma pause_spec rw qe : 0 < rw_pause_left rw < 4294967296 ->
  exists p, gnc_pause rw qe = Some (mkNext (mkCommand p 0 (qe_up qe))
      (mkRw (rw_state rw) (rw_prus rw) (rw_pause_left rw - p) (rw_curr_ticks rw))) /\
    1 <= p <= 65535 /\ p <= rw_pause_left rw /\
    (rw_pause_left rw <= 65535 -> p = rw_pause_left rw) /\
    (65535 < rw_pause_left rw -> 32768 <= p /\ 32768 <= rw_pause_left rw - p).
Proof.
  intros H. unfold gnc_pause. destruct (Z.gtb_spec (rw_pause_left rw) 0); [|lia].
  set (q := rw_pause_left rw) in *.
  rewrite Z.shiftr_div_pow2 by lia. change (2 ^ 1) with 2. rewrite fas_min_spec.
  pose proof (Z.mul_div_le q 2 ltac:(lia)).
  pose proof (Z.mul_succ_div_gt q 2 ltac:(lia)).
  destruct (Z.gtb_spec q 65535).
  - exists (Z.min (q / 2) 65535). rewrite (u16_id (Z.min (q / 2) 65535)) by lia.
    rewrite u32_id by lia. split; [reflexivity|]. repeat split; lia.
  - exists q. rewrite (u16_id q) by lia. rewrite u32_id by lia.
    split; [reflexivity|]. repeat split; lia.
Qed.

Lemma state_not_idle s up :
  Z.lor (rstate_byte s) (if up : bool then RAMP_DIRECTION_COUNT_UP else RAMP_DIRECTION_COUNT_DOWN)
  <> RAMP_STATE_IDLE.
Proof. destruct s, up; discriminate. Qed.

Lemma i32_small z : -2147483648 <= z < 2147483648 -> i32 z = z.
Proof. apply i32_id. Qed.

Definition moved (up : bool) (d s : Z) : Z := if up then d - s else d + s.

Lemma enqueue_delta t c qe :
  let d := i32 (t - qe_pos qe) in
  0 <= c_steps c <= 255 -> Z.abs d < 1073741824 ->
  i32 (t - qe_pos (enqueue c qe)) = moved (c_up c) d (c_steps c).
Proof.
  intros d Hs Hd. unfold enqueue. cbn [qe_pos]. rewrite i32_sub_i32.
  rewrite <- (i32_small (moved (c_up c) d (c_steps c))) by (unfold moved; destruct (c_up c); lia).
  unfold moved, d.
  destruct (c_up c).
  - replace (i32 (t - qe_pos qe) - c_steps c) with (- c_steps c - (- i32 (t - qe_pos qe))) by lia.
    apply i32_eq_iff. unfold i32.
    set (x := t - qe_pos qe). replace (t - (qe_pos qe + c_steps c)) with (x - c_steps c) by (unfold x; lia).
    pose proof (Z.div_mod (x + 2147483648) 4294967296 ltac:(lia)).
    set (q := (x + 2147483648) / 4294967296) in *.
    replace (x - c_steps c) with
      ((- c_steps c - - ((x + 2147483648) mod 4294967296 - 2147483648)) + q * 4294967296) by lia.
    apply Z.mod_add. lia.
  - apply i32_eq_iff. unfold i32.
    set (x := t - qe_pos qe). replace (t - (qe_pos qe - c_steps c)) with (x + c_steps c) by (unfold x; lia).
    pose proof (Z.div_mod (x + 2147483648) 4294967296 ltac:(lia)).
    set (q := (x + 2147483648) / 4294967296) in *.
    replace (x + c_steps c) with
      (((x + 2147483648) mod 4294967296 - 2147483648 + c_steps c) + q * 4294967296) by lia.
    apply Z.mod_add. lia.
Qed.

(** the step period [M] does not get lost by the truncation to 16 bit in
    src/RampConstAcceleration.cpp:475,498 *)
Definition period_ok (ro : ramp_ro) (rw : ramp_rw) : Prop :=
  let M := min_travel_ticks (parameters (ro_config ro)) in
  u16 M <> 0 \/
  65536 <= M <= rw_curr_ticks rw /\ (rw_curr_ticks rw = TICKS_FOR_STOPPED_MOTOR -> rw_prus rw = 0).

Lemma gnc_cases ro rw qe old B : sinv ro rw qe B -> rw_pause_left rw = 0 ->
  let c := ro_config ro in
  let P := rw_prus rw in
  let d := i32 (ro_target_pos ro - qe_pos qe) in
  (d = 0 /\ P <= 1 /\ getNextCommand_ A ro rw qe old = Some (ramp_complete old)) \/
  exists up, let rho := if up : bool then d else - d in
    ~ (rho = 0 /\ P <= 1) /\ (P = 0 -> 0 < rho) /\ (P <> 0 -> up = qe_up qe) /\
    dist d (qe_up qe) P = rho /\
    getNextCommand_ A ro rw qe old =
    match core A c (rw_curr_ticks rw) P (Z.abs d) (0 <? rho) with
    | None => None
    | Some o => Some (mkNext (mkCommand (u16 (o_ticks o)) (u8 (o_steps o)) up)
                (mkRw (Z.lor (rstate_byte (o_s o))
                         (if up then RAMP_DIRECTION_COUNT_UP else RAMP_DIRECTION_COUNT_DOWN))
                      (o_P o) (o_pause o) (u32 (o_pause o + o_ticks o))))
    end.
Proof.
  intros [Hk HP HB Hp HC Hst Hact] Ep. cbv zeta.
  pose proof (gnc_eq ro rw qe old) as G. cbv zeta in G.
  set (c := ro_config ro) in *.
  set (P := rw_prus rw) in *. set (d := i32 (ro_target_pos ro - qe_pos qe)) in *.
  rewrite G; try assumption; [|lia]. clear G.
  destruct ((Z.abs d =? 0) && (P <=? 1)) eqn:Eend.
  { left. repeat split; lia. }
  right.
  set (need := if d =? 0 then negb (qe_up qe) else d >? 0).
  set (up := if P =? 0 then need else qe_up qe).
  exists up. set (rho := if up then d else - d).
  assert (Hnt : ~ (rho = 0 /\ P <= 1)) by (unfold rho; destruct up; lia).
  assert (HP0 : P = 0 -> 0 < rho).
  { intros K. unfold rho, up, need. destruct (Z.eqb_spec P 0); [|lia].
    destruct (Z.eqb_spec d 0); [lia|]. destruct (Z.gtb_spec d 0); lia. }
  assert (Hsame : Bool.eqb up need = (0 <? rho)).
  { destruct (Z.eqb_spec P 0) as [EP|NP].
    - assert (up = need) as -> by (unfold up; destruct (Z.eqb_spec P 0); [reflexivity|lia]).
      rewrite Bool.eqb_reflx. specialize (HP0 EP). destruct (Z.ltb_spec 0 rho); [reflexivity|lia].
    - unfold rho, up, need. destruct (Z.eqb_spec P 0); [lia|].
      destruct (Z.eqb_spec d 0); destruct (Z.gtb_spec d 0); destruct (qe_up qe); cbn; lia. }
  assert (Hdist : dist d (qe_up qe) P = rho).
  { unfold dist. destruct (Z.eqb_spec P 0) as [EP|NP].
    - specialize (HP0 EP). unfold rho in *. destruct up; lia.
    - unfold rho, up. destruct (Z.eqb_spec P 0); [lia|reflexivity]. }
  rewrite Hsame. repeat split; try assumption.
  intros NP. unfold up. destruct (Z.eqb_spec P 0); [contradiction|reflexivity].
Qed.

Lemma sstep ro rw qe old B : sinv ro rw qe B -> cfg_ok (ro_config ro) B ->
  period_ok ro rw ->
  exists n, getNextCommand_ A ro rw qe old = Some n /\
  (c_ticks (n_cmd n) = 0 /\ i32 (ro_target_pos ro - qe_pos qe) = 0 /\
     rw_state (n_rw n) = RAMP_STATE_IDLE /\ rw_pause_left rw = 0 \/
   c_ticks (n_cmd n) <> 0 /\ sinv ro (n_rw n) (enqueue (n_cmd n) qe) B /\
     smeas ro (n_rw n) (enqueue (n_cmd n) qe) < smeas ro rw qe /\
     rw_curr_ticks (n_rw n) <> TICKS_FOR_STOPPED_MOTOR /\ period_ok ro (n_rw n)).
Proof.
  intros [Hk HP HB Hp HC Hst Hact] (HM & HX & Hcp & Hcl) HuM.
  destruct (Z.eq_dec (rw_pause_left rw) 0) as [Ep|Np].
  - pose proof (gnc_cases ro rw qe old B (mkSinv ro rw qe B Hk HP HB Hp HC Hst Hact) Ep) as G.
    cbv zeta in G.
    set (c := ro_config ro) in *. set (M := min_travel_ticks (parameters c)) in *.
    set (P := rw_prus rw) in *. set (d := i32 (ro_target_pos ro - qe_pos qe)) in *.
    set (C := rw_curr_ticks rw) in *.
    destruct G as [(Ed & EP & G)|(up & Hnt & HP0 & Hup & Hdist & G)].
    { rewrite G. eexists. split; [reflexivity|]. left. cbn. repeat split; try assumption. }
    rewrite G. clear G.
    set (rho := if up then d else - d) in *.
    assert (Habs : Z.abs rho = Z.abs d) by (clear; unfold rho; destruct up; lia).
    assert (HC4 : 1 <= C < 4294967296) by (unfold TICKS_FOR_STOPPED_MOTOR in Hst; lia).
    assert (HC5 : C = TICKS_FOR_STOPPED_MOTOR \/ C <= 2147483648) by (clear - Hst; intuition).
    assert (Hcp' : calc_pos A c (Z.max P 42000)) by (clear - Hcp HB HP; intros z Hz; apply Hcp; lia).
    assert (Hmeas : Z.abs rho + P < 1073741824 /\ Z.abs rho + P <= B) by (clear - HB Habs; lia).
    assert (Step : exists o, core A c C P (Z.abs d) (0 <? rho) = Some o /\
        1 <= o_steps o <= 255 /\ 0 <= o_P o /\ u16 (o_ticks o) <> 0 /\ 0 <= o_pause o < 4294967296 /\
        1 <= o_pause o + o_ticks o <= 2147483648 /\
        Z.abs (rho - o_steps o) + o_P o <= Z.abs d + P /\
        meas (rcan (rho - o_steps o) (o_P o)) (o_P o) < meas rho P /\
        (u16 M <> 0 \/ 65536 <= M <= o_pause o + o_ticks o)).
    { unfold period_ok in HuM. fold c in HuM. fold M in HuM. fold C in HuM. fold P in HuM.
      pose proof (min_cmd_bounds A HA) as HN.
      clear Hact Hdist Hst Hp Hup.
      clearbody rho d.
      destruct (Z.lt_ge_cases P rho) as [L|L].
      - assert (0 <? rho = true) as -> by (clear - L HP; lia).
        assert (Hr : Z.abs d = rho) by (clear - L HP Habs; lia). rewrite Hr.
        destruct (core_ahead A HA c C P rho) as
           (o & Eo & _ & S1 & S2 & S3 & S4 & S5 & S6 & S7 & S8 & S9 & _);
          try assumption; [fold M; clear - HM; lia|clear - L HP; lia|clear - L Hmeas HP; lia|].
        exists o. split; [exact Eo|]. specialize (S8 Hcl). fold M in S8, S7.
        specialize (S8 ltac:(clear - HM; lia) HC5).
        split; [exact S1|]. split; [exact S3|].
        fold M in S9.
        split. { clear - S7 HuM HN.
           destruct S7 as [(? & _)|(_ & -> & _ & _ & K)]; [rewrite u16_id by lia; lia|].
           destruct HuM as [?|HuM]; [assumption|lia]. }
        split; [exact S5|].
        split. { clear - S5 S7 S8 HM. lia. }
        split. { clear - S4 S1 S2 S3 L HP. lia. }
        split. { apply meas_ahead; clear - S4 S1 S2 S3 L Hmeas HP; lia. }
        destruct HuM as [K|(K1 & K2)]; [left; exact K|right].
        rewrite Z.min_l in S9 by (clear - K1; lia).
        clear - S9 K1 HN HM. lia.
      - destruct (core_back A HA c C P (Z.abs d) (0 <? rho)) as
           (o & Eo & _ & S1 & S2 & S3 & S4 & S5 & S6 & S7 & S8 & S9);
          try assumption;
          [fold M; clear - HM; lia|clear - HP HP0 L Hmeas; lia|clear - L Habs; lia|].
        exists o. split; [exact Eo|]. specialize (S9 Hcl). fold M in S9.
        specialize (S9 ltac:(clear - HM; lia) HC5).
        clear S8.
        split; [exact S1|]. split; [clear - S3 S2; lia|].
        split. { rewrite u16_id by (clear - S4; lia). clear - S4; lia. }
        split; [clear - S4 S5 S6; lia|].
        split; [clear - S4 S5 S9; lia|].
        split; [clear - S1 S2 S3 Habs; lia|].
        split. { rewrite S3. apply meas_back; clear - S1 S2 L Hmeas Hnt HP HP0; lia. }
        destruct HuM as [K|(K1 & K2)]; [left; exact K|right].
        specialize (S7 ltac:(clear - K2 HP0 L; intros E; specialize (K2 E); lia)).
        clear - S7 K1. lia. }
    destruct Step as (o & -> & S1 & S2 & S3 & S4 & S5 & S6 & S7 & S8).
    eexists. split; [reflexivity|]. right. cbn [n_cmd n_rw c_ticks].
    assert (u8 (o_steps o) = o_steps o) as -> by (apply u8_id; lia).
    assert (u32 (o_pause o + o_ticks o) = o_pause o + o_ticks o) as -> by (apply u32_id; lia).
    assert (Hd' : i32 (ro_target_pos ro - qe_pos (enqueue (mkCommand (u16 (o_ticks o)) (o_steps o) up) qe))
       = moved up d (o_steps o)).
    { apply enqueue_delta; cbn [c_steps]; fold d; clear - S1 HB HP; lia. }
    assert (Hm : Z.abs (moved up d (o_steps o)) = Z.abs (rho - o_steps o)) by
        (clear; unfold moved, rho; destruct up; lia).
    split; [exact S3|]. split; [|split; [|split]].
    + split; cbn [rw_prus rw_pause_left rw_curr_ticks rw_state].
      * exact Hk.
      * exact S2.
      * rewrite Hd', Hm. clear - S6 HB. lia.
      * exact S4.
      * clear - S5; lia.
      * right. clear - S5; lia.
      * apply state_not_idle.
    + unfold smeas. cbn [rw_prus rw_pause_left].
      rewrite Hd'. fold P. fold d. rewrite Hdist, Ep.
      replace (dist (moved up d (o_steps o)) (qe_up (enqueue (mkCommand (u16 (o_ticks o)) (o_steps o) up) qe)) (o_P o))
          with (rcan (rho - o_steps o) (o_P o)).
      * clear - S7 S4. lia.
      * cbn [enqueue qe_up c_up]. unfold dist, rcan. destruct (Z.eqb_spec (o_P o) 0);
          [symmetry; exact Hm| unfold moved, rho; destruct up; lia].
    + cbn [rw_curr_ticks]. unfold TICKS_FOR_STOPPED_MOTOR. clear - S5; lia.
    + unfold period_ok. fold c. fold M. cbn [rw_curr_ticks].
      destruct S8 as [S8|S8]; [left; exact S8|right]. split; [exact S8|].
      unfold TICKS_FOR_STOPPED_MOTOR. clear - S5; lia.
  - destruct (pause_spec rw qe ltac:(lia)) as (p & E & H1 & H2 & H3 & H4).
    unfold getNextCommand_. rewrite E. eexists. split; [reflexivity|]. right.
    cbn [n_cmd n_rw c_ticks]. split; [lia|].
    assert (Hd' : i32 (ro_target_pos ro - qe_pos (enqueue (mkCommand p 0 (qe_up qe)) qe))
         = i32 (ro_target_pos ro - qe_pos qe)).
    { rewrite enqueue_delta; cbn [c_steps c_up]; unfold moved; [destruct (qe_up qe)|..]; lia. }
    unfold TICKS_FOR_STOPPED_MOTOR in *.
    split; [|split; [|split]].
    + split; cbn [rw_prus rw_pause_left rw_curr_ticks rw_state]; try assumption; try lia.
    + unfold smeas. cbn [rw_prus rw_pause_left]. rewrite Hd'. cbn [enqueue qe_up c_up]. lia.
    + cbn [rw_curr_ticks]. lia.
    + exact HuM.
Qed.
End WithArch.

(** * UserHist: histories of calls of the ramp generator; uninitialised memory *)
From Coq Require Import ZArith Bool List Lia ZifyBool.
From Verif Require Import Base Pmf PmfFacts RampCalc RampGen RampStep.
Import ListNotations.
Open Scope Z_scope.
Ltac Zify.zify_post_hook ::= idtac.
Ltac splits := repeat match goal with |- _ /\ _ => split end.

(** ** Histories

    The calls of the user, which reach the ramp generator (src/RampGenerator.h:28-93), and
    [CNext]: one round of fill_queue (src/FastAccelStepper.cpp:388-444), with the planned
    position and the reaction of the queue. *)
Inductive ucall :=
| CSpeed (t : Z)
| CAccel (a : Z)
| CJump (s : Z)
| CLinear (s : Z)
| CApply
| CRun (up : bool)
| CMoveTo (pos : Z) (qe : queue_end)
| CMove (d : Z)
| CAdvance (d : Z)
| CSetTarget (pos : Z)
| CForceStop
| CInitStop
| CStopRamp
| CKeep
| CNext (qe : queue_end) (accepted : bool).

(** what can be seen from outside after a call: return code, command for the queue and the
    values of the query functions. stepsToStop() is left out as long as the ramp has not
    issued a command, see [P_User.C55_steps_to_stop_refuted]. *)
Record uobs := mkObs {
  o_code : Z;
  o_cmd : option command;
  o_active : bool;
  o_target : Z;
  o_stopping : bool;
  o_continuous : bool;
  o_acceleration : Z;
  o_mhz : option Z;
  o_us : Z;
  o_steps_to_stop : option Z
}.

Section WithArch.
Variable A : arch.

Definition observe (code : Z) (cmd : option command) (g : rampgen) : uobs :=
  mkObs code cmd (isRampGeneratorActive g) (rg_targetPosition g) (rg_isStopping g)
    (rg_isRunningContinuously g) (rg_getCurrentAcceleration g) (rg_getSpeedInMilliHz A g)
    (rg_getSpeedInUs A g)
    (if rw_curr_ticks (rg_rw g) =? TICKS_FOR_STOPPED_MOTOR then None else Some (rg_stepsToStop g)).

(** One call; [old] is the content of the local variable of fill_queue. [None] is undefined
    behaviour. *)
Definition ustep (c : ucall) (old : next_command) (g : rampgen) : option (rampgen * Z * option command) :=
  let plain g := Some (g, 0, None) in
  match c with
  | CSpeed t => plain (rg_setSpeedInTicks t g)
  | CAccel a => Some (rg_setAcceleration a g, None)
  | CJump s => plain (rg_setJumpStart s g)
  | CLinear s => plain (rg_setLinearAcceleration s g)
  | CApply => plain (rg_applySpeedAcceleration g)
  | CRun up => Some (rg_startRun up g, None)
  | CMoveTo pos qe => Some (rg_moveTo pos qe g, None)
  | CMove d => Some (rg_move d g, None)
  | CAdvance d => plain (rg_advanceTargetPosition d g)
  | CSetTarget pos => plain (rg_setTargetPosition pos g)
  | CForceStop => plain (rg_forceStop g)
  | CInitStop => plain (rg_initiateStop g)
  | CStopRamp => plain (rg_stopRamp g)
  | CKeep => plain (rg_setKeepRunning g)
  | CNext qe accepted =>
    if negb (isRampGeneratorActive g) || negb (checkValidConfig (rg_params g) =? MOVE_OK) then plain g
    else
      match rg_getNextCommand A qe old g with
      | None => None
      | Some (g, n) =>
        if c_ticks (n_cmd n) =? 0 then plain (rg_afterCommandEnqueued n g)
        else if accepted then Some (rg_afterCommandEnqueued n g, 0, Some (n_cmd n))
        else Some (g, 0, Some (n_cmd n))
      end
  end.
Fixpoint urun (olds : nat -> next_command) (l : list ucall) (g : rampgen) : option (list uobs) :=
  match l with
  | [] => Some []
  | c :: l' =>
    match ustep c (olds (length l')) g with
    | None => None
    | Some (g, code, cmd) =>
      match urun olds l' g with
      | None => None
      | Some r => Some (observe code cmd g :: r)
      end
    end
  end.
(** the generator after the calls *)
Fixpoint ufinal (olds : nat -> next_command) (l : list ucall) (g : rampgen) : option rampgen :=
  match l with
  | [] => Some g
  | c :: l' => match ustep c (olds (length l')) g with None => None | Some (g, _, _) => ufinal olds l' g end
  end.
(** the C types of the arguments *)
Definition ucall_ok (c : ucall) : Prop :=
  match c with
  | CJump s | CLinear s => 0 <= s
  | _ => True
  end.

(** ** Two generators which differ in uninitialised memory only *)
Definition psim (p1 p2 : params) : Prop :=
  p2 = mkParams (move_value p1) (min_travel_ticks p1) (s_h p1) (s_jump p1) (pmfl_accel p2) (apply p1)
    (any_change p1) (recalc_ramp_steps p1) (valid_acceleration p1) (valid_speed p1) (move_absolute p1)
    (keep_running p1) (keep_running_count_up p1)
  /\ (valid_acceleration p1 = true -> pmfl_accel p2 = pmfl_accel p1).
Record csim (c1 c2 : config) : Prop := mkCsim {
  cs_par : parameters c2 = parameters c1;
  cs_max : max_ramp_up_steps c2 = max_ramp_up_steps c1;
  cs_th : pmfl_ticks_h c2 = pmfl_ticks_h c1;
  cs_cub : cubic c2 = cubic c1 \/ s_h (parameters c1) = 0 /\ pmfl_ticks_h c1 = PMF_CONST_MAX;
  cs_pos : 0 <= max_ramp_up_steps c1 /\ 0 <= s_jump (parameters c1)
}.
Definition ready (g : rampgen) : Prop := isRampGeneratorActive g = false \/ apply (rg_params g) = true.
Record sim (g1 g2 : rampgen) : Prop := mkSim {
  sm_par : psim (rg_params g1) (rg_params g2);
  sm_conf : csim (ro_config (rg_ro g1)) (ro_config (rg_ro g2))
    \/ psim (parameters (ro_config (rg_ro g1))) (parameters (ro_config (rg_ro g2))) /\ ready g1;
  sm_target : ro_target_pos (rg_ro g2) = ro_target_pos (rg_ro g1);
  sm_fs : ro_force_stop (rg_ro g2) = ro_force_stop (rg_ro g1);
  sm_fi : ro_force_immediate (rg_ro g2) = ro_force_immediate (rg_ro g1);
  sm_state : rw_state (rg_rw g2) = rw_state (rg_rw g1);
  sm_left : rw_pause_left (rg_rw g2) = rw_pause_left (rg_rw g1);
  sm_curr : rw_curr_ticks (rg_rw g2) = rw_curr_ticks (rg_rw g1);
  sm_prus : rw_curr_ticks (rg_rw g1) = TICKS_FOR_STOPPED_MOTOR
    \/ rw_prus (rg_rw g2) = rw_prus (rg_rw g1) /\ 0 <= rw_prus (rg_rw g1);
  sm_acc : valid_acceleration (rg_params g1) = true -> rg_acceleration g2 = rg_acceleration g1;
  sm_valid : isRampGeneratorActive g1 = false \/ valid_acceleration (rg_params g1) = true;
  sm_jump : 0 <= s_jump (rg_params g1)
}.

Ltac ps := let H := fresh in let V := fresh in
  intros [H V]; unfold psim;
  match goal with p1 : params, p2 : params |- _ => destruct p1, p2 end;
  cbn in H, V |- *; injection H; intros; subst; split; [reflexivity|]; cbn; auto.
Lemma psim_refl p : psim p p.
Proof. destruct p. split; reflexivity. Qed.
Lemma psim_apply b p1 p2 : psim p1 p2 -> psim (set_apply b p1) (set_apply b p2). Proof. ps. Qed.
Lemma psim_change b p1 p2 : psim p1 p2 -> psim (set_any_change b p1) (set_any_change b p2). Proof. ps. Qed.
Lemma psim_recalc b p1 p2 : psim p1 p2 -> psim (set_recalc b p1) (set_recalc b p2). Proof. ps. Qed.
Lemma psim_move v b p1 p2 : psim p1 p2 -> psim (set_move v b p1) (set_move v b p2). Proof. ps. Qed.
Lemma psim_keep a b p1 p2 : psim p1 p2 -> psim (set_keep a b p1) (set_keep a b p2). Proof. ps. Qed.
Lemma psim_travel t p1 p2 : psim p1 p2 -> psim (set_travel t p1) (set_travel t p2). Proof. ps. Qed.
Lemma psim_sh t p1 p2 : psim p1 p2 -> psim (set_s_h t p1) (set_s_h t p2). Proof. ps. Qed.
Lemma psim_jump t p1 p2 : psim p1 p2 -> psim (p_setJumpStart t p1) (p_setJumpStart t p2). Proof. ps. Qed.
Lemma psim_accel n p1 p2 : psim p1 p2 -> psim (set_accel n p1) (set_accel n p2). Proof. ps. Qed.
Record peq (p1 p2 : params) : Prop := mkPeq {
  pe_move : move_value p2 = move_value p1; pe_travel : min_travel_ticks p2 = min_travel_ticks p1;
  pe_sh : s_h p2 = s_h p1; pe_jump : s_jump p2 = s_jump p1; pe_apply : apply p2 = apply p1;
  pe_change : any_change p2 = any_change p1; pe_recalc : recalc_ramp_steps p2 = recalc_ramp_steps p1;
  pe_va : valid_acceleration p2 = valid_acceleration p1; pe_vs : valid_speed p2 = valid_speed p1;
  pe_abs : move_absolute p2 = move_absolute p1; pe_keep : keep_running p2 = keep_running p1;
  pe_up : keep_running_count_up p2 = keep_running_count_up p1
}.
Lemma psim_eq p1 p2 : psim p1 p2 -> peq p1 p2.
Proof. intros [H _]. destruct p1, p2. cbn in H. injection H. intros. subst. constructor; reflexivity. Qed.
Lemma psim_full p1 p2 : psim p1 p2 -> valid_acceleration p1 = true -> p2 = p1.
Proof. intros [H V] E. rewrite H, (V E). now destruct p1. Qed.

(** ** The formulas do not use uninitialised values *)
Lemma from_u32_le x : pmfl_from_u32 x <= 32767.
Proof. unfold pmfl_from_u32. match goal with |- (let '(_, _) := ?t in _) <= _ => destruct t end. unfold i16. pose proof (Z.mod_pos_bound (pmfl_from_u16 z + z0 + 32768) 65536). lia. Qed.
Lemma csim_ticks c1 c2 s : csim c1 c2 -> 0 <= s -> calculate_ticks A c2 s = calculate_ticks A c1 s.
Proof.
  intros [P _ _ C _] Hs. unfold calculate_ticks. rewrite P.
  destruct (Z.geb_spec s (s_h (parameters c1))); [reflexivity|].
  destruct C as [C|[C _]]; [now rewrite C|]. lia.
Qed.
Lemma csim_steps c1 c2 t : csim c1 c2 -> calculate_ramp_steps A c2 t = calculate_ramp_steps A c1 t.
Proof.
  intros [P _ T C _]. unfold calculate_ramp_steps. rewrite P, T.
  destruct (Z.leb_spec (pmfl_from_u32 t) (pmfl_ticks_h c1)) as [|H]; [reflexivity|].
  destruct C as [C|[_ C]]; [now rewrite C|]. exfalso. pose proof (from_u32_le t). unfold PMF_CONST_MAX in C. lia.
Qed.
Lemma ramp_steps_pos c t : 0 <= calculate_ramp_steps A c t.
Proof.
  unfold calculate_ramp_steps. destruct (_ <=? _).
  - unfold u32. pose proof (Z.mod_pos_bound (pmfl_to_u32 (i16 (pmfl_divide (i16 (pmfl_divide (PMF_ACCEL_FACTOR A) (pmfl_accel (parameters c)))) (pmfl_square (pmfl_from_u32 t)))) + Z.shiftr (u32 (s_h (parameters c) + 2)) 2) 4294967296). unfold u32 in *. lia.
  - apply to_u32_range.
Qed.
Lemma csim_finish p m1 m2 th cu1 cu2 : (cu2 = cu1 \/ s_h p = 0 /\ th = PMF_CONST_MAX) -> 0 <= s_jump p ->
  let fin := fun c => mkConfig p (let m := calculate_ramp_steps A c (min_travel_ticks p) in if m =? 0 then 1 else m)
                        (pmfl_ticks_h c) (cubic c) in
  csim (fin (mkConfig p m1 th cu1)) (fin (mkConfig p m2 th cu2)).
Proof.
  intros C J fin. subst fin. cbv beta zeta.
  assert (E : calculate_ramp_steps A (mkConfig p m2 th cu2) (min_travel_ticks p)
              = calculate_ramp_steps A (mkConfig p m1 th cu1) (min_travel_ticks p)).
  { unfold calculate_ramp_steps. cbn [parameters pmfl_ticks_h cubic].
    destruct (Z.leb_spec (pmfl_from_u32 (min_travel_ticks p)) th) as [|H]; [reflexivity|].
    destruct C as [C|[_ C]]; [now rewrite C|]. exfalso. pose proof (from_u32_le (min_travel_ticks p)). unfold PMF_CONST_MAX in C. lia. }
  rewrite E. pose proof (ramp_steps_pos (mkConfig p m1 th cu1) (min_travel_ticks p)) as R.
  revert R. generalize (calculate_ramp_steps A (mkConfig p m1 th cu1) (min_travel_ticks p)). intros n R.
  constructor; cbn [parameters max_ramp_up_steps pmfl_ticks_h cubic]; auto. destruct (n =? 0); lia.
Qed.
Lemma csim_update c1 c2 : parameters c2 = parameters c1 -> 0 <= s_jump (parameters c1) -> 0 <= s_h (parameters c1) ->
  csim (update A c1) (update A c2).
Proof.
  intros P J Hs. unfold update. rewrite P.
  destruct (Z.gtb_spec (s_h (parameters c1)) 0) as [H|H].
  - apply (csim_finish (parameters c1)); auto.
  - apply (csim_finish (parameters c1)); auto. right. split; [lia|reflexivity].
Qed.
Lemma csim_map f c1 c2 : csim c1 c2 -> (forall p, s_h (f p) = s_h p) -> (forall p, s_jump (f p) = s_jump p) ->
  csim (set_parameters (f (parameters c1)) c1) (set_parameters (f (parameters c2)) c2).
Proof.
  intros [P M T C J] F G. constructor; cbn [set_parameters parameters max_ramp_up_steps pmfl_ticks_h cubic]; auto.
  - now rewrite P.
  - rewrite F. exact C.
  - rewrite G. exact J.
Qed.

(** ** One command *)
Lemma gnc_new_ticks_sim c1 c2 s curr P R planning orig : csim c1 c2 -> 0 <= P ->
  gnc_new_ticks A c2 s curr P R planning orig = gnc_new_ticks A c1 s curr P R planning orig.
Proof.
  intros C HP. unfold gnc_new_ticks. rewrite (cs_par _ _ C).
  destruct (accelerating s).
  - rewrite (csim_ticks c1 c2 _ C); [reflexivity|]. unfold u32. apply Z.mod_pos_bound. lia.
  - destruct (decelerating s); [|reflexivity]. destruct (P =? 1); [reflexivity|].
    rewrite (csim_ticks c1 c2 _ C); [reflexivity|]. destruct (Z.leb_spec P planning); lia.
Qed.
Lemma gnc_prus_sim c1 c2 s P R steps next : csim c1 c2 ->
  gnc_prus c2 s P R steps next = gnc_prus c1 s P R steps next.
Proof. intros C. unfold gnc_prus. now rewrite (cs_par _ _ C), (cs_max _ _ C). Qed.
Lemma gnc_prus_pos c s P R steps next : 0 <= P -> 0 <= max_ramp_up_steps c -> 0 <= fst (gnc_prus c s P R steps next).
Proof.
  intros HP HX. unfold gnc_prus. destruct (accelerating s).
  { cbn. unfold u32. apply Z.mod_pos_bound. lia. }
  destruct (decelerating s); [|cbn; lia].
  destruct (Z.ltb_spec P steps); [cbn; lia|]. destruct (Z.gtb_spec P (max_ramp_up_steps c)); [cbn; lia|].
  destruct (_ && _); [cbn; lia|]. destruct (Z.gtb_spec R P); [|cbn; lia].
  cbn. destruct (Z.ltb_spec (R - P) steps); lia.
Qed.
Definition nsim (n1 n2 : next_command) : Prop :=
  (n2 = n1 /\ 0 <= rw_prus (n_rw n1))
  \/ c_ticks (n_cmd n1) = 0 /\ c_ticks (n_cmd n2) = 0
     /\ rw_curr_ticks (n_rw n1) = TICKS_FOR_STOPPED_MOTOR /\ rw_curr_ticks (n_rw n2) = TICKS_FOR_STOPPED_MOTOR
     /\ rw_state (n_rw n1) = RAMP_STATE_IDLE /\ rw_state (n_rw n2) = RAMP_STATE_IDLE
     /\ rw_pause_left (n_rw n1) = 0 /\ rw_pause_left (n_rw n2) = 0.
Definition osim {T} (r : T -> T -> Prop) (a b : option T) : Prop :=
  match a, b with None, None => True | Some x, Some y => r x y | _, _ => False end.
Lemma complete_sim o1 o2 : nsim (ramp_complete o1) (ramp_complete o2).
Proof. right. cbn. repeat split; reflexivity. Qed.
Lemma getNextCommand_sim ro1 ro2 rw1 rw2 qe o1 o2 : csim (ro_config ro1) (ro_config ro2) ->
  ro_target_pos ro2 = ro_target_pos ro1 -> rw2 = rw1 -> 0 <= rw_prus rw1 ->
  osim nsim (getNextCommand_ A ro1 rw1 qe o1) (getNextCommand_ A ro2 rw2 qe o2).
Proof.
  intros C T -> HP. unfold getNextCommand_.
  assert (D : gnc_delta ro2 qe = gnc_delta ro1 qe) by (unfold gnc_delta; now rewrite (cs_par _ _ C), T).
  rewrite D, (cs_par _ _ C). clear D.
  destruct (gnc_pause rw1 qe) as [n|] eqn:G.
  { cbn. left. split; [reflexivity|]. unfold gnc_pause in G. destruct (rw_pause_left rw1 >? 0); [|discriminate].
    injection G as <-. exact HP. }
  destruct (gnc_delta ro1 qe) as [[need R]|]; [|exact I].
  cbv zeta.
  destruct ((R =? 0) && (rw_prus rw1 <=? 1)); [apply complete_sim|].
  destruct (gnc_planning A (rw_curr_ticks rw1)) as [orig|]; [|exact I].
  match goal with |- context [gnc_choose ?a ?b ?c ?d ?e ?f ?g] => destruct (gnc_choose a b c d e f g) as [[st R'] pl] end.
  destruct (R' =? 0); [apply complete_sim|].
  rewrite (gnc_new_ticks_sim _ _ st _ _ _ _ _ C HP).
  destruct (gnc_new_ticks A _ _ _ _ _ _ _) as [d pl2].
  destruct (gnc_min_cmd _ _ _ _ _ _) as [[[s d2] pl3]|]; [|exact I].
  destruct (gnc_split _ _ _) as [[steps nt] pause].
  rewrite (gnc_prus_sim _ _ s _ _ _ _ C).
  pose proof (gnc_prus_pos (ro_config ro1) s (rw_prus rw1) R' steps nt HP (proj1 (cs_pos _ _ C))) as HQ.
  destruct (gnc_prus _ _ _ _ _ _) as [P' nt']. left. split; [reflexivity|]. exact HQ.
Qed.

(** ** One call *)
Ltac sim_destruct :=
  let h := fresh in intros [? ? ? ? ? ? ? ? ? ? ? ?].
Lemma active_eq g1 g2 : sim g1 g2 -> isRampGeneratorActive g2 = isRampGeneratorActive g1.
Proof. intros []. unfold isRampGeneratorActive. now rewrite sm_state0. Qed.
Lemma check_eq p1 p2 : psim p1 p2 -> checkValidConfig p2 = checkValidConfig p1.
Proof. intros H. destruct (psim_eq _ _ H). unfold checkValidConfig. now rewrite pe_va0, pe_vs0. Qed.
Lemma sim_observe g1 g2 code cmd : sim g1 g2 -> observe code cmd g2 = observe code cmd g1.
Proof.
  intros S. pose proof (active_eq _ _ S) as E. destruct S. destruct (psim_eq _ _ sm_par0).
  assert (K : keep_running (parameters (ro_config (rg_ro g2))) = keep_running (parameters (ro_config (rg_ro g1)))).
  { destruct sm_conf0 as [C|[C _]]; [now rewrite (cs_par _ _ C)|exact (pe_keep _ _ (psim_eq _ _ C))]. }
  unfold observe, rg_targetPosition, rg_isStopping, rg_isRunningContinuously, rg_getSpeedInMilliHz, rg_getSpeedInUs.
  rewrite E, K, sm_target0, sm_fs0, pe_travel0, sm_curr0.
  f_equal.
  - unfold rg_getCurrentAcceleration. rewrite sm_state0.
    destruct sm_valid0 as [I|I]; [|now rewrite (sm_acc0 I)].
    unfold isRampGeneratorActive in I. apply negb_false_iff, Z.eqb_eq in I. rewrite I. reflexivity.
  - destruct (Z.eqb_spec (rw_curr_ticks (rg_rw g1)) TICKS_FOR_STOPPED_MOTOR); [reflexivity|].
    destruct sm_prus0 as [|[P _]]; [contradiction|]. unfold rg_stepsToStop. now rewrite P.
Qed.
Lemma sim_init a b : sim (rg_init a) (rg_init b).
Proof.
  constructor; cbn; try reflexivity; try discriminate; auto; try lia.
  - split; [reflexivity|discriminate].
  - right. split; [split; [reflexivity|discriminate]|left; reflexivity].
Qed.

(** calls, which change the parameters of the next move only *)
Lemma sim_params f g1 g2 : sim g1 g2 -> psim (f (rg_params g1)) (f (rg_params g2)) ->
  (apply (rg_params g1) = true -> apply (f (rg_params g1)) = true) ->
  valid_acceleration (f (rg_params g1)) = valid_acceleration (rg_params g1) ->
  0 <= s_jump (f (rg_params g1)) -> sim (with_params (f (rg_params g1)) g1) (with_params (f (rg_params g2)) g2).
Proof.
  intros S P Ha Hv Hj. destruct S. constructor; cbn [with_params rg_params rg_ro rg_rw rg_acceleration]; auto.
  - destruct sm_conf0 as [C|[C R]]; [left; exact C|right]. split; [exact C|].
    destruct R as [R|R]; [left; exact R|right; cbn; auto].
  - rewrite Hv. exact sm_acc0.
  - rewrite Hv. exact sm_valid0.
Qed.
Lemma sim_speed t g1 g2 : sim g1 g2 -> sim (rg_setSpeedInTicks t g1) (rg_setSpeedInTicks t g2).
Proof.
  intros S. apply (sim_params (p_setSpeedInTicks t)); [exact S|..]; pose proof (sm_par _ _ S) as P; pose proof (psim_eq _ _ P) as Q;
    pose proof (sm_jump _ _ S); unfold p_setSpeedInTicks.
  - rewrite (pe_vs _ _ Q), (pe_travel _ _ Q). destruct (_ || _); [apply psim_change, psim_travel|]; exact P.
  - destruct (_ || _); cbn; auto.
  - destruct (_ || _); reflexivity.
  - destruct (_ || _); cbn; auto.
Qed.
Lemma sim_linear t g1 g2 : sim g1 g2 -> sim (rg_setLinearAcceleration t g1) (rg_setLinearAcceleration t g2).
Proof.
  intros S. apply (sim_params (p_setCubicAccelerationSteps t)); [exact S|..]; pose proof (sm_par _ _ S) as P; pose proof (psim_eq _ _ P) as Q;
    pose proof (sm_jump _ _ S); unfold p_setCubicAccelerationSteps.
  - rewrite (pe_sh _ _ Q). destruct (_ =? _); [|apply psim_change, psim_recalc, psim_sh]; exact P.
  - destruct (_ =? _); cbn; auto.
  - destruct (_ =? _); reflexivity.
  - destruct (_ =? _); cbn; auto.
Qed.
Lemma sim_jump_start t g1 g2 : 0 <= t -> sim g1 g2 -> sim (rg_setJumpStart t g1) (rg_setJumpStart t g2).
Proof.
  intros Ht S. apply (sim_params (p_setJumpStart t)); [exact S|..]; pose proof (sm_par _ _ S) as P; cbn; auto.
  now apply psim_jump.
Qed.
Lemma sim_apply g1 g2 : sim g1 g2 -> sim (rg_applySpeedAcceleration g1) (rg_applySpeedAcceleration g2).
Proof.
  intros S. unfold rg_applySpeedAcceleration. rewrite (sm_fi _ _ S). destruct (ro_force_immediate _); [exact S|].
  apply (sim_params applyParameters); [exact S|..]; pose proof (sm_par _ _ S) as P; pose proof (psim_eq _ _ P) as Q;
    pose proof (sm_jump _ _ S); unfold applyParameters.
  - rewrite (pe_change _ _ Q). destruct (any_change _); [apply psim_apply|]; exact P.
  - destruct (any_change _); cbn; auto.
  - destruct (any_change _); reflexivity.
  - destruct (any_change _); cbn; auto.
Qed.
Lemma sim_accel a g1 g2 : sim g1 g2 ->
  sim (fst (rg_setAcceleration a g1)) (fst (rg_setAcceleration a g2))
  /\ snd (rg_setAcceleration a g2) = snd (rg_setAcceleration a g1).
Proof.
  intros S. unfold rg_setAcceleration. destruct (a <=? 0); [split; [exact S|reflexivity]|].
  split; [|reflexivity]. cbn [fst]. pose proof (sm_par _ _ S) as P. pose proof (psim_eq _ _ P) as Q. destruct S.
  set (n := pmfl_from_u32 (u32 a)).
  assert (E : psim (p_setAcceleration a (rg_params g1)) (p_setAcceleration a (rg_params g2))
    /\ valid_acceleration (p_setAcceleration a (rg_params g1)) = true
    /\ apply (p_setAcceleration a (rg_params g1)) = apply (rg_params g1)
    /\ s_jump (p_setAcceleration a (rg_params g1)) = s_jump (rg_params g1)).
  { unfold p_setAcceleration. fold n. rewrite (pe_va _ _ Q).
    destruct (valid_acceleration (rg_params g1)) eqn:V; cbn [negb orb].
    - rewrite (psim_full _ _ P V). destruct (negb _); repeat split; cbn; auto; apply psim_refl.
    - split; [|repeat split]. apply psim_recalc, psim_change, psim_accel, P. }
  destruct E as (E1 & E2 & E3 & E4).
  constructor; cbn [rg_params rg_ro rg_rw rg_acceleration]; auto.
  - destruct sm_conf0 as [C|[C R]]; [left; exact C|right]. split; [exact C|].
    destruct R as [R|R]; [left; exact R|right; cbn; congruence].
  - rewrite E4. exact sm_jump0.
Qed.
(** starting the ramp *)
Lemma start_sim rw1 rw2 : rw_state rw2 = rw_state rw1 -> rw_pause_left rw2 = rw_pause_left rw1 ->
  rw_curr_ticks rw2 = rw_curr_ticks rw1 ->
  (rw_curr_ticks rw1 = TICKS_FOR_STOPPED_MOTOR \/ rw_prus rw2 = rw_prus rw1 /\ 0 <= rw_prus rw1) ->
  let r1 := startRampIfNotRunning rw1 in let r2 := startRampIfNotRunning rw2 in
  rw_state r2 = rw_state r1 /\ rw_pause_left r2 = rw_pause_left r1 /\ rw_curr_ticks r2 = rw_curr_ticks r1
  /\ (rw_curr_ticks r1 = TICKS_FOR_STOPPED_MOTOR \/ rw_prus r2 = rw_prus r1 /\ 0 <= rw_prus r1).
Proof.
  intros S L C P r1 r2. subst r1 r2. unfold startRampIfNotRunning. rewrite S.
  destruct (rw_state rw1 =? RAMP_STATE_IDLE); cbn; auto.
Qed.
Lemma sim_start p1 p2 b (changed : bool) g1 g2 : sim g1 g2 -> psim p1 p2 ->
  apply p1 = true -> valid_acceleration p1 = true -> s_jump p1 = s_jump (rg_params g1) ->
  valid_acceleration (rg_params g1) = true ->
  sim (mkRg p1 (set_force_stop b (rg_ro g1)) (if changed then startRampIfNotRunning (rg_rw g1) else rg_rw g1) (rg_acceleration g1))
      (mkRg p2 (set_force_stop b (rg_ro g2)) (if changed then startRampIfNotRunning (rg_rw g2) else rg_rw g2) (rg_acceleration g2)).
Proof.
  intros S P Ha Hv Hj Hv'. destruct S. destruct (start_sim _ _ sm_state0 sm_left0 sm_curr0 sm_prus0) as (W1 & W2 & W3 & W4).
  constructor; cbn [rg_params rg_ro rg_rw rg_acceleration set_force_stop ro_config ro_target_pos ro_force_stop ro_force_immediate]; auto;
    try (destruct changed; assumption).
  - destruct sm_conf0 as [C|[C R]]; [left; exact C|right]. split; [exact C|right; exact Ha].
  - rewrite Hj. exact sm_jump0.
Qed.
Lemma check_valid p : checkValidConfig p = MOVE_OK -> valid_acceleration p = true.
Proof. unfold checkValidConfig, MOVE_OK, MOVE_ERR_SPEED_IS_UNDEFINED, MOVE_ERR_ACCELERATION_IS_UNDEFINED. destruct (valid_speed p), (valid_acceleration p); cbn; congruence. Qed.
Lemma sim_run up g1 g2 : sim g1 g2 ->
  sim (fst (rg_startRun up g1)) (fst (rg_startRun up g2)) /\ snd (rg_startRun up g2) = snd (rg_startRun up g1).
Proof.
  intros S. unfold rg_startRun. pose proof (sm_par _ _ S) as P. rewrite (check_eq _ _ P).
  destruct (Z.eqb_spec (checkValidConfig (rg_params g1)) MOVE_OK) as [E|E]; [|split; [exact S|reflexivity]].
  split; [|reflexivity]. cbn [fst negb]. pose proof (check_valid _ E) as V.
  apply (sim_start _ _ false true); try exact S; auto.
  unfold p_setRunning. now apply psim_apply, psim_change, psim_keep.
Qed.
Lemma startMove_eq changed g : rg_startMove changed g =
  mkRg (rg_params g) (set_force_stop false (rg_ro g)) (if changed then startRampIfNotRunning (rg_rw g) else rg_rw g) (rg_acceleration g).
Proof. unfold rg_startMove. now destruct changed. Qed.
Lemma sim_moveTo pos qe g1 g2 : sim g1 g2 ->
  sim (fst (rg_moveTo pos qe g1)) (fst (rg_moveTo pos qe g2)) /\ snd (rg_moveTo pos qe g2) = snd (rg_moveTo pos qe g1).
Proof.
  intros S. unfold rg_moveTo. pose proof (sm_par _ _ S) as P. rewrite (check_eq _ _ P).
  destruct (Z.eqb_spec (checkValidConfig (rg_params g1)) MOVE_OK) as [E|E]; [|split; [exact S|reflexivity]].
  split; [|reflexivity]. cbn [fst negb]. pose proof (check_valid _ E) as V.
  rewrite (active_eq _ _ S), (sm_target _ _ S).
  assert (K : keep_running (parameters (ro_config (rg_ro g2))) = keep_running (parameters (ro_config (rg_ro g1)))).
  { destruct (sm_conf _ _ S) as [C|[C _]]; [now rewrite (cs_par _ _ C)|exact (pe_keep _ _ (psim_eq _ _ C))]. }
  rewrite K, !startMove_eq. cbn [with_params rg_params rg_ro rg_rw rg_acceleration].
  apply sim_start; try exact S; auto.
  unfold p_setTargetPosition. now apply psim_apply, psim_change, psim_keep, psim_move.
Qed.
Lemma sim_move d g1 g2 : sim g1 g2 ->
  sim (fst (rg_move d g1)) (fst (rg_move d g2)) /\ snd (rg_move d g2) = snd (rg_move d g1).
Proof.
  intros S. unfold rg_move. pose proof (sm_par _ _ S) as P. rewrite (check_eq _ _ P).
  destruct (Z.eqb_spec (checkValidConfig (rg_params g1)) MOVE_OK) as [E|E]; [|split; [exact S|reflexivity]].
  split; [|reflexivity]. cbn [fst negb]. pose proof (check_valid _ E) as V.
  rewrite !startMove_eq. cbn [with_params rg_params rg_ro rg_rw rg_acceleration].
  apply sim_start; try exact S; auto.
  unfold p_setTargetRelativePosition. rewrite (pe_change _ _ (psim_eq _ _ P)), (pe_abs _ _ (psim_eq _ _ P)), (pe_move _ _ (psim_eq _ _ P)).
  now apply psim_apply, psim_change, psim_keep, psim_move.
Qed.
(** calls, which change the flags only *)
Lemma sim_ro f g1 g2 : sim g1 g2 -> (forall r, ro_config (f r) = ro_config r) ->
  ro_target_pos (f (rg_ro g2)) = ro_target_pos (f (rg_ro g1)) ->
  ro_force_stop (f (rg_ro g2)) = ro_force_stop (f (rg_ro g1)) ->
  ro_force_immediate (f (rg_ro g2)) = ro_force_immediate (f (rg_ro g1)) ->
  sim (with_ro (f (rg_ro g1)) g1) (with_ro (f (rg_ro g2)) g2).
Proof.
  intros S F T1 T2 T3. destruct S. constructor; cbn [with_ro rg_params rg_ro rg_rw rg_acceleration]; auto.
  rewrite !F. exact sm_conf0.
Qed.
Lemma sim_advance d g1 g2 : sim g1 g2 -> sim (rg_advanceTargetPosition d g1) (rg_advanceTargetPosition d g2).
Proof. intros S. apply (sim_ro (fun r => set_target (u32 (ro_target_pos r + d)) r)); [exact S|destruct S; cbn; auto..]. now rewrite sm_target0. Qed.
Lemma sim_setTarget d g1 g2 : sim g1 g2 -> sim (rg_setTargetPosition d g1) (rg_setTargetPosition d g2).
Proof. intros S. apply (sim_ro (fun r => set_target (u32 d) r)); [exact S|destruct S; cbn; auto..]. Qed.
Lemma sim_forceStop g1 g2 : sim g1 g2 -> sim (rg_forceStop g1) (rg_forceStop g2).
Proof. intros S. apply (sim_ro (set_immediate true)); [exact S|destruct S; cbn; auto..]. Qed.
Lemma sim_initStop g1 g2 : sim g1 g2 -> sim (rg_initiateStop g1) (rg_initiateStop g2).
Proof. intros S. apply (sim_ro (set_force_stop true)); [exact S|destruct S; cbn; auto..]. Qed.
Lemma sim_stopRamp g1 g2 : sim g1 g2 -> sim (rg_stopRamp g1) (rg_stopRamp g2).
Proof.
  intros []. unfold rg_stopRamp. constructor; cbn [with_rw rg_params rg_ro rg_rw rg_acceleration]; auto.
  destruct sm_conf0 as [C|[C R]]; [left; exact C|right]. split; [exact C|left; reflexivity].
Qed.
Lemma sim_keepRunning g1 g2 : sim g1 g2 -> sim (rg_setKeepRunning g1) (rg_setKeepRunning g2).
Proof.
  intros []. unfold rg_setKeepRunning. constructor; cbn [with_ro rg_params rg_ro rg_rw rg_acceleration map_parameters set_config ro_config ro_target_pos ro_force_stop ro_force_immediate]; auto.
  destruct sm_conf0 as [C|[C R]].
  - left. apply (csim_map (fun p => set_keep true (keep_running_count_up p) p)); auto.
  - right. split; [|exact R]. cbn [set_parameters parameters]. rewrite (pe_up _ _ (psim_eq _ _ C)). now apply psim_keep.
Qed.

(** ** getNextCommand *)
Lemma sim_take g1 g2 : sim g1 g2 -> 0 <= s_h (rg_params g1) -> valid_acceleration (rg_params g1) = true ->
  isRampGeneratorActive g1 = true ->
  sim (rg_take_parameters A g1) (rg_take_parameters A g2)
  /\ csim (ro_config (rg_ro (rg_take_parameters A g1))) (ro_config (rg_ro (rg_take_parameters A g2))).
Proof.
  intros S Hs V Ac. unfold rg_take_parameters. pose proof (sm_par _ _ S) as P. pose proof (psim_full _ _ P V) as E.
  rewrite E. destruct (apply (rg_params g1)) eqn:Ap.
  2:{ split; [exact S|]. destruct (sm_conf _ _ S) as [C|[_ [R|R]]]; [exact C|congruence|congruence]. }
  pose proof (csim_update (set_parameters (rg_params g1) (ro_config (rg_ro g1)))
    (set_parameters (rg_params g1) (ro_config (rg_ro g2))) eq_refl (sm_jump _ _ S) Hs) as C.
  set (c1 := update A (set_parameters (rg_params g1) (ro_config (rg_ro g1)))) in *.
  set (c2 := update A (set_parameters (rg_params g1) (ro_config (rg_ro g2)))) in *.
  clearbody c1 c2. destruct S.
  cbn [set_config ro_force_immediate ro_target_pos]. rewrite sm_fi0, sm_target0.
  set (b := if ro_force_immediate (rg_ro g1) then
     if move_absolute (rg_params g1) then negb (ro_target_pos (rg_ro g1) =? u32 (move_value (rg_params g1)))
     else negb (move_value (rg_params g1) =? 0) else false).
  assert (R : forall c r, ro_force_immediate r = ro_force_immediate (rg_ro g1) ->
    (if ro_force_immediate (rg_ro g1)
     then if move_absolute (rg_params g1)
          then if negb (ro_target_pos (rg_ro g1) =? u32 (move_value (rg_params g1)))
               then set_immediate false (set_config c r) else set_config c r
          else if negb (move_value (rg_params g1) =? 0) then set_immediate false (set_config c r) else set_config c r
     else set_config c r) = if b then set_immediate false (set_config c r) else set_config c r).
  { intros c r _. unfold b. destruct (ro_force_immediate (rg_ro g1)), (move_absolute (rg_params g1)), (ro_target_pos (rg_ro g1) =? u32 (move_value (rg_params g1))), (move_value (rg_params g1) =? 0); reflexivity. }
  rewrite !R by auto. clearbody b. clear R.
  assert (G : csim (ro_config (if b then set_immediate false (set_config c1 (rg_ro g1)) else set_config c1 (rg_ro g1)))
                   (ro_config (if b then set_immediate false (set_config c2 (rg_ro g2)) else set_config c2 (rg_ro g2))))
    by (destruct b; exact C).
  split; [|exact G].
  constructor; cbn [rg_params rg_ro rg_rw rg_acceleration]; auto; try (destruct b; cbn; congruence).
  - apply psim_refl.
Qed.
Lemma sim_adjust g1 g2 : sim g1 g2 -> csim (ro_config (rg_ro g1)) (ro_config (rg_ro g2)) ->
  let a1 := rg_adjust_prus A g1 in let a2 := rg_adjust_prus A g2 in
  sim a1 a2 /\ csim (ro_config (rg_ro a1)) (ro_config (rg_ro a2)) /\ rg_rw a2 = rg_rw a1 /\ 0 <= rw_prus (rg_rw a1)
  /\ rw_state (rg_rw a1) = rw_state (rg_rw g1).
Proof.
  intros S C. cbv zeta. unfold rg_adjust_prus. cbv zeta. rewrite (sm_curr _ _ S).
  pose proof (cs_pos _ _ C) as [HX HJ].
  set (s2 := if negb _ && (_ <? min_travel_ticks (parameters (ro_config (rg_ro g2)))) then _ else _).
  set (s1 := if negb _ && (_ <? min_travel_ticks (parameters (ro_config (rg_ro g1)))) then _ else _).
  assert (E : s2 = s1 /\ 0 <= s1).
  { subst s1 s2. rewrite (cs_par _ _ C), (csim_steps _ _ _ C), (csim_ticks _ _ _ C HJ).
    split; [reflexivity|]. pose proof (ramp_steps_pos (ro_config (rg_ro g1)) (min_travel_ticks (parameters (ro_config (rg_ro g1))))).
    destruct (_ && _); assumption. }
  destruct E as [E HS]. clearbody s1 s2. subst s2.
  set (d := rw_curr_ticks (rg_rw g1) =? TICKS_FOR_STOPPED_MOTOR).
  assert (K : let b1 := if d then mkRg (rg_params g1) (map_parameters (set_recalc false) (rg_ro g1))
      (mkRw (rw_state (rg_rw g1)) s1 (rw_pause_left (rg_rw g1)) (rw_curr_ticks (rg_rw g1))) (rg_acceleration g1) else g1 in
    let b2 := if d then mkRg (rg_params g2) (map_parameters (set_recalc false) (rg_ro g2))
      (mkRw (rw_state (rg_rw g2)) s1 (rw_pause_left (rg_rw g2)) (rw_curr_ticks (rg_rw g1))) (rg_acceleration g2) else g2 in
    sim b1 b2 /\ csim (ro_config (rg_ro b1)) (ro_config (rg_ro b2)) /\ rg_rw b2 = rg_rw b1 /\ 0 <= rw_prus (rg_rw b1)
    /\ rw_state (rg_rw b1) = rw_state (rg_rw g1)).
  { cbv zeta. destruct d eqn:D; subst d.
    - assert (CC : csim (set_parameters (set_recalc false (parameters (ro_config (rg_ro g1)))) (ro_config (rg_ro g1)))
                        (set_parameters (set_recalc false (parameters (ro_config (rg_ro g2)))) (ro_config (rg_ro g2)))).
      { apply (csim_map (set_recalc false)); auto. }
      destruct S. split; [constructor; cbn; auto|]. split; [exact CC|]. cbn. rewrite sm_state0, sm_left0. auto.
    - assert (W : rg_rw g2 = rg_rw g1 /\ 0 <= rw_prus (rg_rw g1)).
      { destruct S. destruct sm_prus0 as [H|[H1 H2]]; [rewrite H in D; discriminate|]. split; [|exact H2].
        destruct (rg_rw g1), (rg_rw g2). cbn in *. congruence. }
      destruct W. auto. }
  cbv zeta in K. revert K.
  match goal with |- sim ?x ?y /\ _ -> _ => set (b1 := x); set (b2 := y) end.
  assert (BC : rw_curr_ticks (rg_rw b1) = rw_curr_ticks (rg_rw g1)) by (subst b1; destruct d; reflexivity).
  clearbody b1 b2. intros (K1 & K2 & K3 & K4 & K5).
  rewrite (cs_par _ _ K2). destruct (recalc_ramp_steps (parameters (ro_config (rg_ro b1)))); [|auto].
  pose proof (ramp_steps_pos (ro_config (rg_ro g1)) (rw_curr_ticks (rg_rw g1))) as HR.
  rewrite (csim_steps _ _ _ C), K3.
  destruct K1. split; [constructor; cbn; auto; try congruence; try (right; split; congruence)|].
  split; [exact K2|]. cbn. auto.
Qed.
Lemma sim_target wk qe ro1 ro2 prus : csim (ro_config ro1) (ro_config ro2) -> ro_target_pos ro2 = ro_target_pos ro1 ->
  ro_force_stop ro2 = ro_force_stop ro1 -> ro_force_immediate ro2 = ro_force_immediate ro1 ->
  let r1 := rg_new_target wk qe ro1 prus in let r2 := rg_new_target wk qe ro2 prus in
  csim (ro_config r1) (ro_config r2) /\ ro_target_pos r2 = ro_target_pos r1
  /\ ro_force_stop r2 = ro_force_stop r1 /\ ro_force_immediate r2 = ro_force_immediate r1.
Proof.
  intros C T F I. cbv zeta. unfold rg_new_target. rewrite F, (cs_par _ _ C), T.
  assert (M : forall p c1 c2, csim c1 c2 -> s_h p = s_h (parameters c1) -> s_jump p = s_jump (parameters c1) ->
    csim (set_parameters p c1) (set_parameters p c2)).
  { intros p c1 c2 [P1 P2 P3 P4 P5] E1 E2. constructor; cbn; auto; [rewrite E1; exact P4|rewrite E2; exact P5]. }
  destruct (ro_force_stop ro1) eqn:FS.
  { split; [|cbn; repeat split; congruence]. cbn [map_parameters set_config set_target ro_config set_parameters parameters]. rewrite (cs_par _ _ C).
    apply (M _ (set_parameters _ _) (set_parameters _ _)); [apply M; auto|reflexivity..]. }
  destruct (any_change _).
  2:{ split; [|cbn; repeat split; congruence]. cbn [map_parameters set_config ro_config]. rewrite (cs_par _ _ C). apply M; auto. }
  destruct (keep_running _); [|destruct (move_absolute _)]; (split; [|cbn; repeat split; congruence]);
    cbn [map_parameters set_config set_target ro_config set_parameters parameters]; rewrite (cs_par _ _ C);
    (apply (M _ (set_parameters _ _) (set_parameters _ _)); [apply M; auto|reflexivity..]).
Qed.
Definition gsim (x y : rampgen * next_command) : Prop :=
  sim (fst x) (fst y) /\ nsim (snd x) (snd y) /\ csim (ro_config (rg_ro (fst x))) (ro_config (rg_ro (fst y)))
  /\ valid_acceleration (rg_params (fst x)) = true.
Lemma take_valid g : valid_acceleration (rg_params (rg_take_parameters A g)) = valid_acceleration (rg_params g).
Proof. unfold rg_take_parameters. destruct (apply _); reflexivity. Qed.
Lemma adjust_params g : rg_params (rg_adjust_prus A g) = rg_params g.
Proof. unfold rg_adjust_prus. cbv zeta. destruct (_ =? _); destruct (recalc_ramp_steps _); reflexivity. Qed.
Lemma sim_getNext qe o1 o2 g1 g2 : sim g1 g2 -> 0 <= s_h (rg_params g1) -> valid_acceleration (rg_params g1) = true ->
  isRampGeneratorActive g1 = true ->
  osim gsim (rg_getNextCommand A qe o1 g1) (rg_getNextCommand A qe o2 g2).
Proof.
  intros S Hs V Ac. unfold rg_getNextCommand.
  assert (K : keep_running (parameters (ro_config (rg_ro g2))) = keep_running (parameters (ro_config (rg_ro g1)))).
  { destruct (sm_conf _ _ S) as [C|[C _]]; [now rewrite (cs_par _ _ C)|exact (pe_keep _ _ (psim_eq _ _ C))]. }
  rewrite K. set (wk := keep_running _). clearbody wk.
  destruct (sim_take g1 g2 S Hs V Ac) as [S1 C1].
  pose proof (take_valid g1) as V1. rewrite V in V1.
  set (t1 := rg_take_parameters A g1) in *. set (t2 := rg_take_parameters A g2) in *. clearbody t1 t2. clear g1 g2 S Hs V Ac K.
  destruct (sim_adjust t1 t2 S1 C1) as (S2 & C2 & W & HP & _). rewrite <- (adjust_params t1) in V1.
  set (a1 := rg_adjust_prus A t1) in *. set (a2 := rg_adjust_prus A t2) in *. clearbody a1 a2. clear t1 t2 S1 C1.
  cbv zeta. rewrite W.
  destruct (sim_target wk qe (rg_ro a1) (rg_ro a2) (rw_prus (rg_rw a1)) C2 (sm_target _ _ S2) (sm_fs _ _ S2) (sm_fi _ _ S2))
    as (C3 & T3 & F3 & I3).
  set (r1 := rg_new_target wk qe (rg_ro a1) (rw_prus (rg_rw a1))) in *.
  set (r2 := rg_new_target wk qe (rg_ro a2) (rw_prus (rg_rw a1))) in *. clearbody r1 r2.
  rewrite I3.
  assert (S3 : sim (with_ro r1 a1) (with_ro r2 a2)).
  { destruct S2. constructor; cbn; auto. }
  destruct (ro_force_immediate r1).
  - cbn. split; [|split; [|split; [exact C3|exact V1]]].
    + destruct S2. constructor; cbn; auto.
    + right. cbn. repeat split; reflexivity.
  - cbn [with_ro rg_rw]. rewrite W.
    pose proof (getNextCommand_sim r1 r2 (rg_rw a1) (rg_rw a1) qe o1 o2 C3 T3 eq_refl HP) as N.
    destruct (getNextCommand_ A r1 (rg_rw a1) qe o1) as [n1|], (getNextCommand_ A r2 (rg_rw a1) qe o2) as [n2|]; cbn in N |- *; try contradiction; auto.
    split; [exact S3|]. split; [exact N|]. split; [exact C3|exact V1].
Qed.
Lemma sim_after n1 n2 g1 g2 : sim g1 g2 -> csim (ro_config (rg_ro g1)) (ro_config (rg_ro g2)) -> nsim n1 n2 ->
  valid_acceleration (rg_params g1) = true ->
  sim (rg_afterCommandEnqueued n1 g1) (rg_afterCommandEnqueued n2 g2).
Proof.
  intros S C N V. destruct S. unfold rg_afterCommandEnqueued.
  destruct N as [[-> H]|(N1 & N2 & N3 & N4 & N5 & N6 & N7 & N8)].
  - constructor; cbn; auto.
  - constructor; cbn; auto; congruence.
Qed.

(** ** Whole histories *)
Definition ssim (x y : rampgen * Z * option command) : Prop :=
  sim (fst (fst x)) (fst (fst y)) /\ snd (fst y) = snd (fst x) /\ snd y = snd x.
Definition sh_ok (g : rampgen) : Prop := 0 <= s_h (rg_params g).
Lemma sim_step c o1 o2 g1 g2 : sim g1 g2 -> sh_ok g1 -> ucall_ok c ->
  osim ssim (ustep c o1 g1) (ustep c o2 g2).
Proof.
  intros S Hs Hc. destruct c; cbn [ustep osim]; unfold ssim; cbn [fst snd].
  - split; [now apply sim_speed|auto].
  - destruct (sim_accel a g1 g2 S) as [H1 H2]. cbn. auto.
  - split; [now apply sim_jump_start|auto].
  - split; [now apply sim_linear|auto].
  - split; [now apply sim_apply|auto].
  - destruct (sim_run up g1 g2 S) as [H1 H2]. auto.
  - destruct (sim_moveTo pos qe g1 g2 S) as [H1 H2]. auto.
  - destruct (sim_move d g1 g2 S) as [H1 H2]. auto.
  - split; [now apply sim_advance|auto].
  - split; [now apply sim_setTarget|auto].
  - split; [now apply sim_forceStop|auto].
  - split; [now apply sim_initStop|auto].
  - split; [now apply sim_stopRamp|auto].
  - split; [now apply sim_keepRunning|auto].
  - rewrite (active_eq _ _ S), (check_eq _ _ (sm_par _ _ S)).
    destruct (isRampGeneratorActive g1) eqn:Ac; cbn [negb orb]; [|split; auto].
    destruct (Z.eqb_spec (checkValidConfig (rg_params g1)) MOVE_OK) as [E|E]; cbn [negb]; [|split; auto].
    pose proof (check_valid _ E) as V. pose proof (sim_getNext qe o1 o2 g1 g2 S Hs V Ac) as N.
    destruct (rg_getNextCommand A qe o1 g1) as [[h1 n1]|], (rg_getNextCommand A qe o2 g2) as [[h2 n2]|]; cbn in N; try contradiction; [|exact I].
    destruct N as (N1 & N2 & N3 & N4). cbn [fst snd] in *.
    pose proof (sim_after n1 n2 h1 h2 N1 N3 N2 N4) as N5.
    assert (T : c_ticks (n_cmd n2) = c_ticks (n_cmd n1)) by (destruct N2 as [[-> _]|(E1 & E2 & _)]; congruence).
    rewrite T. destruct (Z.eqb_spec (c_ticks (n_cmd n1)) 0) as [Z|Z]; [split; auto|].
    assert (M : n_cmd n2 = n_cmd n1) by (destruct N2 as [[-> _]|(E1 & _)]; [reflexivity|contradiction]).
    rewrite M. destruct accepted; split; auto.
Qed.
Lemma getNext_sh qe o g h n : rg_getNextCommand A qe o g = Some (h, n) -> s_h (rg_params h) = s_h (rg_params g).
Proof.
  unfold rg_getNextCommand.
  assert (E : s_h (rg_params (rg_adjust_prus A (rg_take_parameters A g))) = s_h (rg_params g)).
  { rewrite adjust_params. unfold rg_take_parameters. destruct (apply _); reflexivity. }
  set (a := rg_adjust_prus A (rg_take_parameters A g)) in *. clearbody a. cbv zeta.
  set (r := rg_new_target _ _ _ _). clearbody r. destruct (ro_force_immediate r).
  - intros H. injection H as <- _. exact E.
  - cbn [with_ro rg_rw]. destruct (getNextCommand_ _ _ _ _ _); [|discriminate]. intros H. injection H as <- _. exact E.
Qed.
Lemma sh_step c o g h z m : sh_ok g -> ucall_ok c -> ustep c o g = Some (h, z, m) -> sh_ok h.
Proof.
  unfold sh_ok. intros Hs Hc. destruct c; cbn [ustep]; intros E.
  - injection E as <- _ _. cbn. unfold p_setSpeedInTicks. destruct (_ || _); exact Hs.
  - injection E as E _. unfold rg_setAcceleration in E. destruct (a <=? 0); injection E as <- _; [exact Hs|].
    cbn. unfold p_setAcceleration. destruct (_ || _); exact Hs.
  - injection E as <- _ _. exact Hs.
  - injection E as <- _ _. cbn. unfold p_setCubicAccelerationSteps. destruct (_ =? _); [exact Hs|exact Hc].
  - injection E as <- _ _. unfold rg_applySpeedAcceleration. destruct (ro_force_immediate _); [exact Hs|]. cbn.
    unfold applyParameters. destruct (any_change _); exact Hs.
  - injection E as E _. unfold rg_startRun in E. destruct (negb _); injection E as <- _; exact Hs.
  - injection E as E _. unfold rg_moveTo in E. destruct (negb (_ =? MOVE_OK)); injection E as <- _; [exact Hs|].
    rewrite startMove_eq. exact Hs.
  - injection E as E _. unfold rg_move in E. destruct (negb (_ =? MOVE_OK)); injection E as <- _; [exact Hs|].
    rewrite startMove_eq. exact Hs.
  - injection E as <- _ _. exact Hs.
  - injection E as <- _ _. exact Hs.
  - injection E as <- _ _. exact Hs.
  - injection E as <- _ _. exact Hs.
  - injection E as <- _ _. exact Hs.
  - injection E as <- _ _. exact Hs.
  - destruct (_ || _); [injection E as <- _ _; exact Hs|].
    destruct (rg_getNextCommand A qe o g) as [[h1 n]|] eqn:N; [|discriminate].
    pose proof (getNext_sh _ _ _ _ _ N) as H.
    destruct (_ =? 0); [|destruct accepted]; injection E as <- _ _; cbn; rewrite H; exact Hs.
Qed.
Lemma sim_hist olds1 olds2 l : forall g1 g2, Forall ucall_ok l -> sim g1 g2 -> sh_ok g1 ->
  urun olds1 l g1 = urun olds2 l g2.
Proof.
  induction l as [|c l IH]; intros g1 g2 Hl S Hs; [reflexivity|]. cbn [urun]. inversion_clear Hl as [|? ? Hc Hl'].
  pose proof (sim_step c (olds1 (length l)) (olds2 (length l)) g1 g2 S Hs Hc) as N.
  destruct (ustep c (olds1 (length l)) g1) as [[[h1 z1] m1]|] eqn:E1, (ustep c (olds2 (length l)) g2) as [[[h2 z2] m2]|];
    cbn in N; try contradiction; [|reflexivity].
  destruct N as (N1 & N2 & N3). cbn in N1, N2, N3. subst z2 m2.
  rewrite (IH h1 h2 Hl' N1 (sh_step _ _ _ _ _ _ Hs Hc E1)), (sim_observe _ _ z1 m1 N1). reflexivity.
Qed.
Lemma uninitialised_unused olds1 olds2 a b l : Forall ucall_ok l ->
  urun olds1 l (rg_init a) = urun olds2 l (rg_init b).
Proof. intros H. apply sim_hist; [exact H|apply sim_init|]. unfold sh_ok. cbn. lia. Qed.

(** ** No motion without configuration *)
Definition sets_speed (c : ucall) : bool := match c with CSpeed _ => true | _ => false end.
Definition sets_accel (c : ucall) : bool := match c with CAccel a => 0 <? a | _ => false end.
Definition is_move (c : ucall) : bool :=
  match c with CRun _ | CMoveTo _ _ | CMove _ => true | _ => false end.
Record quiet (vs va : bool) (g : rampgen) : Prop := mkQuiet {
  qt_vs : valid_speed (rg_params g) = vs;
  qt_va : valid_acceleration (rg_params g) = va;
  qt_idle : vs && va = false -> isRampGeneratorActive g = false
}.
Lemma quiet_init a : quiet false false (rg_init a).
Proof. constructor; reflexivity. Qed.
Definition refused_code (vs va : bool) : Z :=
  if vs then (if va then MOVE_OK else MOVE_ERR_ACCELERATION_IS_UNDEFINED) else MOVE_ERR_SPEED_IS_UNDEFINED.
Lemma check_code vs va g : quiet vs va g -> checkValidConfig (rg_params g) = refused_code vs va.
Proof. intros []. unfold checkValidConfig, refused_code. rewrite qt_vs0, qt_va0. destruct vs, va; reflexivity. Qed.
Lemma quiet_step vs va c o g h z m : quiet vs va g -> vs && va = false -> ustep c o g = Some (h, z, m) ->
  quiet (vs || sets_speed c) (va || sets_accel c) h
  /\ (is_move c = true -> h = g /\ z = refused_code vs va) /\ m = None /\ isRampGeneratorActive h = false.
Proof.
  intros Q B. pose proof (check_code _ _ _ Q) as CC. destruct Q as [Q1 Q2 Q3]. specialize (Q3 B).
  assert (NZ : refused_code vs va =? MOVE_OK = false) by (destruct vs, va; [discriminate|reflexivity..]).
  destruct c; cbn [ustep sets_speed sets_accel is_move]; intros E; rewrite ?orb_false_r.
  - injection E as <- <- <-. splits; [|discriminate|reflexivity|exact Q3]. rewrite orb_true_r.
    constructor; cbn; [|unfold p_setSpeedInTicks; destruct (_ || _); exact Q2|intros _; exact Q3].
    unfold p_setSpeedInTicks. destruct (valid_speed (rg_params g)) eqn:V; cbn; [|reflexivity]. destruct (negb _); [reflexivity|exact V].
  - unfold rg_setAcceleration in E. destruct (Z.leb_spec a 0) as [H|H].
    + injection E as <- <- <-. destruct (Z.ltb_spec 0 a); [lia|]. rewrite orb_false_r. splits; [|discriminate|reflexivity|exact Q3].
      constructor; auto.
    + injection E as <- <- <-. destruct (Z.ltb_spec 0 a); [|lia]. rewrite orb_true_r. splits; [|discriminate|reflexivity|exact Q3].
      constructor; cbn; [unfold p_setAcceleration; destruct (_ || _); exact Q1| |intros _; exact Q3].
      unfold p_setAcceleration. destruct (valid_acceleration (rg_params g)) eqn:V; cbn; [|reflexivity]. destruct (negb _); [reflexivity|exact V].
  - injection E as <- <- <-. splits; [|discriminate|reflexivity|exact Q3]. constructor; auto.
  - injection E as <- <- <-. splits; [|discriminate|reflexivity|exact Q3].
    constructor; [..|intros _; exact Q3]; cbn; unfold p_setCubicAccelerationSteps; destruct (s_h (rg_params g) =? s); auto.
  - injection E as <- <- <-. unfold rg_applySpeedAcceleration. destruct (ro_force_immediate _).
    { splits; [|discriminate|reflexivity|exact Q3]. constructor; auto. }
    splits; [|discriminate|reflexivity|exact Q3]. constructor; [..|intros _; exact Q3]; cbn; unfold applyParameters; destruct (any_change (rg_params g)); auto.
  - unfold rg_startRun in E. rewrite CC, NZ in E. injection E as <- <- <-. splits; auto. constructor; auto.
  - unfold rg_moveTo in E. rewrite CC, NZ in E. injection E as <- <- <-. splits; auto. constructor; auto.
  - unfold rg_move in E. rewrite CC, NZ in E. injection E as <- <- <-. splits; auto. constructor; auto.
  - injection E as <- <- <-. splits; [|discriminate|reflexivity|exact Q3]. constructor; auto.
  - injection E as <- <- <-. splits; [|discriminate|reflexivity|exact Q3]. constructor; auto.
  - injection E as <- <- <-. splits; [|discriminate|reflexivity|exact Q3]. constructor; auto.
  - injection E as <- <- <-. splits; [|discriminate|reflexivity|exact Q3]. constructor; auto.
  - injection E as <- <- <-. splits; [|discriminate|reflexivity|reflexivity]. constructor; auto.
  - injection E as <- <- <-. splits; [|discriminate|reflexivity|exact Q3]. constructor; auto.
  - rewrite Q3 in E. cbn in E. injection E as <- <- <-. splits; [|discriminate|reflexivity|exact Q3]. constructor; auto.
Qed.
Definition inert (o : uobs) : Prop := o_active o = false /\ o_cmd o = None /\ o_acceleration o = 0.
Lemma inert_hist olds l : forall g vs va, quiet vs va g ->
  (vs || existsb sets_speed l) && (va || existsb sets_accel l) = false ->
  exists r, urun olds l g = Some r /\ Forall inert r
    /\ Forall2 (fun c o => is_move c = true ->
         o_code o = MOVE_ERR_SPEED_IS_UNDEFINED \/ o_code o = MOVE_ERR_ACCELERATION_IS_UNDEFINED) l r.
Proof.
  induction l as [|c l IH]; intros g vs va Q B; [exists []; repeat constructor|]. cbn [urun existsb] in *.
  assert (BB : vs && va = false).
  { destruct vs, va; try reflexivity. cbn in B. discriminate. }
  destruct (ustep c (olds (length l)) g) as [[[h z] m]|] eqn:E.
  2:{ exfalso. revert E. clear - Q BB. destruct c; cbn; try discriminate. rewrite (qt_idle _ _ _ Q BB). discriminate. }
  destruct (quiet_step vs va c _ g h z m Q BB E) as (Q' & M & -> & Ac).
  destruct (IH h (vs || sets_speed c) (va || sets_accel c) Q') as (r & R1 & R2 & R3).
  { rewrite <- !orb_assoc. exact B. }
  rewrite R1. eexists. split; [reflexivity|]. split; constructor; auto.
  - split; [exact Ac|]. split; [reflexivity|]. cbn. unfold rg_getCurrentAcceleration.
    unfold isRampGeneratorActive in Ac. apply negb_false_iff, Z.eqb_eq in Ac. now rewrite Ac.
  - intros Hm. destruct (M Hm) as [_ ->]. cbn. destruct vs, va; try discriminate; auto.
Qed.
End WithArch.

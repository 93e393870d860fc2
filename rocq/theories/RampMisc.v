(** * RampMisc: direction changes, pauses, combined moves, forceStop() *)
From Coq Require Import ZArith Bool List Lia ZifyBool Zwf Reals Lra.
From Verif Require Import Base Pmf PmfFacts PmfReal RampCalc RampCalcFacts RampLinear RampGen RampStep RampRun RampMove
  RampSafe RampAcc RampUser RampStop RampKeep.
Import ListNotations.
Open Scope Z_scope.
Ltac Zify.zify_post_hook ::= idtac.

(** equations modulo 2^32 *)
Lemma u32_ex x : exists k, u32 x = x + k * 4294967296.
Proof. exists (- (x / 4294967296)). unfold u32. pose proof (Z_div_mod_eq_full x 4294967296). lia. Qed.
Lemma i32_ex x : exists k, i32 x = x + k * 4294967296.
Proof.
  destruct (u32_ex x) as (k & E). unfold i32. fold (u32 x).
  destruct (u32_ex (x + 2147483648)) as (k' & E'). unfold u32 in E'.
  exists k'. lia.
Qed.
Lemma i32_cong x y k : x = y + k * 4294967296 -> i32 x = i32 y.
Proof. intros ->. apply i32_eq_iff. unfold u32. apply Z_mod_plus_full. Qed.
Lemma mod32_eq x y : (exists k, x = y + k * 4294967296) -> i32 x = i32 y.
Proof. intros (k & H). exact (i32_cong x y k H). Qed.
Ltac mod32 :=
  apply i32_eq_iff;
  match goal with |- u32 ?x = u32 ?y =>
    let a := fresh "lhs" in let b := fresh "rhs" in
    let EL := fresh "EL" in let ER := fresh "ER" in
    remember x as a eqn:EL; remember y as b eqn:ER;
    clear - EL ER;
    repeat match type of EL with
    | context [u32 ?x] => let k := fresh "k" in let E := fresh in destruct (u32_ex x) as (k & E); rewrite E in EL; clear E
    | context [i32 ?x] => let k := fresh "k" in let E := fresh in destruct (i32_ex x) as (k & E); rewrite E in EL; clear E
    end;
    repeat match type of ER with
    | context [u32 ?x] => let k := fresh "k" in let E := fresh in destruct (u32_ex x) as (k & E); rewrite E in ER; clear E
    | context [i32 ?x] => let k := fresh "k" in let E := fresh in destruct (i32_ex x) as (k & E); rewrite E in ER; clear E
    end;
    unfold u32; Z.div_mod_to_equations; lia
  end.

Section WithArch.
Variable A : arch.
Hypothesis HA : In A all_archs.

(** ** direction changes *)
Lemma dir_change ro rw qe old n : 0 <= rw_pause_left rw ->
  getNextCommand_ A ro rw qe old = Some n -> c_ticks (n_cmd n) <> 0 ->
  c_up (n_cmd n) <> qe_up qe -> rw_prus rw = 0 /\ rw_pause_left rw = 0.
Proof.
  intros Hp. unfold getNextCommand_, gnc_pause. destruct (Z.gtb_spec (rw_pause_left rw) 0).
  { intros E. injection E as <-. cbn. congruence. }
  destruct (gnc_delta ro qe) as [[need R]|]; [|discriminate].
  destruct (_ && _); [intros E; injection E as <-; cbn; congruence|].
  destruct (gnc_planning A _) as [orig|]; [|discriminate].
  destruct (gnc_choose _ _ _ _ _ _ _) as [[s R'] pl].
  destruct (R' =? 0); [intros E; injection E as <-; cbn; congruence|].
  destruct (gnc_new_ticks _ _ _ _ _ _ _) as [d pl'].
  destruct (gnc_min_cmd _ _ _ _ _) as [[[s' d'] pl'']|]; [|discriminate].
  destruct (gnc_split _ _ _) as [[st t] pa]. destruct (gnc_prus _ _ _ _ _) as [P' t'].
  intros E. injection E as <-. cbn [n_cmd c_up c_ticks]. intros _.
  destruct (Z.eqb_spec (rw_prus rw) 0); [|congruence]. intros _. split; [assumption|lia].
Qed.

(** While the target lies behind, the motor decelerates for exactly as many steps
    as the ramp step counter says. *)
Record reversing (ro : ramp_ro) (rw : ramp_rw) (qe : queue_end) (B : Z) : Prop := mkRev {
  rv_sinv : sinv ro rw qe B;
  rv_C : rw_curr_ticks rw <= 2147483648;
  rv_behind : along (qe_up qe) (i32 (ro_target_pos ro - qe_pos qe)) < 0
}.

Definition rev_spec (rw : ramp_rw) (qe : queue_end) (cs : list command) (g' : rampgen) (qe' : queue_end) : Prop :=
  total_steps cs = rw_prus rw /\ Forall (moves_only (qe_up qe)) cs /\
  rw_prus (rg_rw g') = 0 /\ rw_pause_left (rg_rw g') = 0 /\
  pauses cs = rw_pause_left rw /\ speed_ok (rw_curr_ticks rw) cs /\ isRampGeneratorActive g' = true.

Lemma rev_run B : forall k g qe olds,
  rw_prus (rg_rw g) * 4294967296 + rw_pause_left (rg_rw g) <= k ->
  norm g -> reversing (rg_ro g) (rg_rw g) qe B -> cfg_ok A (ro_config (rg_ro g)) B ->
  exists n cs g' qe', ramp_run A false olds n g qe = Some (cs, g', qe') /\ rev_spec (rg_rw g) qe cs g' qe'.
Proof.
  intros k. induction k as [k IH] using (well_founded_induction (Zwf_well_founded (-1))).
  intros g qe olds Hk Hn [Hi HC Hb] Hc.
  assert (HC' : rw_curr_ticks (rg_rw g) <> TICKS_FOR_STOPPED_MOTOR).
  { unfold TICKS_FOR_STOPPED_MOTOR. clear - HC. lia. }
  pose proof Hi as [Hkp HP HB Hp HC1 Hst Hact].
  pose proof (prepare_norm A qe g Hn HC') as E.
  set (ro := rg_ro g) in *. set (rw := rg_rw g) in *.
  assert (Estep : forall n, getNextCommand_ A ro rw qe (olds O) = Some n -> c_ticks (n_cmd n) <> 0 ->
    ramp_step A false (olds O) g qe = Some ([n_cmd n], with_rw (n_rw n) g, enqueue (n_cmd n) qe)).
  { intros n En Nt. unfold ramp_step. rewrite getNext_prepare by (rewrite E; apply Hn). rewrite E.
    fold ro rw. rewrite En. destruct (Z.eqb_spec (c_ticks (n_cmd n)) 0); [contradiction|]. reflexivity. }
  assert (Hcons : forall n, getNextCommand_ A ro rw qe (olds O) = Some n -> c_ticks (n_cmd n) <> 0 ->
    reversing ro (n_rw n) (enqueue (n_cmd n) qe) B -> c_up (n_cmd n) = qe_up qe ->
    rw_prus (n_rw n) * 4294967296 + rw_pause_left (n_rw n) < rw_prus rw * 4294967296 + rw_pause_left rw ->
    c_steps (n_cmd n) + rw_prus (n_rw n) = rw_prus rw ->
    rw_curr_ticks rw <= rw_curr_ticks (n_rw n) ->
    (if c_steps (n_cmd n) =? 0 then c_ticks (n_cmd n) + rw_pause_left (n_rw n) else 0) = rw_pause_left rw ->
    (c_steps (n_cmd n) <> 0 -> rw_curr_ticks rw <= c_ticks (n_cmd n) + rw_pause_left (n_rw n)) ->
    (2 <= c_steps (n_cmd n) -> rw_curr_ticks rw <= c_ticks (n_cmd n)) ->
    exists n cs g' qe', ramp_run A false olds n g qe = Some (cs, g', qe') /\ rev_spec rw qe cs g' qe').
  { intros n En Nt Hr Hu Hm H1 H2 H3 H4 H5.
    destruct (IH (rw_prus (n_rw n) * 4294967296 + rw_pause_left (n_rw n))) with
       (g := with_rw (n_rw n) g) (qe := enqueue (n_cmd n) qe) (olds := fun k => olds (S k))
       as (m & cs & g' & qe' & Er & R1 & R2 & R3 & R4 & R5 & R6 & R7); try assumption; try apply Z.le_refl.
    { unfold Zwf. pose proof Hr as [[] _ _]. clear - Hm Hk HP Hp si_P si_pause. lia. }
    exists (S m), (n_cmd n :: cs), g', qe'. cbn [ramp_run]. rewrite (active_not_idle g Hact).
    rewrite (Estep n En Nt), Er. split; [reflexivity|].
    cbn [with_rw rg_rw] in *. unfold rev_spec. cbn [total_steps pauses speed_ok].
    split; [clear - R1 H1; lia|].
    split; [constructor; [intros _; exact Hu|]|].
    { change (qe_up (enqueue (n_cmd n) qe)) with (c_up (n_cmd n)) in R2. rewrite Hu in R2. exact R2. }
    split; [exact R3|]. split; [exact R4|]. rewrite R5. split; [exact H3|]. split; [|exact R7].
    split; [exact H4|]. split; [exact H5|]. eapply speed_ok_le; [exact H2|exact R6]. }
  destruct Hc as (HM & HX & Hcp & Hcl).
  destruct (Z.eq_dec (rw_pause_left rw) 0) as [Ep|Np].
  - destruct (Z.eq_dec (rw_prus rw) 0) as [EP|NP].
    { exists O, [], g, qe. split; [reflexivity|]. unfold rev_spec. fold rw. rewrite EP, Ep. cbn.
      repeat split; auto. apply active_not_idle. exact Hact. }
    pose proof (gnc_cases A ro rw qe (olds O) B Hi Ep) as GC. cbv zeta in GC.
    set (P := rw_prus rw) in *. set (d := i32 (ro_target_pos ro - qe_pos qe)) in *.
    destruct GC as [(Ed & EP & GC)|(up1 & Hnt & HP0 & Hup & _ & GC)].
    { exfalso. clear - Ed Hb. unfold along in Hb. destruct (qe_up qe); lia. }
    rewrite (Hup NP) in *. clear up1 HP0 Hup. set (up := qe_up qe) in *.
    fold (along up d) in GC, Hnt. set (rho := along up d) in *.
    assert (0 <? rho = false) as Esame by (clear - Hb; lia). rewrite Esame in GC.
    destruct (core_back A HA (ro_config ro) (rw_curr_ticks rw) P (Z.abs d) false) as
           (o & Eo & _ & S1 & S2 & S3 & S4 & S5 & S6 & S7 & S8 & S9);
      try assumption; try (clear - HM HC HC1 HP NP HB; lia); [intros z Hz; apply Hcp; clear - Hz HB; lia|].
    specialize (S7 HC'). specialize (S9 Hcl ltac:(clear - HM; lia) ltac:(right; exact HC)).
    rewrite Eo in GC.
    assert (u16 (o_ticks o) = o_ticks o) as T1 by (apply u16_id; clear - S4; lia).
    assert (u8 (o_steps o) = o_steps o) as T2 by (apply u8_id; clear - S1; lia).
    assert (u32 (o_pause o + o_ticks o) = o_pause o + o_ticks o) as T3 by (apply u32_id; clear - S4 S5 S6; lia).
    rewrite T1, T2, T3 in GC.
    eapply Hcons; [exact GC|..]; cbn [n_cmd n_rw c_ticks c_steps c_up rw_prus rw_pause_left rw_curr_ticks].
    + clear - S4; lia.
    + assert (Hd' : i32 (ro_target_pos ro - qe_pos (enqueue (mkCommand (o_ticks o) (o_steps o) up) qe))
       = moved up d (o_steps o)).
      { apply enqueue_delta; cbn [c_steps]; fold d; clear - S1 HB HP; lia. }
      split.
      * split; cbn [rw_prus rw_pause_left rw_curr_ticks rw_state]; try assumption;
          try (clear - S1 S2 S3 S4 S5 S6 S9 HP; lia).
        -- rewrite Hd', S3. clear - HB HP Hb S1 S2. unfold moved, rho, along in *. destruct up; lia.
        -- clear. destruct (o_s o), up; vm_compute; discriminate.
      * cbn [rw_curr_ticks]. clear - S9. lia.
      * rewrite Hd'. change (qe_up (enqueue (mkCommand (o_ticks o) (o_steps o) up) qe)) with up.
        clear - Hb S1. unfold moved, rho, along in *. destruct up; lia.
    + reflexivity.
    + rewrite Ep. fold P. clear - S1 S3 S4 S5 S6. nia.
    + fold P. clear - S3. lia.
    + clear - S7. lia.
    + rewrite Ep. destruct (Z.eqb_spec (o_steps o) 0); [clear - e S1; lia|reflexivity].
    + intros _. clear - S7. lia.
    + intros K. destruct (Z.eq_dec (o_pause o) 0) as [Q|Q]; [clear - Q S7; lia|].
      destruct (S8 Q) as (Q1 & _). clear - Q1 K. lia.
  - destruct (pause_spec rw qe ltac:(lia)) as (p & Epp & K1 & K2 & K3 & K4).
    assert (GC : getNextCommand_ A ro rw qe (olds O) = Some (mkNext (mkCommand p 0 (qe_up qe))
      (mkRw (rw_state rw) (rw_prus rw) (rw_pause_left rw - p) (rw_curr_ticks rw)))).
    { unfold getNextCommand_. rewrite Epp. reflexivity. }
    eapply Hcons; [exact GC|..]; cbn [n_cmd n_rw c_ticks c_steps c_up rw_prus rw_pause_left rw_curr_ticks];
      try (clear - K1 K2; cbn [Z.eqb]; lia).
    + assert (Hd' : i32 (ro_target_pos ro - qe_pos (enqueue (mkCommand p 0 (qe_up qe)) qe))
         = i32 (ro_target_pos ro - qe_pos qe)).
      { rewrite enqueue_delta; cbn [c_steps c_up]; unfold moved; [destruct (qe_up qe)|..]; lia. }
      split.
      * split; cbn [rw_prus rw_pause_left rw_curr_ticks rw_state]; rewrite ?Hd'; try assumption.
        -- clear - K1 K2 Hp. lia.
        -- right. exact HC.
      * exact HC.
      * rewrite Hd'. exact Hb.
    + reflexivity.
Qed.

(** ** pauses *)
(** repeated calls until the pause has been issued completely *)
Fixpoint pause_run (n : nat) (ro : ramp_ro) (rw : ramp_rw) (qe : queue_end) (old : next_command)
  : option (list command * ramp_rw) :=
  match n with
  | O => Some ([], rw)
  | S n =>
    if rw_pause_left rw =? 0 then Some ([], rw)
    else match getNextCommand_ A ro rw qe old with
         | None => None
         | Some r =>
           match pause_run n ro (n_rw r) (enqueue (n_cmd r) qe) r with
           | None => None
           | Some (cs, rw') => Some (n_cmd r :: cs, rw')
           end
         end
  end.

Lemma pause_run_spec : forall k ro rw qe old, 0 <= rw_pause_left rw <= k -> k < 4294967296 ->
  exists n cs, pause_run n ro rw qe old =
      Some (cs, mkRw (rw_state rw) (rw_prus rw) 0 (rw_curr_ticks rw)) /\
    pauses cs = rw_pause_left rw /\
    Forall (fun c => c_steps c = 0 /\ c_up c = qe_up qe /\ Z.min 32768 (rw_pause_left rw) <= c_ticks c <= 65535) cs.
Proof.
  intros k. induction k as [k IH] using (well_founded_induction (Zwf_well_founded (-1))).
  intros ro rw qe old H Hk.
  destruct (Z.eq_dec (rw_pause_left rw) 0) as [E|N].
  - exists O, []. cbn. rewrite E. repeat split; auto. destruct rw; cbn in *; subst; reflexivity.
  - destruct (pause_spec rw qe ltac:(lia)) as (p & Ep & K1 & K2 & K3 & K4).
    destruct (IH (rw_pause_left rw - p) ltac:(unfold Zwf; lia) ro
      (mkRw (rw_state rw) (rw_prus rw) (rw_pause_left rw - p) (rw_curr_ticks rw))
      (enqueue (mkCommand p 0 (qe_up qe)) qe)
      (mkNext (mkCommand p 0 (qe_up qe)) (mkRw (rw_state rw) (rw_prus rw) (rw_pause_left rw - p) (rw_curr_ticks rw))))
      as (n & cs & Er & R1 & R2); [cbn; lia|lia|].
    exists (S n), (mkCommand p 0 (qe_up qe) :: cs). cbn [pause_run].
    destruct (Z.eqb_spec (rw_pause_left rw) 0); [contradiction|].
    unfold getNextCommand_. rewrite Ep. cbn [n_cmd n_rw]. cbn [rw_state rw_prus rw_curr_ticks rw_pause_left] in *.
    rewrite Er. split; [reflexivity|]. cbn [pauses c_steps c_ticks Z.eqb]. rewrite R1. split; [lia|].
    constructor; [cbn; repeat split; lia|].
    change (qe_up (enqueue (mkCommand p 0 (qe_up qe)) qe)) with (qe_up qe) in R2.
    destruct (Z.le_gt_cases (rw_pause_left rw) 65535) as [L|L].
    + specialize (K3 L). replace cs with (@nil command); [constructor|].
      rewrite K3, Z.sub_diag in R1, Er.
      destruct n; cbn in Er; congruence.
    + eapply Forall_impl; [|exact R2]. intros c; cbn [rw_pause_left]. intros (I1 & I2 & I3). split; [exact I1|]. split; [exact I2|]. clear - K4 L I3. lia.
Qed.

(** ** periods longer than one command *)
Lemma long_period next R pl : 1 <= next < 4294967296 -> 1 <= R -> 0 <= pl <= 65535 ->
  exists steps t pause, gnc_split next R pl = (steps, t, pause) /\ 1 <= steps <= 255 /\
    1 <= t <= 65535 /\ t + pause = next /\ 0 <= pause /\
    (65535 < next -> steps = 1 /\ 32767 <= t /\ 32767 <= pause).
Proof.
  intros H1 H2 H3. destruct (split_spec next R pl H1 H2 H3) as (steps & t & pause & E & B1 & B2 & B3 & B4 & B5 & B6).
  exists steps, t, pause. repeat split; try tauto; try lia.
Qed.

(** ** the target is stable while the task runs *)
Definition no_request (g : rampgen) : Prop :=
  apply (rg_params g) = false /\ any_change (rg_params g) = false /\ move_value (rg_params g) = 0 /\
  any_change (parameters (ro_config (rg_ro g))) = false /\
  keep_running (parameters (ro_config (rg_ro g))) = false /\
  ro_force_stop (rg_ro g) = false /\ ro_force_immediate (rg_ro g) = false.

Lemma prepare_no_request qe g : no_request g ->
  no_request (rg_prepare A qe g) /\ ro_target_pos (rg_ro (rg_prepare A qe g)) = ro_target_pos (rg_ro g).
Proof.
  intros (H1 & H2 & H3 & H4 & H5 & H6 & H7). unfold rg_prepare, rg_take_parameters. rewrite H1.
  unfold rg_adjust_prus.
  destruct g as [p [[[mv mt sh sj pa ap ac rc va vs ma kr kc] X th cu] t fs fi] [st P pl C] ac'].
  cbn in H4, H5, H6, H7. subst. cbn -[calculate_ramp_steps calculate_ticks].
  destruct (C =? TICKS_FOR_STOPPED_MOTOR); cbn -[calculate_ramp_steps calculate_ticks];
    [|destruct rc; cbn -[calculate_ramp_steps calculate_ticks]]; unfold no_request; cbn; auto 10.
Qed.

Lemma step_no_request strict old g qe cs g' qe' : no_request g ->
  ramp_step A strict old g qe = Some (cs, g', qe') ->
  no_request g' /\ ro_target_pos (rg_ro g') = ro_target_pos (rg_ro g).
Proof.
  intros H. destruct (prepare_no_request qe g H) as (K1 & K2).
  unfold ramp_step. rewrite getNext_prepare by (apply K1).
  destruct (getNextCommand_ _ _ _ _ _) as [n|]; [|discriminate].
  destruct (_ =? 0); [intros E; injection E as <- <- <-; split; assumption|].
  destruct (_ && _); intros E; injection E as <- <- <-; split; assumption.
Qed.

Lemma run_no_request strict : forall n olds g qe cs g' qe', no_request g ->
  ramp_run A strict olds n g qe = Some (cs, g', qe') ->
  no_request g' /\ ro_target_pos (rg_ro g') = ro_target_pos (rg_ro g).
Proof.
  induction n as [|n IH]; intros olds g qe cs g' qe' H; cbn [ramp_run].
  - intros E. injection E as <- <- <-. auto.
  - destruct (isRampGeneratorActive g); [|intros E; injection E as <- <- <-; auto].
    destruct (ramp_step A strict (olds O) g qe) as [[[cs1 g1] qe1]|] eqn:Es; [|discriminate].
    destruct (step_no_request _ _ _ _ _ _ _ H Es) as (K1 & K2).
    destruct (ramp_run _ _ _ n g1 qe1) as [[[cs2 g2] qe2]|] eqn:Er; [|discriminate].
    intros E. injection E as <- <- <-.
    destruct (IH _ _ _ _ _ _ K1 Er) as (K3 & K4). split; [exact K3|congruence].
Qed.

(** a pending move is taken over by the first command *)
Lemma take_request qe g :
  apply (rg_params g) = true -> any_change (rg_params g) = true -> keep_running (rg_params g) = false ->
  ro_force_stop (rg_ro g) = false -> ro_force_immediate (rg_ro g) = false ->
  no_request (rg_prepare A qe g) /\
  ro_target_pos (rg_ro (rg_prepare A qe g)) =
    target_of (rg_params g) (rg_isRunningContinuously g) (ro_target_pos (rg_ro g)) (qe_pos qe).
Proof.
  intros H1 H2 H3 H4 H5. unfold rg_prepare, rg_take_parameters, rg_isRunningContinuously. rewrite H1.
  cbn [ro_force_immediate set_config]. rewrite H5.
  set (c0 := update A (set_parameters (rg_params g) (ro_config (rg_ro g)))).
  assert (Ep : parameters c0 = rg_params g) by (unfold c0; rewrite update_parameters; reflexivity).
  clearbody c0. destruct c0 as [p0 X th cu]. cbn [parameters] in Ep. subst p0.
  destruct g as [[mv mt sh sj pa ap ac rc va vs ma kr kc] [c t fs fi] [st P pl C] ac'].
  cbn in H1, H2, H3, H4, H5. subst. unfold rg_adjust_prus, target_of, no_request.
  cbn -[calculate_ramp_steps calculate_ticks].
  destruct (C =? TICKS_FOR_STOPPED_MOTOR); cbn -[calculate_ramp_steps calculate_ticks];
    [destruct ma; cbn; auto 10|].
  destruct rc; cbn -[calculate_ramp_steps calculate_ticks]; destruct ma; cbn; auto 10.
Qed.

Lemma run_request strict n olds g qe cs g' qe' : 
  apply (rg_params g) = true -> any_change (rg_params g) = true -> keep_running (rg_params g) = false ->
  ro_force_stop (rg_ro g) = false -> ro_force_immediate (rg_ro g) = false ->
  isRampGeneratorActive g = true ->
  ramp_run A strict olds (S n) g qe = Some (cs, g', qe') ->
  no_request g' /\
  ro_target_pos (rg_ro g') =
    target_of (rg_params g) (rg_isRunningContinuously g) (ro_target_pos (rg_ro g)) (qe_pos qe).
Proof.
  intros H1 H2 H3 H4 H5 Hact. cbn [ramp_run]. rewrite Hact.
  destruct (take_request qe g H1 H2 H3 H4 H5) as (K1 & K2).
  destruct (ramp_step A strict (olds O) g qe) as [[[cs1 g1] qe1]|] eqn:Es; [|discriminate].
  assert (K3 : no_request g1 /\ ro_target_pos (rg_ro g1) = ro_target_pos (rg_ro (rg_prepare A qe g))).
  { unfold ramp_step in Es. rewrite getNext_prepare in Es by (apply K1).
    destruct (getNextCommand_ _ _ _ _ _) as [r|]; [|discriminate].
    destruct (_ =? 0); [injection Es as <- <- <-; split; [exact K1|reflexivity]|].
    destruct (_ && _); injection Es as <- <- <-; split; try exact K1; reflexivity. }
  destruct K3 as (K3 & K4).
  destruct (ramp_run _ _ _ n g1 qe1) as [[[cs2 g2] qe2]|] eqn:Er; [|discriminate].
  intros E. injection E as <- <- <-.
  destruct (run_no_request _ _ _ _ _ _ _ _ K3 Er) as (K5 & K6). split; [exact K5|congruence].
Qed.

(** move(a); [task]; move(b) *)
Lemma move_move strict n olds g qe cs g1 g2 qe' a b : 
  checkValidConfig (rg_params g) = MOVE_OK -> ro_force_immediate (rg_ro g) = false ->
  rg_move a g = (g1, MOVE_OK) -> isRampGeneratorActive g1 = true ->
  ramp_run A strict olds (S n) g1 qe = Some (cs, g2, qe') ->
  i32 (base_target g2 qe' + pending_move g2 + b) = i32 (base_target g qe + pending_move g + a + b) /\
  i32 (base_target g1 qe + pending_move g1 + b) = i32 (base_target g qe + pending_move g + a + b).
Proof.
  intros V Hi Hm Hact Hr. unfold rg_move in Hm. rewrite V in Hm. cbn [negb Z.eqb MOVE_OK] in Hm.
  injection Hm as <-.
  set (p := p_setTargetRelativePosition a (rg_params g)) in *.
  assert (F : apply p = true /\ any_change p = true /\ keep_running p = false /\ move_absolute p = false
     /\ move_value p = if any_change (rg_params g) && negb (move_absolute (rg_params g))
           then i32 (move_value (rg_params g) + a) else a) by (unfold p; repeat split).
  destruct F as (F1 & F2 & F3 & F4 & F5).
  assert (E : rg_params (rg_startMove (negb (a =? 0)) (with_params p g)) = p /\
              rg_ro (rg_startMove (negb (a =? 0)) (with_params p g)) = set_force_stop false (rg_ro g)).
  { rewrite started_params, started_ro. auto. }
  destruct E as (E1 & E2). set (g1 := rg_startMove (negb (a =? 0)) (with_params p g)) in *.
  split.
  - destruct (run_request strict n olds g1 qe cs g2 qe') as ((K1 & K2 & K3 & K4 & K5 & K6 & K7) & K8);
      rewrite ?E1, ?E2; try assumption; try reflexivity.
    unfold base_target, pending_move, rg_isRunningContinuously at 1. rewrite K5, K2. cbn [andb].
    unfold rg_targetPosition. rewrite K8, E1, E2. unfold target_of. rewrite F4, F5.
    unfold rg_isRunningContinuously. rewrite E2. cbn [set_force_stop ro_config ro_target_pos].
    destruct (keep_running (parameters (ro_config (rg_ro g)))), (any_change (rg_params g) && _); mod32.
  - unfold base_target, pending_move, rg_isRunningContinuously, rg_targetPosition.
    rewrite E1, E2, F2, F4, F5. cbn [andb negb set_force_stop ro_config ro_target_pos].
    destruct (keep_running (parameters (ro_config (rg_ro g)))), (any_change (rg_params g) && _); mod32.
Qed.

(** moveTo(a); moveTo(b) *)
Lemma moveTo_moveTo a b qe g g1 r1 g2 r2 :
  rg_moveTo a qe g = (g1, r1) -> rg_moveTo b qe g1 = (g2, r2) -> r1 = MOVE_OK ->
  exists g2', rg_moveTo b qe g = (g2', r2) /\ r2 = MOVE_OK /\
    rg_params g2 = rg_params g2' /\ rg_ro g2 = rg_ro g2' /\
    (isRampGeneratorActive g = true -> g2 = g2').
Proof.
  unfold rg_moveTo. destruct (negb (checkValidConfig (rg_params g) =? MOVE_OK)) eqn:V.
  { intros E1 _ ->. injection E1 as _ E. rewrite E in V. discriminate. }
  intros E1. injection E1 as <- <-.
  set (ch := negb ((if isRampGeneratorActive g && _ then _ else _) =? a)).
  assert (E : rg_params (rg_startMove ch (with_params (p_setTargetPosition a (rg_params g)) g)) =
              p_setTargetPosition a (rg_params g) /\
              rg_ro (rg_startMove ch (with_params (p_setTargetPosition a (rg_params g)) g)) =
              set_force_stop false (rg_ro g)).
  { rewrite started_params, started_ro. auto. }
  destruct E as (E1 & E2). rewrite E1, E2.
  assert (V' : negb (checkValidConfig (p_setTargetPosition a (rg_params g)) =? MOVE_OK) = false).
  { rewrite <- V. reflexivity. }
  rewrite V'. intros E3 _. injection E3 as <- <-.
  eexists. split; [reflexivity|]. split; [reflexivity|].
  rewrite !started_params, !started_ro. cbn [with_params rg_params rg_ro].
  rewrite E2. split; [reflexivity|]. split; [reflexivity|].
  intros Hact. 
  match goal with |- rg_startMove ?x _ = rg_startMove ?y _ => set (ch2 := x); set (ch3 := y) end.
  assert (Hns : rw_state (rg_rw g) =? RAMP_STATE_IDLE = false).
  { unfold isRampGeneratorActive in Hact. apply negb_true_iff in Hact. exact Hact. }
  assert (S : startRampIfNotRunning (rg_rw g) = rg_rw g) by (unfold startRampIfNotRunning; rewrite Hns; reflexivity).
  clearbody ch ch2 ch3.
  destruct g as [p ro rw ac]. cbn [rg_rw] in *. unfold rg_startMove, with_rw, with_ro, with_params. 
  destruct ch, ch2, ch3; cbn; rewrite ?S; cbn; rewrite ?S; reflexivity.
Qed.

(** ** forceStop() *)
Lemma forceStop_step strict old g qe : apply (rg_params g) = false ->
  exists g1, ramp_step A strict old (rg_forceStop g) qe = Some ([], g1, qe) /\
    isRampGeneratorActive g1 = false /\ rg_targetPosition g1 = i32 (qe_pos qe) /\
    ro_force_immediate (rg_ro g1) = false /\ rg_params g1 = rg_params g /\ rg_rw g1 = stopped_rw.
Proof.
  intros H. unfold ramp_step, rg_getNextCommand.
  assert (E : rg_take_parameters A (rg_forceStop g) = rg_forceStop g).
  { unfold rg_take_parameters. cbn [rg_forceStop with_ro rg_params]. rewrite H. reflexivity. }
  rewrite E. set (wk := keep_running _). clearbody wk.
  assert (F : ro_force_immediate (rg_ro (rg_adjust_prus A (rg_forceStop g))) = true /\
              rg_params (rg_adjust_prus A (rg_forceStop g)) = rg_params g).
  { unfold rg_adjust_prus. cbv zeta. destruct (_ =? _); cbn [rg_ro map_parameters set_config];
    match goal with |- context [recalc_ramp_steps ?x] => destruct (recalc_ramp_steps x) end; cbn; auto. }
  set (g2 := rg_adjust_prus A (rg_forceStop g)) in *. clearbody g2. destruct F as (F & F').
  assert (G : ro_force_immediate (rg_new_target wk qe (rg_ro g2) (rw_prus (rg_rw g2))) = true).
  { unfold rg_new_target. destruct (ro_force_stop _); [exact F|]. destruct (any_change _); [|exact F].
    destruct (keep_running _); [exact F|]. destruct (move_absolute _); exact F. }
  rewrite G. cbn [n_cmd c_ticks Z.eqb]. eexists. split; [reflexivity|].
  unfold rg_afterCommandEnqueued. cbn [n_rw with_rw with_ro]. repeat split; auto.
  unfold rg_targetPosition. cbn. apply i32_u32.
Qed.

(** ** acceleration ramps shorter than 2^28 steps *)
Lemma calc_small c a s M :
  0 <= s_h (parameters c) < 4294967294 -> s_h (parameters c) <= s ->
  pmfl_accel (parameters c) = pmfl_from_u32 a ->
  1 <= a < 2147483648 -> 1 <= s < 4294967296 -> 17 <= M ->
  254000000000000 <= a * (s - quarter (s_h (parameters c))) * (M * M) ->
  calculate_ticks A c s <= M.
Proof.
  intros Hs HL Ha HaR HsR HM H.
  pose proof (above_period_accurate A c a s HA Hs Ha HaR HL HsR) as K. cbv zeta in K.
  destruct (quarter_spec _ Hs) as (_ & HQ & _ & HQ').
  assert (HsR' : 1 <= s - quarter (s_h (parameters c))) by lia. clear HQ HQ'.
  set (k := calculate_ticks A c s) in *. clearbody k. clear HsR HL.
  set (s' := s - quarter (s_h (parameters c))) in *. clearbody s'. clear Hs s. rename s' into s.
  assert (T : (0 < IZR (TICKS_PER_S A) <= 21000000)%R).
  { split; [apply IZR_lt|apply IZR_le]; clear - HA; revert A HA; apply arch_cases; cbn; lia. }
  set (z := (2 * IZR a * IZR s)%R) in *.
  assert (Hm : (17 <= IZR M)%R) by (apply IZR_le; assumption).
  assert (Hz : (508000000000000 <= z * (IZR M * IZR M))%R).
  { unfold z. replace (2 * IZR a * IZR s * (IZR M * IZR M))%R with (IZR (2 * (a * s * (M * M)))) by (rewrite !mult_IZR; ring).
    apply IZR_le. lia. }
  assert (Hz0 : (0 < z)%R).
  { unfold z. assert (1 <= IZR a)%R by (apply IZR_le; lia). assert (1 <= IZR s)%R by (apply IZR_le; lia). nra. }
  assert (Hq : (0 < sqrt z)%R) by (apply sqrt_lt_R0; lra).
  assert (Hq2 : (sqrt z * sqrt z = z)%R) by (apply sqrt_sqrt; lra).
  set (q := sqrt z) in *. clearbody q. clear Hz0.
  assert (Hqm : (22530000 <= q * IZR M)%R).
  { destruct (Rle_or_lt 22530000 (q * IZR M)); [assumption|]. exfalso.
    assert (0 < q * IZR M)%R by (apply Rmult_lt_0_compat; lra).
    assert ((q * IZR M) * (q * IZR M) < 22530000 * 22530000)%R by (apply Rmult_le_0_lt_compat; lra).
    replace ((q * IZR M) * (q * IZR M))%R with (z * (IZR M * IZR M))%R in * by (rewrite <- Hq2; ring). lra. }
  set (t := (IZR (TICKS_PER_S A) / q)%R) in *.
  assert (Ht : (t <= 0.9325 * IZR M)%R).
  { unfold t. apply Rmult_le_reg_r with q; [lra|].
    unfold Rdiv. rewrite Rmult_assoc, Rinv_l by lra. lra. }
  apply le_IZR. unfold Rabs in K. destruct (Rcase_abs _); lra.
Qed.
End WithArch.

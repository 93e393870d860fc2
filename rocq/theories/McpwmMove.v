(** * McpwmMove: the commands of a move on the MCPWM/PCNT driver *)
From Coq Require Import ZArith Bool List Lia.
From Verif Require Import Base Queue Mcpwm McpwmFacts McpwmProp RampCalc RampGen RampRun RampMove RampSafe RampUser RampOne
  QueueFacts QueueHist Stepper StepperHist FrontHist FrontProp FrontFill FrontTask FrontStart FrontMove FrontPause.
Import ListNotations.
Open Scope Z_scope.
Ltac Zify.zify_post_hook ::= idtac.

(** ** Pauses of the direction change *)
Lemma steady_weak n l : steady (true, n) l -> forall b, steady (b, n) l.
Proof. destruct l as [|c l]; [trivial|]. intros [H1 H2] b. split; [|exact H2]. intros _. exact (H1 eq_refl). Qed.
Lemma pauses_steady dd up : forall cs b n u, Forall (moves_only up) cs -> steady (b, n) cs -> (b = false -> u = up) ->
  steady (b, n) (with_pauses dd u cs).
Proof.
  induction cs as [|c cs IH]; intros b n u Hm Hs Hu; [exact I|]. inversion Hm as [|? ? M1 M2]; subst.
  cbn [steady fst snd] in Hs. destruct Hs as [S1 S2]. unfold after1 in S2. cbn [snd] in S2. cbn [with_pauses].
  destruct (Z.eqb_spec (c_steps c) 0) as [K|K].
  - assert (E : (if Bool.eqb u (c_up c) then [] else if dd =? 0 then [] else []) = ([] : list command))
      by (destruct (Bool.eqb u (c_up c)); [|destruct (dd =? 0)]; reflexivity).
    rewrite E. cbn [app steady fst snd]. split; [intros; contradiction|]. unfold after1. cbn [snd]. rewrite K. change (0 =? 0) with true. cbv iota.
    apply IH; auto. discriminate.
  - assert (N : steady (b, n) (c :: with_pauses dd (c_up c) cs)).
    { cbn [steady fst snd]. split; [exact S1|]. unfold after1. cbn [snd]. destruct (Z.eqb_spec (c_steps c) 0); [contradiction|].
      apply IH; auto. }
    destruct (Bool.eqb u (c_up c)) eqn:Eu; [exact N|]. destruct (dd =? 0); [exact N|]. cbn [app].
    destruct b.
    + cbn [steady fst snd c_steps]. split; [intros; contradiction|]. unfold after1 at 1. cbn [c_steps snd]. exact N.
    + specialize (Hu eq_refl). apply eqb_false_iff in Eu. rewrite (M1 K) in Eu. contradiction.
Qed.
Lemma no_pauses u cs : with_pauses 0 u cs = cs.
Proof.
  revert u. induction cs as [|c cs IH]; intros u; [reflexivity|]. cbn [with_pauses]. rewrite IH.
  destruct (Bool.eqb u (c_up c)); reflexivity.
Qed.
(** number of steps of the last command with steps, and whether a pause follows *)
Definition last_steps (pre : list command) : Z := snd (fold_left after1 pre (false, 1)).
Definition ends_in_pause (pre : list command) : bool := fst (fold_left after1 pre (false, 1)).
(** [pre] has pauses only between commands with the same number of steps; at its end only behind a single step *)
Definition even_so_far (pre : list command) : Prop :=
  steady (false, 1) pre /\ (ends_in_pause pre = true -> last_steps pre = 1).
Lemma pauses_end dd : forall cs u b n, fold_left after1 (with_pauses dd u cs) (b, n) = fold_left after1 cs (b, n).
Proof.
  induction cs as [|c cs IH]; intros u b n; [reflexivity|]. cbn [with_pauses]. rewrite fold_left_app. cbn [fold_left].
  assert (E : after1 (fold_left after1 (if Bool.eqb u (c_up c) then [] else if dd =? 0 then [] else if c_steps c =? 0 then []
    else [mkCommand dd 0 (c_up c)]) (b, n)) c = after1 (b, n) c).
  { destruct (Bool.eqb u (c_up c)); [reflexivity|]. destruct (dd =? 0); [reflexivity|].
    destruct (Z.eqb_spec (c_steps c) 0) as [K|K]; [reflexivity|]. cbn [fold_left]. unfold after1. cbn [c_steps snd].
    destruct (Z.eqb_spec (c_steps c) 0); [contradiction|reflexivity]. }
  rewrite E. destruct (after1 (b, n) c) as [b' n']. apply IH.
Qed.
Lemma move_steady pre cs dd u up : even_so_far pre -> Forall (moves_only up) cs -> even_cmds cs ->
  last_steps pre = 1 \/ dd = 0 \/ u = up ->
  even_so_far (pre ++ with_pauses dd u cs).
Proof.
  intros [Hp Hq] Hm He H. unfold even_so_far, last_steps, ends_in_pause in *. rewrite steady_app, fold_left_app.
  destruct (fold_left after1 pre (false, 1)) as [b n]. cbn [fst snd] in Hq, H.
  rewrite pauses_end. destruct (He b n Hq) as [F1 F2]. split; [split; [exact Hp|]|exact F2].
  destruct H as [-> |[-> | ->]].
  - apply steady_weak. apply (pauses_steady dd up); [assumption|exact (proj1 (He true 1 (fun _ => eq_refl)))|discriminate].
  - rewrite no_pauses. exact F1.
  - apply (pauses_steady dd up); auto.
Qed.
(** ** The way of the commands *)
Lemma pauses_way up : forall cs dd u, Forall (moves_only up) cs ->
  total (with_pauses dd u cs) = sgn up (total_steps cs).
Proof.
  induction cs as [|c cs IH]; intros dd u Hm; [destruct up; reflexivity|]. inversion Hm as [|? ? M1 M2]; subst.
  cbn [with_pauses]. rewrite total_app. change (total (c :: with_pauses dd (c_up c) cs)) with (signed c + total (with_pauses dd (c_up c) cs)).
  rewrite (IH dd (c_up c) M2). cbn [total_steps].
  assert (E : total (if Bool.eqb u (c_up c) then [] else if dd =? 0 then [] else if c_steps c =? 0 then [] else [mkCommand dd 0 (c_up c)]) = 0).
  { destruct (Bool.eqb u (c_up c)); [reflexivity|]. destruct (dd =? 0); [reflexivity|]. destruct (c_steps c =? 0); [reflexivity|].
    cbn. unfold signed. cbn. destruct (c_up c); reflexivity. }
  rewrite E. unfold signed, sgn. destruct (Z.eq_dec (c_steps c) 0) as [K|K]; [rewrite K; destruct (c_up c), up; lia|].
  rewrite (M1 K). destruct up; lia.
Qed.

(** Whatever the schedule of driver and hardware (interrupts in time): if the driver has taken [pre]
    and then [l], the cycles are those of the commands, and a motion that has come to its end has
    gone the way of [pre] and then [d] steps. *)
Definition carried (HCU : bool) (pre l : list command) (d : Z) : Prop := forall lev evs,
  Forall mev_ok evs -> in_time HCU evs (minit lev) -> let s := mrun HCU evs (minit lev) in
  m_acc s = pre ++ l ->
  (exists rest, k_log (m_h s) ++ rest = stream HCU (pre ++ l)) /\
  (m_run s = false -> m_q s = [] -> travelled HCU (k_log (m_h s)) = total pre + d) /\
  (m_run s = true -> exists k, in_time HCU (rounds k) s /\ let s1 := mrun HCU (rounds k) s in
     m_run s1 = false /\ m_q s1 = [] /\ t_on (k_t (m_h s1)) = false /\ travelled HCU (k_log (m_h s1)) = total pre + d).
Lemma ev_ok_fits e : mev_ok e -> ev_fits e.
Proof. destruct e; cbn; auto. Qed.
Lemma steady_carried HCU pre l d : steady (false, 1) (pre ++ l) -> total l = d -> carried HCU pre l d.
Proof.
  intros Hs Hd lev evs Hok Hin s Ha.
  assert (I : McpwmFacts.inv HCU [] [] (false, 1) false s).
  { apply mrun_inv; auto; [apply McpwmProp.inv_init|]. exists (pre ++ l). auto. }
  assert (F : Forall cmd_fits (pre ++ l)).
  { rewrite <- Ha. apply (fit_run HCU evs (minit lev)).
    - split; [constructor|discriminate].
    - eapply Forall_impl; [apply ev_ok_fits|exact Hok]. }
  assert (T : travelled HCU (stream HCU (pre ++ l)) = total pre + d) by (rewrite (travelled_stream HCU _ F), total_app, Hd; reflexivity).
  destruct (inv_log HCU [] [] (false, 1) false s I) as (l' & rest & E1 & E2 & E3). cbn [app] in *.
  assert (l' = pre ++ l) as -> by congruence.
  split; [eauto|]. split.
  - intros R Q. specialize (E3 R). rewrite Q in E3. cbn in E3. rewrite E3, app_nil_r in E2. rewrite E2. exact T.
  - intros R. assert (G : good_acc [] (false, 1) s) by (exists (pre ++ l); auto).
    destruct (drain_any HCU [] [] (false, 1) false s (pre ++ l) I G R Ha) as (k & _ & K1 & K2 & K3 & K4 & K5).
    exists k. cbn [app] in K4. rewrite K4. auto.
Qed.

(** ** After any history *)
Section History.
Variable A : arch.
Variable EXT : bool.
Hypothesis HA : In A all_archs.
(** the commands so far [pre] let the counter take over the first number of steps of the move *)
Definition fits_in (pre : list command) (dd : Z) (u up : bool) : Prop :=
  even_so_far pre /\ (last_steps pre = 1 \/ dd = 0 \/ u = up).
Lemma even_carried HCU pre cs dd u d : total_steps cs = Z.abs d -> Forall (moves_only (0 <? d)) cs -> even_cmds cs ->
  fits_in pre dd u (0 <? d) -> carried HCU pre (with_pauses dd u cs) d /\ even_so_far (pre ++ with_pauses dd u cs).
Proof.
  intros Ht Hm He [Hp Hc]. pose proof (move_steady pre cs dd u (0 <? d) Hp Hm He Hc) as S. split; [|exact S]. apply steady_carried.
  - exact (proj1 S).
  - rewrite (pauses_way _ _ _ _ Hm), Ht. unfold sgn. destruct (Z.ltb_spec 0 d); lia.
Qed.
Lemma moveTo_mcpwm garbage p ep m s0 evs a M pos : conf_ok s0 -> Forall fev_ok evs -> -2147483648 <= pos < 2147483648 ->
  let x := frun A EXT evs (finit A garbage p ep m s0) in
  let d := i32 (pos - qe_pos (q_end (fqueue x))) in
  ready_to_move A (fst x) (fqueue x) a M d -> fed (fst x) -> is_external (s_dirpin (fst x)) = false ->
  2 * MIN_CMD_TICKS A <= M ->
  exists s1 cs, s_moveTo pos (fst x) (fqueue x) = (s1, MOVE_OK)
    /\ exact_carries A EXT cs (s1, snd x)
    /\ forall HCU pre, fits_in pre (s_dirdelay s1) (qe_up (q_end (fqueue x))) (0 <? d) ->
       let l := with_pauses (s_dirdelay s1) (qe_up (q_end (fqueue x))) cs in carried HCU pre l d /\ even_so_far (pre ++ l).
Proof.
  intros Hc He Hp x d Hr Hf Hx HM2. pose proof (proj1 (history_good A EXT HA garbage p ep m s0 evs Hc He)) as Hg. fold x in Hg.
  pose proof Hr as [Hdel Hmax Hout Hdir Hcfg Hsane Hidle Hpause Ha HM Hd Had].
  assert (S0 : ramp_steps A (s_rg (fst x)) = 0) by (unfold ramp_steps; rewrite Hidle; reflexivity).
  assert (OUT : fed (fst x) \/ s_off (fst x) <> 0 /\ q_running (fqueue x) = false /\ n_of (snd x) = 0) by (left; exact Hf).
  destruct (moveTo_soon A false HA (s_rg (fst x)) (q_end (fqueue x)) (fun _ => old_any) a M pos) as
    (g1 & E & n & cs & g' & qe' & R1 & R2 & RN & R3 & R4 & R5 & R6 & R7 & R8); try assumption.
  - intros _. exact Hpause.
  - apply (pos_range A). exact Hg.
  - rewrite S0, Z.add_0_r. exact Hd.
  - rewrite S0, Z.add_0_r. exact Had.
  - fold d in R4, R6. exists (st_rg g1 (fst x)), cs.
    assert (HI : tinv A (q_max (fqueue x)) n cs (st_rg g1 (fst x), snd x)).
    { apply (run_inv A n (fun _ => old_any) g1 cs g' qe' (fst x) (snd x) Hg Hdel R1 R2); [|exact OUT]. eapply cmds_fit; eassumption. }
    assert (EV : even_cmds cs).
    { destruct (moveTo_even A HA (s_rg (fst x)) (q_end (fqueue x)) (fun _ => old_any) a M Hcfg Hsane Hidle Hpause Ha ltac:(lia) pos g1 MOVE_OK Hp Hd Had E)
        as (n2 & cs2 & g2 & q2 & T1 & T2 & T3). rewrite (run_same A n n2 _ _ _ _ _ _ _ _ _ R1 R2 T1 T2). exact T3. }
    split; [unfold s_moveTo; rewrite E; reflexivity|]. split.
    + eapply inv_exact; eauto.
    + intros HCU pre Hfit. apply even_carried; assumption.
Qed.
Lemma move_mcpwm garbage p ep m s0 evs a M delta : conf_ok s0 -> Forall fev_ok evs ->
  -2147483648 <= delta < 2147483648 -> delta <> 0 ->
  let x := frun A EXT evs (finit A garbage p ep m s0) in
  let g := s_rg (fst x) in
  let target := i32 (base_target g (q_end (fqueue x)) + pending_move g + delta) in
  let d := i32 (target - qe_pos (q_end (fqueue x))) in
  ready_to_move A (fst x) (fqueue x) a M d -> (s_dirpin (fst x) = PIN_UNDEFINED -> 0 <= delta) ->
  fed (fst x) -> is_external (s_dirpin (fst x)) = false ->
  2 * MIN_CMD_TICKS A <= M ->
  exists s1 cs, s_move delta (fst x) = (s1, MOVE_OK)
    /\ exact_carries A EXT cs (s1, snd x)
    /\ forall HCU pre, fits_in pre (s_dirdelay s1) (qe_up (q_end (fqueue x))) (0 <? d) ->
       let l := with_pauses (s_dirdelay s1) (qe_up (q_end (fqueue x))) cs in carried HCU pre l d /\ even_so_far (pre ++ l).
Proof.
  intros Hc He Hp H0 x g target d Hr Hdel0 Hf Hx HM2. pose proof (proj1 (history_good A EXT HA garbage p ep m s0 evs Hc He)) as Hg. fold x in Hg.
  pose proof Hr as [Hdel Hmax Hout Hdir Hcfg Hsane Hidle Hpause Ha HM Hd Had].
  assert (S0 : ramp_steps A (s_rg (fst x)) = 0) by (unfold ramp_steps; rewrite Hidle; reflexivity).
  assert (OUT : fed (fst x) \/ s_off (fst x) <> 0 /\ q_running (fqueue x) = false /\ n_of (snd x) = 0) by (left; exact Hf).
  destruct (move_soon A false HA (s_rg (fst x)) (q_end (fqueue x)) (fun _ => old_any) a M delta) as
    (g1 & E & n & cs & g' & qe' & R1 & R2 & RN & R3 & R4 & R5 & R6 & R7 & R8); try assumption.
  - intros _. exact Hpause.
  - apply (pos_range A). exact Hg.
  - now right.
  - rewrite S0, Z.add_0_r. exact Hd.
  - rewrite S0, Z.add_0_r. exact Had.
  - fold g in R3, R4, R6. fold target in R3, R4, R6. fold d in R4, R6. exists (st_rg g1 (fst x)), cs.
    assert (HI : tinv A (q_max (fqueue x)) n cs (st_rg g1 (fst x), snd x)).
    { apply (run_inv A n (fun _ => old_any) g1 cs g' qe' (fst x) (snd x) Hg Hdel R1 R2); [|exact OUT]. eapply cmds_fit; eassumption. }
    assert (EV : even_cmds cs).
    { destruct (move_even A HA (s_rg (fst x)) (q_end (fqueue x)) (fun _ => old_any) a M Hcfg Hsane Hidle Hpause Ha ltac:(lia) delta g1 MOVE_OK H0 Hd Had E)
        as (n2 & cs2 & g2 & q2 & T1 & T2 & T3). rewrite (run_same A n n2 _ _ _ _ _ _ _ _ _ R1 R2 T1 T2). exact T3. }
    split.
    { unfold s_move. rewrite E. destruct (Z.ltb_spec delta 0) as [K|K]; [|reflexivity]. cbn [andb].
      destruct (Z.eqb_spec (s_dirpin (fst x)) PIN_UNDEFINED) as [K1|K1]; [|reflexivity]. specialize (Hdel0 K1). lia. }
    split.
    + eapply inv_exact; eauto.
    + intros HCU pre Hfit. apply even_carried; assumption.
Qed.
End History.

(** * RmtV4End: the end of a move on the ESP32 with the RMT driver of ESP-IDF 4

    As RmtEnd.v: the transmission of a full queue ends (RmtV4Count.v), a background task that finds the
    queue sent brings the move to its end. *)
From Coq Require Import ZArith Bool List Lia ZifyBool.
From Verif Require Import Base RampCalc RampGen RampRun RampMove RampSafe RampAcc RampUser RampPlan
  Queue QueueFacts QueuePos QueueHist Stepper StepperHist FrontHist FrontProp FrontFill FrontTask FrontStart FrontMove FrontPause
  AccessSim StackSim Rmt RmtFacts RmtHist RmtCount RmtStack RmtV4 RmtV4Facts RmtV4Hist RmtV4Count RmtV4Stack.
Import ListNotations.
Open Scope Z_scope.
Ltac Zify.zify_post_hook ::= idtac.
Local Ltac splits := repeat match goal with |- _ /\ _ => split end.

(** ** Rounds *)
Section Rounds.
Variable N : bool.
Variable A : arch.
Variable EXT : bool.
Notation ftrun := (ftrun N A EXT).
Notation ftstep := (ftstep N A EXT).
Notation fserved := (fserved N A EXT).
Lemma ftrun_app : forall l1 l2 x, ftrun (l1 ++ l2) x = match ftrun l1 x with Some y => ftrun l2 y | None => None end.
Proof. induction l1 as [|e l1 IH]; intros l2 x; cbn [app RmtV4Stack.ftrun]; [reflexivity|]. destruct (ftstep e x); auto. Qed.
Lemma fserved_app : forall l1 l2 x, fserved l1 x -> (forall y, ftrun l1 x = Some y -> fserved l2 y) -> fserved (l1 ++ l2) x.
Proof.
  induction l1 as [|e l1 IH]; intros l2 x H1 H2; cbn [app].
  - apply H2. reflexivity.
  - destruct H1 as [H1 H3]. split; [exact H1|]. intros y E. apply IH; [now apply H3|]. intros z Ez. apply H2. cbn [RmtV4Stack.ftrun]. now rewrite E.
Qed.
Lemma fpasses_app l1 l2 : fpasses (l1 ++ l2) = (fpasses l1 + fpasses l2)%nat.
Proof. unfold fpasses. rewrite filter_app, app_length. reflexivity. Qed.
End Rounds.
(** A pass of the task, then the ends of [rf_parts] parts. In the calls of the pass any
    interrupts may come in between ([rf_ws]). *)
Record round4 := mkRound4 {
  rf_ext : extcall; rf_busy : nat -> bool; rf_fuel : nat; rf_old : next_command; rf_ws : list vweather; rf_parts : nat }.
Definition round_tasks4 (r : round4) : list ftask :=
  [FFill (rf_ext r) (rf_busy r) (rf_fuel r) (rf_old r) (rf_ws r); FSent (rf_parts r)].
(** the outputs answer; the interrupts suffice for a full queue *)
Definition round_ok4 (s : stepper) (r : round4) : Prop :=
  (1 <= rf_fuel r)%nat /\ (forall f, rf_busy r f = false) /\ responsive s (rf_ext r) /\ 32774 <= Z.of_nat (rf_parts r).

Section Move.
Variable N : bool.
Variable EXT : bool.
Notation A := arch_esp32.
Notation ftrun := (ftrun N A EXT).
Notation fserved := (fserved N A EXT).
Lemma cost_full s : wok N A (v_w s) -> cost (pend A (v_q s)) <= 8192.
Proof.
  intros W. pose proof (wk_wf _ _ _ W) as (_ & _ & WL). change (wq (v_w s)) with (v_q s) in WL.
  assert (L : Z.of_nat (length (pend A (v_q s))) <= 32).
  { rewrite pend_length. pose proof (entries_range (v_q s)). change (QUEUE_LEN A) with 32 in WL. lia. }
  assert (WE : Forall ent_ok (pend A (v_q s))).
  { eapply Forall_impl; [|exact (wk_ent _ _ _ W)]. intros e [? _]. assumption. }
  assert (C : cost (pend A (v_q s)) <= 256 * Z.of_nat (length (pend A (v_q s)))).
  { unfold cost. clear - WE. induction WE as [|e l [_ He] _ IH]; cbn [map fold_right length]; [lia|]. rewrite Nat2Z.inj_succ. lia. }
  lia.
Qed.
Lemma sents_add k1 k2 s : vints N A EXT (k1 + k2) s = vints N A EXT k2 (vints N A EXT k1 s).
Proof. unfold vints, sents. rewrite repeat_app. apply vrun_app. Qed.
(** enough interrupts end the transmission *)
Lemma drained4 k s : kinv N A s -> pend A (v_q s) = [] \/ q_running (v_q s) = true -> (q_running (v_q s) = true -> v_hw s <> Off) ->
  32774 <= Z.of_nat k -> let s' := vints N A EXT k s in q_running (v_q s') = false /\ pend A (v_q s') = [].
Proof.
  intros H Hp Ho Hk. cbv zeta. destruct (q_running (v_q s)) eqn:Er.
  2:{ assert (Hf : v_hw s = Off) by (apply (idle_off N A); [apply H|exact Er]).
      rewrite off_sents by exact Hf. destruct Hp as [Hp|Hp]; [auto|discriminate]. }
  destruct (drained N A HE EXT s H (Ho eq_refl)) as (k0 & L & D1 & D2 & D3 & _).
  pose proof (cost_full s (vi_w _ _ _ (ki_v _ _ _ H))).
  replace k with (k0 + (k - k0))%nat by lia. rewrite sents_add. fold (vints N A EXT k0 s) in D1, D2, D3. rewrite off_sents by exact D1. auto.
Qed.
Section Plan.
Variables (up : bool) (pos m : Z) (n : nat) (cs : list command) (s1 : stepper) (th : hq) (x : left4).
Hypothesis Hx : left_ok N x.
Hypothesis Hg : good A th.
Hypothesis Hs : conf_ok s1.
Hypothesis Ho : own_pin (q_pin (tqueue th)).
Hypothesis Hr : q_running (tqueue th) = false.
Hypothesis Hp : pend A (tqueue th) = [].
Hypothesis Hv : Forall (valid_cmd A) cs.
Hypothesis Hsh : Forall (short_65535 N) cs.
Hypothesis HI : tinv A m n cs (s1, th).
Hypothesis Hc : carries A EXT up cs pos (s1, th).
Notation x0 := (s1, v_begin x th).
Lemma total4 tasks : exists y, ftrun tasks x0 = Some y.
Proof.
  destruct (ftrun tasks x0) as [y|] eqn:E; [eauto|].
  destruct (ftasks_none N A EXT HE _ _ _ tasks s1 _ th (begin_Rel4 N up x th Hx Hg Ho Hr Hp) Hs E) as [l' T].
  destruct (Hc l') as (y & _ & _ & _ & T2 & _). congruence.
Qed.
Lemma kinv4 tasks y : ftrun tasks x0 = Some y -> kinv N A (fq_s (snd y)).
Proof.
  intros E. destruct (sim_ftasks N A EXT HE _ _ _ tasks s1 _ th y (begin_Rel4 N up x th Hx Hg Ho Hr Hp) Hs E) as (l' & th' & T & R & _ & _).
  destruct R as (R1 & P1 & _ & K). set (r := fq_s (snd y)) in *.
  destruct (Hc l') as (y' & done & rest & w & T' & Ecs & Hw & Ha & _). rewrite T in T'. injection T' as <-.
  pose proof (fl_acc _ _ _ _ _ R1) as AC. unfold accepted_cmds in Ha. cbn [snd] in Ha. rewrite AC in Ha.
  apply app_inv_head in Ha. subst w.
  assert (Hv1 : Forall (valid_cmd A) done) by (rewrite Ecs in Hv; now apply Forall_app in Hv).
  assert (Hs1 : Forall (short_65535 N) done) by (rewrite Ecs in Hsh; now apply Forall_app in Hsh).
  destruct K as [K1 K2 K3 K4 K5 K7].
  pose proof (all_fit4 N _ _ Hw Hv1 Hs1 K7) as Hfit. specialize (K4 Hfit). rewrite calm_id in K4 by auto. exact K4.
Qed.
Lemma rounds_served4 : keeps_going A EXT (s1, th) ->
  forall rs, Forall (round_ok4 s1) rs -> exists y, ftrun (flat_map round_tasks4 rs) x0 = Some y
    /\ fserved (flat_map round_tasks4 rs) x0
    /\ q_running (v_q (fq_s (snd y))) = false /\ pend A (v_q (fq_s (snd y))) = [].
Proof.
  intros Hk. pose proof (begin_Rel4 N up x th Hx Hg Ho Hr Hp) as HR.
  induction rs as [|r rs IH] using rev_ind; intros HF.
  { exists x0. split; [reflexivity|]. split; [exact I|]. split; [exact Hr|exact Hp]. }
  apply Forall_app in HF as [HF1 HF2]. destruct (IH HF1) as (y & E1 & S1 & Q1 & Q2). clear IH.
  destruct (Forall_inv HF2) as (F1 & F2 & F3 & F4). rewrite flat_map_app. cbn [flat_map]. rewrite app_nil_r.
  set (l := flat_map round_tasks4 rs) in *.
  set (e := FFill (rf_ext r) (rf_busy r) (rf_fuel r) (rf_old r) (rf_ws r)).
  change (round_tasks4 r) with [e; FSent (rf_parts r)].
  destruct (sim_ftasks N A EXT HE _ _ _ l s1 _ th y HR Hs E1) as (l' & th' & T & R' & _ & _).
  destruct (trun_ok A EXT HE m l' n cs (s1, th) HI) as (y' & k' & d & rst & w & T' & TN). rewrite T in T'. injection T' as <-.
  assert (SV : fserved_task A (fst y) (snd y) e).
  { pose proof (tn_like _ _ _ _ _ _ _ _ _ _ TN) as LK. destruct LK. cbn [fst] in *.
    cbn [fserved_task e]. splits; auto. unfold responsive in *. rewrite lk_low, lk_high. exact F3. }
  assert (SA : fserved (l ++ [e; FSent (rf_parts r)]) x0).
  { apply fserved_app; [exact S1|]. intros y' E'. rewrite E1 in E'. injection E' as <-.
    split; [exact SV|]. intros z Ez. split; [exact I|]. intros; exact I. }
  destruct (total4 (l ++ [e])) as [y1 E2].
  assert (SB : fserved (l ++ [e]) x0).
  { apply fserved_app; [exact S1|]. intros y' E'. rewrite E1 in E'. injection E' as <-.
    split; [exact SV|]. intros z Ez. exact I. }
  assert (ON : runs_on (snd y1)).
  { rewrite ftrun_app, E1 in E2. cbn [RmtV4Stack.ftrun] in E2. destruct (ftstep N A EXT e y) as [z|] eqn:Ez; [|discriminate]. injection E2 as <-.
    destruct y as [sy ty]. cbn [ftstep e] in Ez. cbn [fst snd] in *. destruct z as [sz tz].
    assert (Cy : conf_ok sy).
    { pose proof (tn_like _ _ _ _ _ _ _ _ _ _ TN) as LK. destruct LK. cbn [fst] in *. unfold conf_ok in *. rewrite ?lk_dirdelay, ?lk_ondelay, ?lk_off. exact Hs. }
    destruct (sim_pass N A EXT HE _ _ _ _ _ _ _ _ sy ty th' sz tz R' Cy Ez) as (w' & th2 & _ & _ & K & _).
    exact (proj2 (K Q1)). }
  destruct (sim_ftasks N A EXT HE _ _ _ (l ++ [e]) s1 _ th y1 HR Hs E2) as (l1 & th1 & T1 & R1 & _ & RS).
  destruct (RS SB) as [_ RD]. destruct R1 as (RL & PC & _ & _).
  assert (GO : pend A (v_q (fq_s (snd y1))) = [] \/ q_running (v_q (fq_s (snd y1))) = true).
  { pose proof (proj1 (fl_q _ _ _ _ _ RL)) as Q. destruct (Hk l1 _ RD T1) as [K|K]; [left|right].
    - apply pend_nil. apply pend_nil in K. rewrite Q. exact K.
    - rewrite Q. exact K. }
  destruct (drained4 (rf_parts r) _ (kinv4 _ _ E2) GO ON F4) as [D1 D2].
  destruct y1 as [s2 t2]. cbn [fst snd] in *.
  exists (s2, mkFq (vints N A EXT (rf_parts r) (fq_s t2)) (fq_p t2) (fq_w t2)). splits; auto.
  change [e; FSent (rf_parts r)] with ([e] ++ [FSent (rf_parts r)]). rewrite app_assoc, ftrun_app, E2. reflexivity.
Qed.
Lemma rounds_passes4 rs : fpasses (flat_map round_tasks4 rs) = length rs.
Proof. induction rs as [|r rs IH]; [reflexivity|]. cbn [flat_map]. rewrite fpasses_app, IH. reflexivity. Qed.
(** The end of a move *)
Definition ended4 (k p : Z) (y : stepper * fq) : Prop :=
  let r := fq_s (snd y) in isRampGeneratorActive (s_rg (fst y)) = false /\ v_hw r = Off /\ q_running (v_q r) = false
  /\ pend A (v_q r) = [] /\ sum_chunks (v_log r) = k /\ (forall done_p, getCurrentPosition A done_p (v_q r) = p).
Lemma rounds_end4 : Forall (moves_only up) cs -> completes A EXT n (s1, th) -> keeps_going A EXT (s1, th) ->
  forall rs, Forall (round_ok4 s1) rs -> (n <= length rs)%nat ->
  exists y, ftrun (flat_map round_tasks4 rs) x0 = Some y /\ ended4 (total_steps cs) pos y.
Proof.
  intros Hm Hn Hk rs HF HL.
  destruct (rounds_served4 Hk rs HF) as (y & E & S & Q1 & Q2).
  pose proof (begin_Rel4 N up x th Hx Hg Ho Hr Hp) as HR.
  destruct (sim_ftasks N A EXT HE _ _ _ _ s1 _ th y HR Hs E) as (l' & th' & T & _ & NP & RS).
  destruct (RS S) as [SV _].
  destruct (Hn l' SV) as (y' & T' & AC). { rewrite NP, rounds_passes4. exact HL. }
  rewrite T in T'. injection T' as <-. cbn [fst] in AC.
  pose proof (v4_move N EXT up cs pos s1 th x Hx Hg Hs Ho Hr Hp Hv Hsh Hm Hc _ y E) as (_ & SM & _).
  destruct (SM AC Q2) as (_ & K2 & K3).
  assert (Hf : v_hw (fq_s (snd y)) = Off) by (apply (idle_off N A); [apply (kinv4 _ _ E)|exact Q1]).
  exists y. split; [exact E|]. unfold ended4. cbv zeta. splits; auto.
Qed.
End Plan.
Lemma moveTo_ends4 garbage p ep m s0 evs a M pos : conf_ok s0 -> Forall fev_ok evs -> -2147483648 <= pos < 2147483648 ->
  let x := frun A EXT evs (rdinit EXT garbage p ep m s0) in
  let q := fqueue x in
  let d := i32 (pos - qe_pos (q_end q)) in
  own_pin (q_pin q) -> q_running q = false -> pend A q = [] -> ready_to_move A (fst x) q a M d ->
  conf24 A (fst x) -> distinct_pins (fst x) ->
  exists s1 cs n, s_moveTo pos (fst x) q = (s1, MOVE_OK) /\ total_steps cs = Z.abs d /\ (n <= S (length cs))%nat /\
  (Forall (short_65535 N) cs -> forall lf rs, left_ok N lf -> Forall (round_ok4 (fst x)) rs -> (n <= length rs)%nat ->
  exists y, ftrun (flat_map round_tasks4 rs) (s1, v_begin lf (snd x)) = Some y /\ ended4 (Z.abs d) pos y).
Proof.
  intros Hc He Hpos x q d Ho Hr Hp Hrd H24 Hdi.
  destruct (rdinit_good EXT garbage p ep m s0 evs Hc He) as [Hg Hcf]. fold x in Hg, Hcf.
  destruct (moveTo_planned A EXT HE _ _ a M Hg pos Hpos Hrd) as (s1 & cs & n & H1 & H2 & H3 & H4 & H5 & (H6 & HN & _) & H7 & H8 & H9).
  destruct (moveTo_keeps _ _ _ _ _ H1) as (g & Eg).
  exists s1, cs, n. split; [exact H1|]. split; [exact H2|]. split; [exact HN|]. intros Hsh lf rs Hlf HF HL.
  assert (TS : total_steps cs = Z.abs d) by exact H2. rewrite <- TS.
  apply (rounds_end4 (0 <? d) pos (q_max (tqueue (snd x))) n cs s1 (snd x) lf); auto.
  - rewrite Eg. exact Hcf.
  - rewrite Eg. exact HF.
Qed.
Lemma move_ends4 garbage p ep m s0 evs a M delta : conf_ok s0 -> Forall fev_ok evs ->
  -2147483648 <= delta < 2147483648 -> delta <> 0 ->
  let x := frun A EXT evs (rdinit EXT garbage p ep m s0) in
  let q := fqueue x in
  let g := s_rg (fst x) in
  let target := i32 (base_target g (q_end q) + pending_move g + delta) in
  let d := i32 (target - qe_pos (q_end q)) in
  own_pin (q_pin q) -> q_running q = false -> pend A q = [] -> ready_to_move A (fst x) q a M d ->
  (s_dirpin (fst x) = PIN_UNDEFINED -> 0 <= delta) ->
  conf24 A (fst x) -> distinct_pins (fst x) ->
  exists s1 cs n, s_move delta (fst x) = (s1, MOVE_OK) /\ total_steps cs = Z.abs d /\ (n <= S (length cs))%nat /\
  (Forall (short_65535 N) cs -> forall lf rs, left_ok N lf -> Forall (round_ok4 (fst x)) rs -> (n <= length rs)%nat ->
  exists y, ftrun (flat_map round_tasks4 rs) (s1, v_begin lf (snd x)) = Some y /\ ended4 (Z.abs d) target y).
Proof.
  intros Hc He Hd0 Hd1 x q g target d Ho Hr Hp Hrd Hdir H24 Hdi.
  destruct (rdinit_good EXT garbage p ep m s0 evs Hc He) as [Hg Hcf]. fold x in Hg, Hcf.
  destruct (move_planned A EXT HE _ _ a M Hg delta Hd0 Hd1 Hrd Hdir) as (s1 & cs & n & H1 & H2 & H3 & H4 & H5 & (H6 & HN & _) & H7 & H8 & H9).
  destruct (move_keeps _ _ _ _ H1) as (g1 & Eg).
  exists s1, cs, n. split; [exact H1|]. split; [exact H2|]. split; [exact HN|]. intros Hsh lf rs Hlf HF HL.
  assert (TS : total_steps cs = Z.abs d) by exact H2. rewrite <- TS.
  apply (rounds_end4 (0 <? d) target (q_max (tqueue (snd x))) n cs s1 (snd x) lf); auto.
  - rewrite Eg. exact Hcf.
  - rewrite Eg. exact HF.
Qed.
End Move.

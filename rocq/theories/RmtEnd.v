(** * RmtEnd: the end of a move on the ESP32 with the RMT driver of ESP-IDF 5

    A transmission ends: every call of the encoder with room for a part has less to do than the one
    before. A background task that finds the queue sent ([round]s) brings the move to its end. *)
From Coq Require Import ZArith Bool List Lia ZifyBool.
From Verif Require Import Base RampCalc RampGen RampRun RampMove RampSafe RampAcc RampUser RampPlan
  Queue QueueFacts QueuePos QueueHist Stepper StepperHist FrontHist FrontProp FrontFill FrontTask FrontStart FrontMove FrontPause
  AccessSim StackSim Rmt RmtFacts RmtHist RmtCount RmtStack.
Import ListNotations.
Open Scope Z_scope.
Ltac Zify.zify_post_hook ::= idtac.
Local Ltac splits := repeat match goal with |- _ /\ _ => split end.

Section Part.
Variable P : Z.
Variable A : arch.
Variable EXT : bool.
Hypothesis HP : part_size P.
Hypothesis HA : In A all_archs.
Notation step := (rstep P A EXT).
Notation rints := (rints P A EXT).
Notation qu s := (r_q (g_r s)).
Variable ACC0 : list command.
Notation rel := (rel A ACC0).

(** what a transmission still has to do *)
Definition todo (l : list entry) : Z := fold_right Z.add 0 (map (fun e => 2 * e_steps e + 2) l).
Definition work (s : rst) : Z :=
  todo (pend A (qu s)) + (if r_last (g_r s) then 1 else 0) + (if r_stopped (g_r s) then 0 else 1).
Lemma todo_range l : Forall ent_ok l -> 0 <= todo l <= 512 * Z.of_nat (length l).
Proof.
  unfold todo. induction 1 as [|e l [_ He] _ IH]; cbn [map fold_right length]; [lia|]. rewrite Nat2Z.inj_succ. lia.
Qed.
Lemma work_range s h : rel s h -> 0 <= work s <= 16386.
Proof.
  intros H. pose proof (todo_range _ (ri_ent _ _ (rl_r _ _ _ _ H))) as T.
  assert (L : Z.of_nat (length (pend A (qu s))) <= 32).
  { pose proof (ri_wf _ _ (rl_r _ _ _ _ H)) as (_ & _ & W). rewrite pend_length. pose proof (entries_range (qu s)).
    destruct (ql_cases A HA); lia. }
  unfold work. destruct (r_last _), (r_stopped _); lia.
Qed.
Lemma enc_r ev free s : ev = REncode free -> q_running (qu s) = true -> g_r (step ev s) = fst (fst (encode P A free (g_r s))).
Proof. intros -> Hr. cbn [rstep]. rewrite Hr. destruct (snd (fst (encode P A free (g_r s)))); reflexivity. Qed.
Lemma encode_less s h : rel s h -> q_running (qu s) = true -> r_stopped (g_r s) = false ->
  q_running (qu (step (REncode P) s)) = true /\ work (step (REncode P) s) < work s.
Proof.
  intros HR Hr Hs. pose proof HR as [R1 R2 R3 R4 R5 R6 R7]. pose proof (ri_wf _ _ R1) as W.
  unfold work. rewrite (enc_r (REncode P) P s eq_refl Hr). unfold encode. rewrite Z.ltb_irrefl, Hs.
  set (r := g_r s) in *.
  rewrite (empty_rd A) by exact W.
  destruct (nonempty (r_q r)) eqn:En; cbn [negb].
  2:{ cbn [fst snd r_q r_last r_stopped]. split; [exact Hr|lia]. }
  destruct (e_toggle (head A (r_q r)) && r_last r) eqn:Et.
  { apply andb_true_iff in Et as [_ Et]. cbn [fst snd r_q r_last r_stopped].
    rewrite ?Hs, Et. split; [exact Hr|lia]. }
  destruct (toggle_first_spec A HA r W En) as (e & t & T1 & T2 & T3 & T4 & T5 & T6 & T7 & T8 & T9 & T10 & T11 & T12 & T13 & T14 & T15).
  set (r1 := toggle_first A r) in *. clearbody r1.
  unfold encode_first. rewrite T3.
  assert (Hent : ent_ok (head A (r_q r))) by (pose proof (ri_ent _ _ R1) as K; fold r in K; rewrite T1 in K; exact (Forall_inv K)).
  assert (Hrep : e_repeat e = false).
  { destruct R3 as (_ & N2 & _). pose proof R4 as [E4 S4]. fold r in E4, S4.
    assert (En' : nonempty (h_q h) = true) by (rewrite E4 in En; exact En).
    pose proof (pend_pop A HA _ (iv_wf A h R2) (proj1 (nonempty_iff _) En')) as Hpp. rewrite Hpp in N2.
    destruct (untoggle_eq _ _ (qsim_head A _ _ R4)) as (_ & _ & H3 & _).
    rewrite T4. cbn [untoggle e_repeat]. rewrite H3. exact (Forall_inv N2). }
  assert (Es : e_steps e = e_steps (head A (r_q r))) by (rewrite T4; reflexivity).
  destruct Hent as [_ He2]. rewrite <- Es in He2.
  pose proof (part_left P HP (e_steps e) (e_ticks e) He2) as [L1 L2].
  destruct (part P (e_steps e) (e_ticks e)) as [ws left]. cbn [fst snd r_q r_last r_stopped] in *. rewrite Hrep, T12, ?Hs.
  assert (Hn1 : queueEntries (r_q r1) <> 0) by (rewrite T6; now apply nonempty_iff).
  pose proof (pend_pop A HA _ T5 Hn1) as Hh1. rewrite T2, T3 in Hh1. injection Hh1 as Ht1.
  assert (TD : todo (pend A (r_q r)) = 2 * e_steps e + 2 + todo t) by (rewrite T1, Es; reflexivity).
  rewrite TD.
  destruct (Z.eqb_spec left 0) as [->|Hl].
  - rewrite <- Ht1. split; [cbn [q_pop set_rd q_running]; congruence|]. destruct (negb _), (r_last r); lia.
  - assert (PS : pend A (set_first A (with_steps left e) (r_q r1)) = with_steps left e :: t) by (rewrite Ht1; apply (pend_set_head A HA); assumption).
    rewrite PS. split; [cbn [set_first set_ent q_running]; congruence|].
    change (todo (with_steps left e :: t)) with (2 * left + 2 + todo t). specialize (L2 Hl). destruct (negb _), (r_last r); lia.
Qed.
Lemma encode_stopped s : q_running (qu s) = true -> r_stopped (g_r s) = true ->
  q_running (qu (step (REncode P) s)) = true /\ r_stopped (g_r (step (REncode P) s)) = true.
Proof.
  intros Hr Hs. cbn [rstep]. rewrite Hr. unfold encode. rewrite Z.ltb_irrefl, Hs. cbn [fst snd g_r]. auto.
Qed.
Lemma ints_cons ev l s : rint ev = true -> rints (ev :: l) s = rints l (step ev s).
Proof. intros H. unfold RmtStack.rints. cbn [filter]. rewrite H. reflexivity. Qed.
Lemma ints_app : forall l1 l2 s, rints (l1 ++ l2) s = rints l2 (rints l1 s).
Proof.
  intros l1 l2. unfold RmtStack.rints. rewrite filter_app. generalize (filter rint l2) as b.
  induction (filter rint l1) as [|e a IH]; intros b s; cbn [app rrun]; auto.
Qed.
Lemma encodes_stop : forall k s h, rel s h -> q_running (qu s) = true -> work s <= Z.of_nat k ->
  let s' := rints (repeat (REncode P) k) s in q_running (qu s') = true /\ r_stopped (g_r s') = true.
Proof.
  assert (ST : forall k s, q_running (qu s) = true -> r_stopped (g_r s) = true ->
    let s' := rints (repeat (REncode P) k) s in q_running (qu s') = true /\ r_stopped (g_r s') = true).
  { induction k as [|k IH]; intros s H1 H2; [auto|]. cbn [repeat]. rewrite ints_cons by reflexivity.
    destruct (encode_stopped s H1 H2). now apply IH. }
  induction k as [|k IH]; intros s h H Hr Hk.
  - destruct (r_stopped (g_r s)) eqn:Es; [auto|]. exfalso.
    pose proof (todo_range _ (ri_ent _ _ (rl_r _ _ _ _ H))). unfold work in Hk. rewrite Es in Hk. destruct (r_last _); lia.
  - destruct (r_stopped (g_r s)) eqn:Es; [now apply ST|]. cbn [repeat]. rewrite ints_cons by reflexivity.
    destruct (encode_less s h H Hr Es) as [K1 K2].
    destruct (rel_int P A EXT HP HA ACC0 (REncode P) s h H eq_refl) as [l H1].
    apply (IH _ _ H1 K1). lia.
Qed.
(** enough calls of the encoder and the end of the transmission *)
Lemma drained5 k s h : rel s h -> pend A (qu s) = [] \/ q_running (qu s) = true -> 16386 <= Z.of_nat k ->
  let s' := rints (repeat (REncode P) k ++ [RDone]) s in q_running (qu s') = false /\ pend A (qu s') = [].
Proof.
  intros H Hp Hk. cbv zeta. destruct (q_running (qu s)) eqn:Er.
  2:{ rewrite idle_ints by exact Er. destruct Hp as [Hp|Hp]; [auto|discriminate]. }
  rewrite ints_app. pose proof (work_range s h H).
  destruct (encodes_stop k s h H Er ltac:(lia)) as [K1 K2].
  destruct (rel_ints P A EXT HP HA ACC0 (repeat (REncode P) k) s h H) as [l H1].
  set (s1 := rints (repeat (REncode P) k) s) in *.
  rewrite ints_cons by reflexivity. change (rints [] (step RDone s1)) with (step RDone s1). cbn [rstep]. rewrite K1, K2.
  cbn [andb g_r done_rmt r_q]. split; [reflexivity|].
  change (pend A (set_running false (qu s1))) with (pend A (qu s1)). apply pend_nil.
  pose proof (rl_stop _ _ _ _ H1 K1 K2) as K. unfold nonempty in K. apply negb_false_iff, Z.eqb_eq in K. exact K.
Qed.
End Part.

(** ** Rounds *)
Section Rounds.
Variable P : Z.
Variable A : arch.
Variable EXT : bool.
Notation rtrun := (rtrun P A EXT).
Notation rtstep := (rtstep P A EXT).
Notation rserved := (rserved P A EXT).
Lemma rtrun_app : forall l1 l2 x, rtrun (l1 ++ l2) x = match rtrun l1 x with Some y => rtrun l2 y | None => None end.
Proof. induction l1 as [|e l1 IH]; intros l2 x; cbn [app RmtStack.rtrun]; [reflexivity|]. destruct (rtstep e x); auto. Qed.
Lemma rserved_app : forall l1 l2 x, rserved l1 x -> (forall y, rtrun l1 x = Some y -> rserved l2 y) -> rserved (l1 ++ l2) x.
Proof.
  induction l1 as [|e l1 IH]; intros l2 x H1 H2; cbn [app].
  - apply H2. reflexivity.
  - destruct H1 as [H1 H3]. split; [exact H1|]. intros y E. apply IH; [now apply H3|]. intros z Ez. apply H2. cbn [RmtStack.rtrun]. now rewrite E.
Qed.
Lemma rpasses_app l1 l2 : rpasses (l1 ++ l2) = (rpasses l1 + rpasses l2)%nat.
Proof. unfold rpasses. rewrite filter_app, app_length. reflexivity. Qed.
End Rounds.
(** A pass of the task, then [rd_calls] calls of the encoder with room for a part and the end of the
    transmission. In the calls of the pass any interrupts may come in between ([rd_ws]). *)
Record round := mkRound {
  rd_ext : extcall; rd_busy : nat -> bool; rd_fuel : nat; rd_old : next_command; rd_ws : list rweather; rd_calls : nat }.
Definition round_tasks (P : Z) (r : round) : list rtask :=
  [RFill (rd_ext r) (rd_busy r) (rd_fuel r) (rd_old r) (rd_ws r); RInts (repeat (REncode P) (rd_calls r) ++ [RDone])].
(** the outputs answer; the calls suffice for a full queue *)
Definition round_ok (s : stepper) (r : round) : Prop :=
  (1 <= rd_fuel r)%nat /\ (forall f, rd_busy r f = false) /\ responsive s (rd_ext r) /\ 16386 <= Z.of_nat (rd_calls r).

Section Move.
Variable P : Z.
Hypothesis HP : part_size P.
Variable EXT : bool.
Notation A := arch_esp32.
Notation rtrun := (rtrun P A EXT).
Notation rserved := (rserved P A EXT).
Lemma rounds_served up pos m n cs s1 th stopped last : good A th -> conf_ok s1 -> own_pin (q_pin (tqueue th)) ->
  q_running (tqueue th) = false -> pend A (tqueue th) = [] ->
  tinv A m n cs (s1, th) -> carries A EXT up cs pos (s1, th) -> keeps_going A EXT (s1, th) ->
  forall rs, Forall (round_ok s1) rs -> exists y, rtrun (flat_map (round_tasks P) rs) (s1, r_begin stopped last th) = Some y
    /\ rserved (flat_map (round_tasks P) rs) (s1, r_begin stopped last th)
    /\ q_running (r_q (g_r (rq_s (snd y)))) = false /\ pend A (r_q (g_r (rq_s (snd y)))) = [].
Proof.
  intros Hg Hs Ho Hr Hp HI Hc Hk. pose proof (begin_Rel P up stopped last th Hg Ho Hr Hp) as HR.
  assert (TOT : forall tasks, exists y, rtrun tasks (s1, r_begin stopped last th) = Some y).
  { intros tasks. destruct (rtrun tasks (s1, r_begin stopped last th)) as [y|] eqn:E; [eauto|].
    destruct (tasks_none P A EXT HP HE _ up _ tasks s1 _ th HR Hs E) as [l' T].
    destruct (Hc l') as (y & _ & _ & _ & T2 & _). congruence. }
  induction rs as [|r rs IH] using rev_ind; intros HF.
  { exists (s1, r_begin stopped last th). split; [reflexivity|]. split; [exact I|]. split; [exact Hr|exact Hp]. }
  apply Forall_app in HF as [HF1 HF2]. destruct (IH HF1) as (y & E1 & S1 & Q1 & Q2). clear IH.
  destruct (Forall_inv HF2) as (F1 & F2 & F3 & F4). rewrite flat_map_app. cbn [flat_map]. rewrite app_nil_r.
  set (l := flat_map (round_tasks P) rs) in *.
  set (e := RFill (rd_ext r) (rd_busy r) (rd_fuel r) (rd_old r) (rd_ws r)).
  set (i := repeat (REncode P) (rd_calls r) ++ [RDone]).
  change (round_tasks P r) with [e; RInts i].
  assert (SV : rserved_task A (fst y) (snd y) e).
  { destruct (sim_tasks P A EXT HP HE _ up _ l s1 _ th y HR Hs E1) as (l' & th' & T & _ & _ & _).
    destruct (trun_ok A EXT HE m l' n cs (s1, th) HI) as (y' & k' & d & rst & w & T' & TN). rewrite T in T'. injection T' as <-.
    pose proof (tn_like _ _ _ _ _ _ _ _ _ _ TN) as LK. destruct LK. cbn [fst] in *.
    cbn [rserved_task e]. splits; auto. unfold responsive in *. rewrite lk_low, lk_high. exact F3. }
  assert (SA : rserved (l ++ [e; RInts i]) (s1, r_begin stopped last th)).
  { apply rserved_app; [exact S1|]. intros y' E'. rewrite E1 in E'. injection E' as <-.
    split; [exact SV|]. intros z Ez. split; [exact I|]. intros; exact I. }
  destruct (TOT (l ++ [e])) as [y1 E2].
  assert (SB : rserved (l ++ [e]) (s1, r_begin stopped last th)).
  { apply rserved_app; [exact S1|]. intros y' E'. rewrite E1 in E'. injection E' as <-.
    split; [exact SV|]. intros z Ez. exact I. }
  destruct (sim_tasks P A EXT HP HE _ up _ (l ++ [e]) s1 _ th y1 HR Hs E2) as (l1 & th1 & T1 & R1 & _ & RS).
  destruct (RS SB) as [_ RD]. destruct R1 as (RL & PC & _ & _).
  assert (GO : pend A (r_q (g_r (rq_s (snd y1)))) = [] \/ q_running (r_q (g_r (rq_s (snd y1)))) = true).
  { pose proof (proj1 (rl_q _ _ _ _ RL)) as Q. destruct (Hk l1 _ RD T1) as [K|K]; [left|right].
    - apply pend_nil. apply pend_nil in K. rewrite Q. exact K.
    - rewrite Q. exact K. }
  destruct (drained5 P A EXT HP HE _ (rd_calls r) _ _ RL GO F4) as [D1 D2]. fold i in D1, D2.
  destruct y1 as [s2 t2]. cbn [fst snd] in *.
  exists (s2, mkRq (rints P A EXT i (rq_s t2)) (rq_p t2) (rq_w t2)). splits; auto.
  change [e; RInts i] with ([e] ++ [RInts i]). rewrite app_assoc, rtrun_app, E2. reflexivity.
Qed.
Lemma rounds_passes rs : rpasses (flat_map (round_tasks P) rs) = length rs.
Proof. induction rs as [|r rs IH]; [reflexivity|]. cbn [flat_map]. rewrite rpasses_app, IH. reflexivity. Qed.
(** The end of a move *)
Definition ended (n pos : Z) (y : stepper * rq) : Prop :=
  let r := rq_s (snd y) in isRampGeneratorActive (s_rg (fst y)) = false /\ q_running (r_q (g_r r)) = false
  /\ pend A (r_q (g_r r)) = [] /\ sum_edges (g_log r) = n /\ (forall done_p, getCurrentPosition A done_p (r_q (g_r r)) = pos).
Lemma rounds_end up pos m n cs s1 th stopped last : good A th -> conf_ok s1 -> own_pin (q_pin (tqueue th)) ->
  q_running (tqueue th) = false -> pend A (tqueue th) = [] -> Forall (valid_cmd A) cs -> Forall (moves_only up) cs ->
  tinv A m n cs (s1, th) -> carries A EXT up cs pos (s1, th) -> completes A EXT n (s1, th) -> keeps_going A EXT (s1, th) ->
  forall rs, Forall (round_ok s1) rs -> (n <= length rs)%nat ->
  exists y, rtrun (flat_map (round_tasks P) rs) (s1, r_begin stopped last th) = Some y /\ ended (total_steps cs) pos y.
Proof.
  intros Hg Hs Ho Hr Hp Hv Hm HI Hc Hn Hk rs HF HL.
  destruct (rounds_served up pos m n cs s1 th stopped last Hg Hs Ho Hr Hp HI Hc Hk rs HF) as (y & E & S & Q1 & Q2).
  pose proof (begin_Rel P up stopped last th Hg Ho Hr Hp) as HR.
  destruct (sim_tasks P A EXT HP HE _ up _ _ s1 _ th y HR Hs E) as (l' & th' & T & _ & NP & RS).
  destruct (RS S) as [SV _].
  destruct (Hn l' SV) as (y' & T' & AC). { rewrite NP, rounds_passes. exact HL. }
  rewrite T in T'. injection T' as <-. cbn [fst] in AC.
  destruct (rmt_seen P HP EXT up (total_steps cs) pos cs None s1 th stopped last Hg Hs Ho Hr Hp eq_refl Hv Hm Hc) with (tasks := flat_map (round_tasks P) rs)
    as (y2 & E2 & SM); [discriminate|].
  rewrite E in E2. injection E2 as <-. destruct SM as (_ & _ & _ & SM). destruct (SM AC Q2) as (K1 & K2 & _).
  exists y. split; [exact E|]. unfold ended. cbv zeta. auto.
Qed.
Lemma moveTo_ends garbage p ep m s0 evs a M pos : conf_ok s0 -> Forall fev_ok evs -> -2147483648 <= pos < 2147483648 ->
  let x := frun A EXT evs (rdinit EXT garbage p ep m s0) in
  let q := fqueue x in
  let d := i32 (pos - qe_pos (q_end q)) in
  own_pin (q_pin q) -> q_running q = false -> pend A q = [] -> ready_to_move A (fst x) q a M d ->
  conf24 A (fst x) -> distinct_pins (fst x) ->
  exists s1 cs n, s_moveTo pos (fst x) q = (s1, MOVE_OK) /\ total_steps cs = Z.abs d /\ (n <= S (length cs))%nat /\
  forall stopped last rs, Forall (round_ok (fst x)) rs -> (n <= length rs)%nat ->
  exists y, rtrun (flat_map (round_tasks P) rs) (s1, r_begin stopped last (snd x)) = Some y /\ ended (Z.abs d) pos y.
Proof.
  intros Hc He Hpos x q d Ho Hr Hp Hrd H24 Hdi.
  destruct (rdinit_good EXT garbage p ep m s0 evs Hc He) as [Hg Hcf]. fold x in Hg, Hcf.
  destruct (moveTo_planned A EXT HE _ _ a M Hg pos Hpos Hrd) as (s1 & cs & n & H1 & H2 & H3 & H4 & H5 & (H6 & HN & _) & H7 & H8 & H9).
  destruct (moveTo_keeps _ _ _ _ _ H1) as (g & Eg).
  exists s1, cs, n. split; [exact H1|]. split; [exact H2|]. split; [exact HN|]. intros stopped last rs HF HL.
  assert (TS : total_steps cs = Z.abs d) by exact H2. rewrite <- TS.
  apply (rounds_end (0 <? d) pos (q_max (tqueue (snd x))) n cs s1 (snd x) stopped last); auto.
  - rewrite Eg. exact Hcf.
  - rewrite Eg. exact HF.
Qed.
Lemma move_ends garbage p ep m s0 evs a M delta : conf_ok s0 -> Forall fev_ok evs ->
  -2147483648 <= delta < 2147483648 -> delta <> 0 ->
  let x := frun A EXT evs (rdinit EXT garbage p ep m s0) in
  let q := fqueue x in
  let g := s_rg (fst x) in
  let target := i32 (base_target g (q_end q) + pending_move g + delta) in
  let d := i32 (target - qe_pos (q_end q)) in
  own_pin (q_pin q) -> q_running q = false -> pend A q = [] -> ready_to_move A (fst x) q a M d ->
  (s_dirpin (fst x) = PIN_UNDEFINED -> 0 <= delta) ->
  conf24 A (fst x) -> distinct_pins (fst x) ->
  exists s1 cs n, s_move delta (fst x) = (s1, MOVE_OK) /\ total_steps cs = Z.abs d /\ (n <= S (length cs))%nat /\
  forall stopped last rs, Forall (round_ok (fst x)) rs -> (n <= length rs)%nat ->
  exists y, rtrun (flat_map (round_tasks P) rs) (s1, r_begin stopped last (snd x)) = Some y /\ ended (Z.abs d) target y.
Proof.
  intros Hc He Hd0 Hd1 x q g target d Ho Hr Hp Hrd Hdir H24 Hdi.
  destruct (rdinit_good EXT garbage p ep m s0 evs Hc He) as [Hg Hcf]. fold x in Hg, Hcf.
  destruct (move_planned A EXT HE _ _ a M Hg delta Hd0 Hd1 Hrd Hdir) as (s1 & cs & n & H1 & H2 & H3 & H4 & H5 & (H6 & HN & _) & H7 & H8 & H9).
  destruct (move_keeps _ _ _ _ H1) as (g1 & Eg).
  exists s1, cs, n. split; [exact H1|]. split; [exact H2|]. split; [exact HN|]. intros stopped last rs HF HL.
  assert (TS : total_steps cs = Z.abs d) by exact H2. rewrite <- TS.
  apply (rounds_end (0 <? d) target (q_max (tqueue (snd x))) n cs s1 (snd x) stopped last); auto.
  - rewrite Eg. exact Hcf.
  - rewrite Eg. exact HF.
Qed.
End Move.

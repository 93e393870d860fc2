(** * RmtStack: front end, queue and RMT driver (ESP-IDF 5) together

    The front end of Stepper.v (addQueueEntry, fill_queue) on the queue of the RMT driver
    (Rmt.v): from the commands of the ramp generator to the symbols of the transmitter. *)
From Coq Require Import ZArith Bool List Lia ZifyBool.
From Verif Require Import Base RampCalc RampGen RampStep RampRun RampMove RampSafe RampAcc RampUser RampPlan Queue QueueFacts QueuePos QueueHist QueueProp Stepper StepperHist FrontHist FrontProp FrontFill FrontTask FrontStart FrontMove FrontPause AccessSim StackSim Rmt RmtFacts RmtHist RmtCount.
Import ListNotations.
Open Scope Z_scope.
Ltac Zify.zify_post_hook ::= idtac.
Local Ltac splits := repeat match goal with |- _ /\ _ => split end.

(** Circumstances of one call of the queue's addQueueEntry: calls of the encoder and of
    queue_done() before the call, before the critical section, and before the test
    whether the queue is to be started *)
Record rweather := mkRwe { z_i0 : list revent; z_i1 : list revent; z_i2 : list revent }.
(** The driver, the levels of the enable pins, the circumstances of the coming calls (none
    left: no interrupt) *)
Record rq := mkRq { rq_s : rst; rq_p : pins; rq_w : list rweather }.

Definition rint (ev : revent) : bool := match ev with REncode _ | RDone => true | _ => false end.

Section Part.
Variable P : Z.
Variable A : arch.
Variable EXT : bool.
Notation step := (rstep P A EXT).
Definition rints (l : list revent) (s : rst) : rst := rrun P A EXT (filter rint l) s.
Definition rw1 (t : rq) : rweather := match rq_w t with [] => mkRwe [] [] [] | x :: _ => x end.
(** q->addQueueEntry(&c, start): src/StepperISR.cpp:6-110 *)
Definition r_add (c : command) (start : bool) (t : rq) : rq * Z :=
  let x := rw1 t in
  let s0 := rints (z_i0 x) (rq_s t) in
  let s2 := rints (z_i1 x) (step (RBegin c start) s0) in
  let s4 := rints (z_i2 x) (step RCommit s2) in
  (mkRq (step RStart s4) (rq_p t) (tl (rq_w t)),
   let code := add_check A (ready_rmt (g_r s0)) c (r_q (g_r s0)) in
   if code =? AQE_OK
   then match g_pc s2 with
        | Prepared _ ne _ => snd (add_commit (ready_rmt (g_r s2)) ne (r_q (g_r s2)))
        | _ => AQE_OK
        end
   else code).
(** q->addQueueEntry(NULL, start) *)
Definition r_null (start : bool) (t : rq) : rq * Z :=
  let x := rw1 t in
  let s0 := rints (z_i0 x) (rq_s t) in
  (mkRq (if start then step RAddNull s0 else s0) (rq_p t) (tl (rq_w t)),
   a_code (q_add_null (ready_rmt (g_r s0)) start (r_q (g_r s0)) (r_pins (g_r s0)))).
Definition racc : access rq := {|
  t_q := fun t => r_q (g_r (rq_s t));
  t_pins := rq_p;
  t_setpins := fun p t => mkRq (rq_s t) p (rq_w t);
  t_ignore := fun b t => mkRq (step (RIgnore b) (rq_s t)) (rq_p t) (rq_w t);
  t_add := r_add;
  t_null := r_null
|}.

(** ** Background task and interrupts, as in FrontTask.v *)
Inductive rtask :=
| RFill (ext : extcall) (busy : nat -> bool) (fuel : nat) (old : next_command) (ws : list rweather)
| RInts (l : list revent)
| RTick (ext : extcall).
Definition rset_w (ws : list rweather) (t : rq) : rq := mkRq (rq_s t) (rq_p t) ws.
Definition rtstep (e : rtask) (x : stepper * rq) : option (stepper * rq) :=
  let '(s, t) := x in
  match e with
  | RFill ext busy fuel old ws => fill_queue A rq racc ext busy fuel old s (rset_w ws t)
  | RInts l => Some (s, mkRq (rints l (rq_s t)) (rq_p t) (rq_w t))
  | RTick ext =>
    let r := tick ext s (r_q (g_r (rq_s t))) (rq_p t) in Some (fst r, t_setpins rq racc (snd r) t)
  end.
Fixpoint rtrun (l : list rtask) (x : stepper * rq) : option (stepper * rq) :=
  match l with
  | [] => Some x
  | e :: l' => match rtstep e x with None => None | Some y => rtrun l' y end
  end.

Hypothesis HP : part_size P.
Hypothesis HA : In A all_archs.
Notation L := (QUEUE_LEN A).
Notation X := (hacc A EXT).

(** no start of an empty queue *)
Definition favourable (s : rst) : bool :=
  match g_pc s with
  | Committed st => if add_starts st (r_q (g_r s)) then nonempty (r_q (g_r s)) else true
  | _ => true
  end.

(** ** Entries do not repeat with a direction pin of the microcontroller *)
Definition norep (s : hst) : Prop := own_pin (q_pin (h_q s)) /\
  Forall (fun e => e_repeat e = false) (pend A (h_q s)) /\
  match h_pc s with
  | Prepared _ _ _ => e_repeat (q_ent (h_q s) (slot A (q_wr (h_q s)))) = false
  | _ => True
  end.
Lemma norep_start s : norep s -> norep (start_head A s).
Proof. intros H. unfold start_head. destruct (_ && _); exact H. Qed.
Lemma norep_isr s ev : inv A s -> isr_ev ev = true -> norep s -> norep (hstep A EXT ev s).
Proof.
  intros Hi He (Hp & Hr & Hq). pose proof (iv_wf A s Hi) as Hw. destruct ev; try discriminate; cbn [hstep].
  - destruct (nonempty (h_q s)) eqn:En; cbn [andb]; [|now split].
    destruct (_ && _); [|now split]. split; [exact Hp|]. cbn [h_q h_pc].
    pose proof (proj1 (nonempty_iff _) En) as Hn. rewrite (pend_pop A HA _ Hw Hn) in Hr.
    change (q_wr (q_dec A k (h_q s))) with (q_wr (h_q s)).
    match goal with |- context [q_dec A k ?q] =>
      change (q_dec A k q) with (set_head A (mkEntry (u8 (e_steps (head A q) - k)) (e_toggle (head A q))
        (e_up (head A q)) (e_more (head A q)) (e_has (head A q)) (e_repeat (head A q))
        (e_dirstate (head A q)) (e_ticks (head A q)) (e_pos16 (head A q))) q) end.
    split.
    + rewrite (pend_set_head A HA _ _ Hw Hn). inversion Hr; subst. constructor; assumption.
    + pose proof (iv_prep A s Hi) as Hpr. destruct (h_pc s); auto.
      rewrite free_set_head; [exact Hq|exact HA|exact Hw|exact Hn|apply Hpr].
  - destruct (nonempty (h_q s)) eqn:En; cbn [andb]; [|now split].
    destruct (_ && _); [|now split]. apply norep_start. split; [exact Hp|]. cbn [h_q h_pc].
    split; [|exact Hq].
    rewrite (pend_pop A HA) in Hr; [|exact Hw|apply nonempty_iff; assumption]. now inversion Hr.
  - destruct (_ && _); [apply norep_start|]; now split.
  - destruct (_ && _); now split.
Qed.
Lemma norep_isrs : forall l s, inv A s -> norep s -> norep (isr A EXT l s).
Proof.
  unfold isr. induction l as [|ev l IH]; intros s Hi H; cbn [filter]; [exact H|].
  destruct (isr_ev ev) eqn:E; [|now apply IH]. cbn [hrun]. apply IH; [|now apply norep_isr].
  apply inv_step; auto. destruct ev; try discriminate; exact I.
Qed.
Lemma norep_begin s c start ready : inv A s -> norep s -> norep (hstep A EXT (EBegin c start ready) s).
Proof.
  intros Hi H. pose proof H as (Hp & Hr & Hq). cbn [hstep]. destruct (h_pc s) eqn:Epc; auto.
  destruct (Z.eqb_spec (add_check A ready c (h_q s)) AQE_OK) as [E|E]; [|now split].
  apply check_ok in E. destruct E as (_ & Hnf & _).
  assert (Hlt : queueEntries (h_q s) < L) by (destruct (iv_wf A s Hi) as (_ & _ & ?); lia).
  destruct (prepare_spec A HA EXT c (h_q s) (h_pins s) (iv_wf A s Hi) Hlt) as (S1 & S2 & S3 & S4 & S5 & S6 & S7 & S8 & _).
  unfold norep. cbn [h_q h_pc]. rewrite S2, S6, S7, S8. splits; auto.
  unfold new_entry. cbn [e_repeat]. unfold to_repeat. destruct Hp as [Hp|Hp].
  - unfold dir_differs. rewrite Hp, Z.eqb_refl. cbn [negb andb]. now rewrite andb_false_r.
  - rewrite Hp. apply andb_false_r.
Qed.
Lemma norep_commit s ready : inv A s -> norep s -> norep (hstep A EXT (ECommit ready) s).
Proof.
  intros Hi H. pose proof H as (Hp & Hr & Hq). pose proof (iv_prep A s Hi) as Hpr.
  cbn [hstep]. destruct (h_pc s) as [|c ne st|] eqn:Epc; auto.
  unfold norep. cbn [h_q h_pc]. unfold add_commit. destruct (q_ignore (h_q s)); cbn [fst snd].
  { splits; auto. now destruct (_ =? _). }
  destruct ready; cbn [fst snd].
  2:{ splits; auto. now destruct (_ =? _). }
  split; [exact Hp|]. split; [|now destruct (_ =? _)].
  rewrite pend_commit; [|exact HA|apply (iv_wf A s Hi)|apply Hpr].
  apply Forall_app. split; [exact Hr|]. constructor; [exact Hq|constructor].
Qed.
Lemma norep_rest s ev : match ev with EStartQ | EAddNull _ _ | EIgnore _ => True | _ => False end ->
  norep s -> norep (hstep A EXT ev s).
Proof.
  intros He H. pose proof H as (Hp & Hr & Hq). destruct ev; try contradiction; cbn [hstep].
  - destruct (h_pc s) eqn:Epc; auto. destruct (add_starts _ _); [apply norep_start|]; now split.
  - destruct (_ && _); auto. now apply norep_start.
  - exact H.
Qed.

(** ** The driver and the queue history *)
(** the same but for the requests to toggle the pin *)
Definition qsim (q q' : queue) : Prop :=
  q = set_ent (q_ent q) q' /\ forall i, untoggle (q_ent q i) = untoggle (q_ent q' i).
Lemma ent_ent E F q q' : q = set_ent F q' -> set_ent E q = set_ent E q'.
Proof. intros ->. reflexivity. Qed.
Lemma qsim_refl q : qsim q q.
Proof. split; [destruct q; reflexivity|reflexivity]. Qed.
Lemma untoggle_eq e e' : untoggle e = untoggle e' ->
  e_steps e = e_steps e' /\ e_ticks e = e_ticks e' /\ e_repeat e = e_repeat e' /\ e_up e = e_up e' /\ e_more e = e_more e' /\
  e_has e = e_has e' /\ e_dirstate e = e_dirstate e' /\ e_pos16 e = e_pos16 e'.
Proof. destruct e, e'. unfold untoggle. cbn. intros H. injection H as -> -> -> -> -> -> -> ->. splits; reflexivity. Qed.
Lemma qsim_head q q' : qsim q q' -> untoggle (head A q) = untoggle (head A q').
Proof. intros [E H]. unfold head. rewrite H. f_equal. f_equal. rewrite E. reflexivity. Qed.
Lemma qsim_toggle r q' : qsim (r_q r) q' -> qsim (r_q (toggle_first A r)) q'.
Proof.
  intros H. pose proof (qsim_head _ _ H) as Hh. destruct H as [E H]. unfold toggle_first. destruct (e_toggle _); [|now split].
  cbn [r_q set_first]. split.
  - unfold set_first. cbn [q_ent set_ent]. exact (ent_ent _ _ _ _ E).
  - intros i. cbn [set_first set_ent q_ent]. unfold upd. destruct (Z.eqb_spec i (slot A (q_rd (r_q r)))) as [->|_]; [|apply H].
    transitivity (untoggle (head A (r_q r))); [destruct (head A (r_q r)); reflexivity|]. unfold head. apply H.
Qed.
Lemma qsim_ticks q q' : qsim q q' -> ticksInQueue A q = ticksInQueue A q'.
Proof.
  intros [E H]. unfold ticksInQueue. 
  replace (q_wr q) with (q_wr q') by (rewrite E; reflexivity). replace (q_rd q) with (q_rd q') by (rewrite E; reflexivity).
  destruct (q_wr q' =? q_rd q'); [reflexivity|].
  assert (G : forall n rp z, ticks_loop A q n rp z = ticks_loop A q' n rp z); [|apply G].
  induction n as [|n IH]; intros rp z; cbn [ticks_loop]; [reflexivity|].
  destruct (untoggle_eq _ _ (H (slot A rp))) as (-> & -> & _). apply IH.
Qed.

(** the commands accepted before *)
Variable ACC0 : list command.
Record rel (s : rst) (h : hst) : Prop := mkRel {
  rl_r : rinv A s;
  rl_h : inv A h;
  rl_n : norep h;
  rl_q : qsim (r_q (g_r s)) (h_q h);
  rl_pc : g_pc s = h_pc h;
  rl_stop : q_running (r_q (g_r s)) = true -> r_stopped (g_r s) = true -> nonempty (r_q (g_r s)) = false;
  rl_acc : h_acc h = ACC0 ++ g_acc s
}.
Lemma isr_nil h : isr A EXT [] h = h.
Proof. reflexivity. Qed.
Lemma isr_app l1 l2 h : isr A EXT (l1 ++ l2) h = isr A EXT l2 (isr A EXT l1 h).
Proof.
  unfold isr. rewrite filter_app. generalize (filter isr_ev l2) as b. clear l2.
  revert h. induction (filter isr_ev l1) as [|e a IH]; intros h b; cbn [app hrun]; auto.
Qed.
Lemma resume h : nonempty (h_q h) = true -> q_running (h_q h) = true ->
  h_q (hstep A EXT EResume h) = h_q h /\ h_started (hstep A EXT EResume h) = true.
Proof.
  intros H1 H2. cbn [hstep]. rewrite H1, H2. cbn [andb]. unfold start_head. rewrite H1. cbn [andb].
  destruct (h_started h) eqn:E; cbn [negb h_q h_started]; auto.
Qed.
Lemma part_le s t : 0 <= s < 256 -> 0 <= snd (part P s t) <= s.
Proof.
  intros Hs. unfold part. destruct (Z.eqb_spec s 0) as [->|H0]; [cbn; lia|]. unfold steps_part.
  assert (U : forall x, 0 <= x <= s -> 0 <= u8 x <= s) by (intros x Hx; unfold u8; rewrite Z.mod_small; lia).
  assert (HP' : 24 <= P <= 32) by (destruct HP; lia).
  destruct (t =? 65535).
  - destruct (Z.ltb_spec s (P / 2)); cbn [snd]; [lia|]. apply U. assert (0 <= P / 2) by (apply Z.div_pos; lia). lia.
  - destruct (Z.ltb_spec s (2 * P)); cbn [andb].
    + destruct (Z.eqb_spec s P); cbn [negb snd]; [apply U; lia|].
      apply U. destruct (Z.gtb_spec s P); [|lia]. assert (0 <= s / 2 <= s) by (split; [apply Z.div_pos; lia|apply Z.div_le_upper_bound; lia]). lia.
    + cbn [snd]. apply U. lia.
Qed.
Lemma sh_q h : h_q (start_head A h) = h_q h.
Proof. unfold start_head. destruct (_ && _); reflexivity. Qed.
(** an interrupt *)
Lemma rel_int ev s h : rel s h -> rint ev = true -> exists l, rel (step ev s) (isr A EXT l h).
Proof.
  intros HR He. pose proof HR as [R1 R2 R3 R4 R5 R6 R7].
  assert (RI : rinv A (step ev s)) by (apply rinv_step; auto; destruct ev; try discriminate; exact I).
  assert (KEEP : forall l s', rinv A s' -> qsim (r_q (g_r s')) (h_q (isr A EXT l h)) -> g_pc s' = g_pc s -> g_acc s' = g_acc s ->
    (q_running (r_q (g_r s')) = true -> r_stopped (g_r s') = true -> nonempty (r_q (g_r s')) = false) -> rel s' (isr A EXT l h)).
  { intros l s' K1 K2 K3 K4 K5. destruct (isr_kept A EXT HA l h R2) as [I' K].
    constructor; auto; [now apply norep_isrs|rewrite K3, (k_pc _ _ K); exact R5|rewrite K4, (k_acc _ _ K); exact R7]. }
  pose proof R4 as [E4 S4].
  assert (Qr : q_running (r_q (g_r s)) = q_running (h_q h)) by (rewrite E4; reflexivity).
  assert (Qn : nonempty (r_q (g_r s)) = nonempty (h_q h)) by (rewrite E4; reflexivity).
  destruct ev; try discriminate; revert RI; cbn [rstep].
  - destruct (q_running (r_q (g_r s))) eqn:Er; [|exists []; exact HR].
    set (r := g_r s) in *.
    assert (STAY : forall r' b lg, r_q r' = r_q r -> (r_stopped r' = true -> nonempty (r_q r) = false) ->
      rinv A (mkR r' (g_pc s) b (g_acc s) lg) -> exists l, rel (mkR r' (g_pc s) b (g_acc s) lg) (isr A EXT l h)).
    { intros r' b lg K1 K2 K3. exists []. apply KEEP; auto; cbn [g_r]; rewrite K1; auto. }
    unfold call_of. fold r. unfold encode. destruct (free <? P).
    { cbn [fst snd]. intros RI. apply STAY; auto. }
    destruct (r_stopped r) eqn:Est; cbn [fst snd].
    { intros RI. apply STAY; auto. }
    rewrite (empty_rd A) by apply R1. fold r.
    destruct (nonempty (r_q r)) eqn:En; cbn [negb].
    2:{ cbn [fst snd r_q r_pins]. destruct (short_part P (MIN_CMD_TICKS A)); intros RI; apply STAY; auto. }
    destruct (e_toggle (head A (r_q r)) && r_last r).
    { cbn [fst snd r_q r_pins]. destruct (short_part P (MIN_CMD_TICKS A)); intros RI; apply STAY; auto; cbn; congruence. }
    pose proof (qsim_toggle r _ R4) as T4.
    assert (Tr : q_running (r_q (toggle_first A r)) = true /\ r_stopped (toggle_first A r) = false).
    { unfold toggle_first. destruct (e_toggle _); cbn; auto. }
    set (r1 := toggle_first A r) in *. clearbody r1. destruct Tr as [Tr Ts].
    unfold encode_first.
    destruct (untoggle_eq _ _ (qsim_head _ _ T4)) as (H1 & H2 & H3 & H4 & H5 & H6 & H7 & H8).
    destruct R3 as (N1 & N2 & N3).
    pose proof (pend_pop A HA _ (iv_wf A h R2) (proj1 (nonempty_iff _) (eq_sym Qn))) as Hpp.
    assert (Hrep : e_repeat (head A (h_q h)) = false) by (rewrite Hpp in N2; now inversion N2).
    assert (Hent : ent_ok (head A (h_q h))).
    { pose proof (iv_ent A h R2) as K. rewrite Hpp in K. now inversion K. }
    destruct Hent as [He1 He2].
    pose proof (part_le (e_steps (head A (r_q r1))) (e_ticks (head A (r_q r1)))) as PL. rewrite H1 in PL. specialize (PL He2).
    pose proof (part_words P (e_steps (head A (r_q r1))) (e_ticks (head A (r_q r1)))) as Hw.
    rewrite H1, H2 in *. rewrite H3, Hrep.
    destruct (part P (e_steps (head A (h_q h))) (e_ticks (head A (h_q h)))) as [ws left]. cbn [fst snd] in *.
    destruct ws as [|w ws]; [congruence|]. clear Hw. cbn [r_q r_pins fst snd].
    pose proof T4 as [T5 T6].
    destruct (resume h (eq_sym Qn) (eq_sym Qr)) as [D1 D2].
    destruct (Z.eqb_spec left 0) as [->|Hl].
    + intros RI. exists [EResume; EPop]. apply KEEP; auto.
      * unfold isr. cbn [filter isr_ev hrun]. cbn [hstep] in D1, D2. cbn [hstep]. rewrite D1, D2, <- Qn, <- Qr. cbn [andb].
        rewrite sh_q. cbn [h_q g_r r_q]. rewrite ?D1. split.
        -- rewrite T5 at 1. cbn [q_ent q_pop set_rd]. rewrite T5. reflexivity.
        -- intros i. apply T6.
      * cbn [g_r r_stopped]. congruence.
    + intros RI. exists [EResume; EDec (e_steps (head A (h_q h)) - left)]. apply KEEP; auto.
      * unfold isr. cbn [filter isr_ev hrun]. cbn [hstep] in D1, D2. cbn [hstep]. rewrite D1, D2, <- Qn, <- Qr. cbn [andb].
        replace (_ - left <=? _) with true by lia. rewrite andb_true_r. cbn [g_r r_q].
        assert (EQ : forall q2, q2 = h_q h \/ q2 = q_dec A (e_steps (head A (h_q h)) - left) (h_q h) ->
           (q2 = h_q h -> left = e_steps (head A (h_q h))) ->
           qsim (set_first A (with_steps left (head A (r_q r1))) (r_q r1)) q2).
        { intros q2 K1 K2. split.
          - unfold set_first. rewrite (ent_ent _ _ _ _ T5). destruct K1 as [->| ->]; reflexivity.
          - intros i. unfold set_first. cbn [set_ent q_ent]. unfold upd.
            replace (q_rd (r_q r1)) with (q_rd (h_q h)) by (rewrite T5; reflexivity).
            destruct (Z.eqb_spec i (slot A (q_rd (h_q h)))) as [->|K3].
            + destruct K1 as [K1|K1].
              * rewrite K1. rewrite (K2 K1). change (q_ent (h_q h) (slot A (q_rd (h_q h)))) with (head A (h_q h)).
                rewrite <- (qsim_head _ _ T4). rewrite <- H1. destruct (head A (r_q r1)); reflexivity.
              * rewrite K1. unfold q_dec. cbn [set_ent q_ent]. unfold upd. rewrite Z.eqb_refl.
                unfold untoggle, with_steps. cbn [e_steps e_toggle e_up e_more e_has e_repeat e_dirstate e_ticks e_pos16].
                rewrite H2, H3, H4, H5, H6, H7, H8. f_equal. unfold u8. rewrite Z.mod_small; lia.
            + destruct K1 as [->| ->]; [apply T6|]. unfold q_dec. cbn [set_ent q_ent]. unfold upd.
              destruct (Z.eqb_spec i (slot A (q_rd (h_q h)))); [contradiction|apply T6]. }
        destruct (Z.ltb_spec 0 (e_steps (head A (h_q h)) - left)); cbn [h_q].
        -- apply EQ; [now right|]. intros K. exfalso.
           assert (KK : e_steps (head A (q_dec A (e_steps (head A (h_q h)) - left) (h_q h))) = left).
           { unfold head at 1. unfold q_dec. cbn [set_ent q_ent q_rd]. unfold upd. rewrite Z.eqb_refl. cbn [e_steps]. unfold u8. rewrite Z.mod_small; lia. }
           rewrite K in KK. lia.
        -- rewrite sh_q. apply EQ; [now left|]. lia.
      * cbn [g_r r_stopped]. congruence.
  - destruct (q_running (r_q (g_r s)) && r_stopped (g_r s)) eqn:Ec; [|exists []; exact HR].
    intros RI. exists [EStop]. apply andb_true_iff in Ec as [C1 C2].
    apply KEEP; auto.
    unfold isr. cbn [filter isr_ev hrun hstep]. rewrite <- Qn, (R6 C1 C2), <- Qr, C1. cbn [negb andb done_rmt g_r r_q with_q h_q].
    split; [rewrite E4 at 1; reflexivity|]. exact S4.
Qed.
Lemma rel_ints : forall l s h, rel s h -> exists l', rel (rints l s) (isr A EXT l' h).
Proof.
  unfold rints. induction l as [|ev l IH]; intros s h H; cbn [filter]; [exists []; exact H|].
  destruct (rint ev) eqn:E; [|now apply IH]. cbn [rrun].
  destruct (rel_int ev s h H E) as [l1 H1]. destruct (IH _ _ H1) as [l2 H2].
  exists (l1 ++ l2). rewrite isr_app. exact H2.
Qed.
Lemma rel_begin c start s h : rel s h -> cmd_ok c ->
  rel (step (RBegin c start) s) (hstep A EXT (EBegin c start (ready_rmt (g_r s))) h)
  /\ add_check A (ready_rmt (g_r s)) c (r_q (g_r s)) = add_check A (ready_rmt (g_r s)) c (h_q h)
  /\ (add_check A (ready_rmt (g_r s)) c (h_q h) <> AQE_OK -> g_pc s = Free ->
      last_code (hstep A EXT (EBegin c start (ready_rmt (g_r s))) h) = add_check A (ready_rmt (g_r s)) c (h_q h)
      /\ g_pc (step (RBegin c start) s) = Free)
  /\ (add_check A (ready_rmt (g_r s)) c (h_q h) = AQE_OK -> g_pc s = Free ->
      exists ne, g_pc (step (RBegin c start) s) = Prepared c ne start).
Proof.
  intros HR Hc. pose proof HR as [R1 R2 R3 R4 R5 R6 R7]. pose proof R4 as [E4 S4].
  set (rd := ready_rmt (g_r s)).
  assert (RI : rinv A (step (RBegin c start) s)) by (apply rinv_step; auto).
  assert (HI : inv A (hstep A EXT (EBegin c start rd) h)) by (apply inv_step; auto).
  pose proof (norep_begin h c start rd R2 R3) as HN.
  assert (EC : add_check A rd c (r_q (g_r s)) = add_check A rd c (h_q h)) by (rewrite E4; reflexivity).
  split; [|split; [exact EC|]].
  - revert RI HI HN. cbn [rstep hstep]. fold rd. rewrite EC. destruct (g_pc s) eqn:Epc; rewrite <- R5; [|intros; exact HR|intros; exact HR].
    destruct (add_check A rd c (h_q h) =? AQE_OK) eqn:Ek.
    2:{ intros RI HI HN. constructor; auto. }
    intros RI HI HN. constructor; auto.
    + cbn [g_r r_q h_q]. unfold add_prepare.
      replace (direct_dir (r_q (g_r s))) with (direct_dir (h_q h)) by (rewrite E4; reflexivity).
      assert (EN : new_entry A EXT c (r_q (g_r s)) = new_entry A EXT c (h_q h)) by (rewrite E4; reflexivity).
      assert (QS : qsim (set_ent (upd (q_ent (r_q (g_r s))) (slot A (q_wr (r_q (g_r s)))) (new_entry A EXT c (r_q (g_r s)))) (r_q (g_r s)))
        (set_ent (upd (q_ent (h_q h)) (slot A (q_wr (h_q h))) (new_entry A EXT c (h_q h))) (h_q h))).
      { split.
        - cbn [set_ent q_ent]. rewrite (ent_ent _ _ _ _ E4). reflexivity.
        - intros i. cbn [set_ent q_ent]. rewrite EN. unfold upd.
          replace (q_wr (r_q (g_r s))) with (q_wr (h_q h)) by (rewrite E4; reflexivity).
          destruct (i =? slot A (q_wr (h_q h))); [reflexivity|apply S4]. }
      destruct (direct_dir (h_q h)); cbn [fst]; [|exact QS].
      destruct QS as [Q1 Q2]. split; [|exact Q2].
      match goal with |- set_end ?a ?x = set_ent _ (set_end ?b ?y) => 
        transitivity (set_end b x); [f_equal; rewrite E4; reflexivity|] end.
      rewrite Q1 at 1. reflexivity.
    + cbn [g_pc h_pc]. f_equal. rewrite E4. reflexivity.
    + cbn [g_r r_q r_stopped]. intros K1 K2.
      assert (K3 : q_running (r_q (g_r s)) = true) by (revert K1; unfold add_prepare; destruct (direct_dir _); exact (fun x => x)).
      pose proof (R6 K3 K2) as K4. revert K4. unfold add_prepare. destruct (direct_dir _); exact (fun x => x).
  - cbn [rstep hstep]. fold rd. rewrite EC. split; intros K Hf; rewrite ?Hf, <- ?R5, ?Hf.
    + destruct (Z.eqb_spec (add_check A rd c (h_q h)) AQE_OK) as [Ek|Ek]; [contradiction|].
      split; [|exact Hf]. unfold last_code. cbn [h_res]. rewrite last_last. reflexivity.
    + rewrite K, Z.eqb_refl. cbn [g_pc]. eexists. reflexivity.
Qed.
Lemma rel_commit s h : rel s h ->
  rel (step RCommit s) (hstep A EXT (ECommit (ready_rmt (g_r s))) h)
  /\ match g_pc s with
     | Prepared _ ne _ => last_code (hstep A EXT (ECommit (ready_rmt (g_r s))) h) = snd (add_commit (ready_rmt (g_r s)) ne (r_q (g_r s)))
     | _ => hstep A EXT (ECommit (ready_rmt (g_r s))) h = h
     end.
Proof.
  intros HR. pose proof HR as [R1 R2 R3 R4 R5 R6 R7]. pose proof R4 as [E4 S4].
  set (rd := ready_rmt (g_r s)).
  assert (RI : rinv A (step RCommit s)) by (apply rinv_step; auto; exact I).
  assert (HI : inv A (hstep A EXT (ECommit rd) h)) by (apply inv_step; auto; exact I).
  pose proof (norep_commit h rd R2 R3) as HN.
  assert (EG : q_ignore (r_q (g_r s)) = q_ignore (h_q h)) by (rewrite E4; reflexivity).
  revert RI HI HN. cbn [rstep hstep]. fold rd. destruct (g_pc s) as [|c ne st|] eqn:Epc; rewrite <- R5; [split; auto| |split; auto].
  unfold add_commit. rewrite EG.
  intros RI HI HN. split.
  2:{ unfold last_code. cbn [h_res]. rewrite last_last. cbn [snd]. destruct (q_ignore (h_q h)); [reflexivity|destruct rd; reflexivity]. }
  constructor; auto; cbn [g_r with_rq r_q h_q g_acc h_acc g_pc h_pc r_stopped]; destruct (q_ignore (h_q h)) eqn:Ei; cbn [fst snd]; auto;
    destruct rd eqn:Erd; cbn [fst snd]; auto.
  - split; [|exact S4]. rewrite E4 at 1. cbn [q_ent set_end set_wr]. rewrite E4. reflexivity.
  - intros K1 K2. exfalso. unfold rd, ready_rmt in Erd. cbn [set_end set_wr q_running] in K1. rewrite K1, K2 in Erd. discriminate.
  - rewrite R7. now rewrite app_assoc.
Qed.
Lemma start_sim s h pc : rel s h -> (forall c ne st, g_pc s <> Prepared c ne st) -> nonempty (r_q (g_r s)) = true ->
  rinv A (start_g A s) -> inv A (start_head A (with_pc Free (with_q (set_running true (h_q h)) h))) -> 
  norep (start_head A (with_pc Free (with_q (set_running true (h_q h)) h))) -> pc = Free ->
  rel (start_g A s) (start_head A (with_pc pc (with_q (set_running true (h_q h)) h))).
Proof.
  intros HR Hp Hn RI HI HN ->. pose proof HR as [R1 R2 R3 R4 R5 R6 R7].
  assert (SH : h_pc (start_head A (with_pc Free (with_q (set_running true (h_q h)) h))) = Free /\
    h_acc (start_head A (with_pc Free (with_q (set_running true (h_q h)) h))) = h_acc h).
  { unfold start_head. destruct (_ && _); split; reflexivity. }
  constructor; auto; rewrite ?sh_q; unfold start_g, start_rmt; rewrite (empty_rd A) by apply R1; rewrite Hn; cbn [negb g_r r_q g_pc g_acc r_stopped].
  - destruct (qsim_toggle (g_r s) _ R4) as [T1 T2]. split; [rewrite T1 at 1; reflexivity|exact T2].
  - symmetry. apply SH.
  - discriminate.
  - rewrite (proj2 SH). exact R7.
Qed.
Lemma rel_start s h : rel s h -> favourable s = true -> (g_pc s = Free \/ exists st, g_pc s = Committed st) ->
  rel (step RStart s) (hstep A EXT EStartQ h) /\ g_pc (step RStart s) = Free /\ h_res (hstep A EXT EStartQ h) = h_res h.
Proof.
  intros HR Hf Hp. pose proof HR as [R1 R2 R3 R4 R5 R6 R7]. pose proof R4 as [E4 S4].
  assert (RI : rinv A (step RStart s)) by (apply rinv_step; auto; exact I).
  assert (HI : inv A (hstep A EXT EStartQ h)) by (apply inv_step; auto; exact I).
  pose proof (norep_rest h EStartQ I R3) as HN. unfold favourable in Hf.
  revert RI HI HN. cbn [rstep hstep]. destruct Hp as [Hp|[st Hp]]; rewrite Hp in *; rewrite <- R5; [splits; auto|].
  assert (ES : add_starts st (r_q (g_r s)) = add_starts st (h_q h)) by (rewrite E4; reflexivity). rewrite ES in *.
  destruct (add_starts st (h_q h)) eqn:Es.
  - intros RI HI HN. split; [|split; [reflexivity|unfold start_head; destruct (_ && _); reflexivity]].
    apply start_sim; auto. congruence.
  - intros RI HI HN. split; [|split; reflexivity]. constructor; auto.
Qed.
Lemma rel_null (start : bool) s h : rel s h -> g_pc s = Free ->
  rel (if start then step RAddNull s else s) (hstep A EXT (EAddNull start (ready_rmt (g_r s))) h)
  /\ g_pc (if start then step RAddNull s else s) = Free
  /\ a_code (q_add_null (ready_rmt (g_r s)) start (r_q (g_r s)) (r_pins (g_r s)))
     = a_code (q_add_null (ready_rmt (g_r s)) start (h_q h) (h_pins h)).
Proof.
  intros HR Hp. pose proof HR as [R1 R2 R3 R4 R5 R6 R7]. pose proof R4 as [E4 S4].
  set (rd := ready_rmt (g_r s)).
  assert (RI : rinv A (step RAddNull s)) by (apply rinv_step; auto; exact I).
  assert (HI : inv A (hstep A EXT (EAddNull start rd) h)) by (apply inv_step; auto; exact I).
  pose proof (norep_rest h (EAddNull start rd) I R3) as HN.
  assert (EA : a_code (q_add_null rd start (r_q (g_r s)) (r_pins (g_r s))) = a_code (q_add_null rd start (h_q h) (h_pins h)) /\
    a_started (q_add_null rd start (r_q (g_r s)) (r_pins (g_r s))) = a_started (q_add_null rd start (h_q h) (h_pins h))).
  { rewrite E4. unfold q_add_null. cbn [set_ent q_running q_wr q_rd]. destruct (negb rd); [split; reflexivity|].
    destruct (start && _); [|split; reflexivity]. destruct (_ =? _); split; reflexivity. }
  destruct EA as [EA1 EA2].
  assert (EN : a_started (q_add_null rd start (h_q h) (h_pins h)) = true -> start = true /\ nonempty (r_q (g_r s)) = true).
  { rewrite <- EA2. unfold q_add_null. destruct (negb rd); [discriminate|]. destruct start; [|discriminate]. cbn [andb].
    destruct (negb (q_running _)); [|discriminate]. rewrite Z.eqb_sym, (empty_rd A) by apply R1.
    destruct (nonempty (r_q (g_r s))); cbn [negb a_started]; auto. }
  revert RI HI HN. cbn [rstep hstep]. fold rd. rewrite Hp, <- R5, Hp. cbn [is_free andb].
  destruct start.
  - rewrite EA2. destruct (a_started (q_add_null rd true (h_q h) (h_pins h))) eqn:Ea.
    + destruct (EN eq_refl) as [_ En]. intros RI HI HN. split; [|split; [reflexivity|exact EA1]].
      assert (EE : with_q (set_running true (h_q h)) h = with_pc Free (with_q (set_running true (h_q h)) h)).
      { unfold with_pc, with_q. cbn. rewrite <- R5, Hp. reflexivity. }
      rewrite EE in *. apply start_sim; auto. congruence.
    + intros _ HI HN. splits; auto.
  - destruct (a_started (q_add_null rd false (h_q h) (h_pins h))) eqn:Ea; [destruct (EN eq_refl); discriminate|].
    intros _ HI HN. splits; auto.
Qed.
Lemma rel_ignore b s h : rel s h -> rel (step (RIgnore b) s) (hstep A EXT (EIgnore b) h).
Proof.
  intros HR. pose proof HR as [R1 R2 R3 R4 R5 R6 R7]. pose proof R4 as [E4 S4].
  constructor; auto.
  - apply rinv_step; auto; exact I.
  - apply inv_step; auto; exact I.
  - cbn. split; [rewrite E4 at 1; cbn [q_ent set_ignore]; rewrite E4; reflexivity|exact S4].
Qed.

(** ** The rising edges *)
Variable up : bool.
Notation cinv := (cinv P A).
Notation fit := (cmd_fits P).
Definition settled (s : rst) : rst :=
  match g_pc s with Prepared _ _ _ => mkR (g_r s) Free (g_fresh s) (g_acc s) (g_log s) | _ => s end.
Definition ups (l : list entry) : Prop := Forall (fun e => e_steps e <> 0 -> e_up e = up) l.
Variable q0 : queue.
Definition wants (l : list call) : Prop :=
  Forall (fun k => k_pin k = has_pin q0 /\ (0 < edges k -> k_want k = Bool.eqb up (q_hcu q0))) l.
Definition pin_same (q : queue) : Prop := own_pin (q_pin q) /\ q_pin q = q_pin q0 /\ q_hcu q = q_hcu q0.
Lemma pin_of q q' : q_pin q' = q_pin q -> q_hcu q' = q_hcu q -> pin_same q -> pin_same q'.
Proof. unfold pin_same. now intros -> ->. Qed.
Lemma pin_has q : pin_same q -> has_pin q = has_pin q0.
Proof. unfold pin_same, has_pin. now intros (_ & -> & _). Qed.
(** [padded z ks l]: [l] is [ks] with further [z] in between *)
Inductive padded (z : list Z) : list (list Z) -> list (list Z) -> Prop :=
| pad_nil : padded z [] []
| pad_same k ks l : padded z ks l -> padded z (ks ++ [k]) (l ++ [k])
| pad_more ks l : padded z ks l -> padded z ks (l ++ [z]).
Definition ent_parts (e : entry) : list (list Z) := encoded P (e_steps e) (e_ticks e).
Definition cmd_parts (c : command) : list (list Z) := encoded P (c_steps c) (c_ticks c).
(** the symbols given to the transmitter are those of the commands, with pauses in between *)
Definition syms (s : rst) : Prop := exists ks,
  padded (short_part P (MIN_CMD_TICKS A)) ks (map k_words (g_log s)) /\
  ks ++ flat_map ent_parts (pend A (r_q (g_r s))) = flat_map cmd_parts (g_acc s).
Definition min_long (c : command) : Prop := cmd_ok c /\ MIN_CMD_TICKS A <= command_rate_ticks c.
Record kinv (s : rst) : Prop := mkKinv {
  k_rinv : rinv A s;
  k_same : pin_same (r_q (g_r s));
  k_prep : match g_pc s with
           | Prepared c _ _ => min_long c /\
               (fit c -> ent_fits P (q_ent (r_q (g_r s)) (slot A (q_wr (r_q (g_r s))))))
           | _ => True
           end;
  k_cnt : Forall fit (g_acc s) -> cinv (settled s);
  k_dir : Forall fit (g_acc s) -> Forall (moves_only up) (g_acc s) ->
          ups (pend A (r_q (g_r s))) /\ wants (g_log s);
  k_long : Forall min_long (g_acc s);
  k_syms : Forall fit (g_acc s) -> syms s
}.
Lemma settled_rinv s : rinv A s -> rinv A (settled s).
Proof.
  intros H. unfold settled. destruct (g_pc s) eqn:E; auto. destruct H. constructor; auto; cbn [g_r g_pc g_fresh g_log].
  - exact I.
  - intros H1 H2. apply ri_sync; [exact H1|]. rewrite E. destruct H2 as [H2|[H2|H2]]; [auto|auto|congruence].
Qed.
Lemma settled_fields s : g_r (settled s) = g_r s /\ g_acc (settled s) = g_acc s /\ g_log (settled s) = g_log s.
Proof. unfold settled. destruct (g_pc s); auto. Qed.
(** the encoder *)
Lemma dir_encode s free : cinv s -> pin_same (r_q (g_r s)) -> ups (pend A (r_q (g_r s))) -> wants (g_log s) ->
  ups (pend A (r_q (g_r (step (REncode free) s)))) /\ wants (g_log (step (REncode free) s)).
Proof.
  intros H HQ HU HW. destruct H. cbn [rstep]. destruct (q_running (r_q (g_r s))) eqn:Er; [|auto].
  unfold call_of. set (r := g_r s) in *.
  unfold encode. destruct (free <? P); [cbn; auto|].
  destruct (r_stopped r) eqn:Est; [cbn; auto|].
  destruct (ci_rinv). fold r in ri_wf, ri_ent, ri_prep.
  rewrite (empty_rd A) by assumption.
  assert (E0 : forall f tg pn lv wn, edges (mkCall f (short_part P (MIN_CMD_TICKS A)) tg pn lv wn) = 0).
  { intros. unfold edges. cbn [k_words]. apply lows_rises. apply pause_edges; [exact HP|]. now apply min_cmd_ok. }
  assert (ES : forall T (x y : T), match short_part P (MIN_CMD_TICKS A) with [] => x | _ => y end = y).
  { intros. destruct (short_part P (MIN_CMD_TICKS A)) as [|w ws] eqn:Ew; [|reflexivity].
    apply app_last_nil in Ew. contradiction. }
  destruct (nonempty (r_q r)) eqn:En; cbn [negb].
  2:{ cbn [fst snd r_q r_pins]. rewrite ES. cbn [g_r g_log r_q]. split; [exact HU|].
      apply Forall_app. split; [exact HW|]. constructor; [|constructor]. rewrite E0.
      split; [apply pin_has; exact HQ|lia]. }
  destruct (e_toggle (head A (r_q r)) && r_last r) eqn:Etl.
  { cbn [fst snd r_q r_pins]. rewrite ES. cbn [g_r g_log r_q]. split; [exact HU|].
    apply Forall_app. split; [exact HW|]. constructor; [|constructor]. rewrite E0.
      split; [apply pin_has; exact HQ|lia]. }
  clear E0 ES.
  destruct (toggle_first_spec A HA r ri_wf En) as (e & t & T1 & T2 & T3 & T4 & T5 & T6 & T7 & T8 & T9 & T10 & T11 & T12 & T13 & T14 & T15).
  set (r1 := toggle_first A r) in *. clearbody r1.
  unfold encode_first. rewrite T3.
  rewrite T1 in ri_ent, ci_fit, HU.
  assert (He : ent_ok e) by (rewrite T4; exact (Forall_inv ri_ent)).
  assert (Hf : ent_fits P e) by (rewrite T4; exact (Forall_inv ci_fit)).
  pose proof (Forall_inv_tail HU) as Hut. pose proof (Forall_inv HU) as Hu1. cbv beta in Hu1.
  assert (Hu : e_steps e <> 0 -> e_up e = up) by (rewrite T4; exact Hu1).
  assert (Hue : e_up (head A (r_q r)) = e_up e) by (rewrite T4; reflexivity).
  destruct Hf as (F1 & F2 & F3). destruct He as [He1 He2].
  pose proof (part_words P (e_steps e) (e_ticks e)) as Hw.
  pose proof (part_edges P HP (e_steps e) (e_ticks e) He2 F2 F3) as (E1 & E2 & E3).
  assert (E4 : e_steps e = 0 -> fst (part P (e_steps e) (e_ticks e)) = fst (part P 0 (e_ticks e)) /\ snd (part P (e_steps e) (e_ticks e)) = 0).
  { intros ->. split; reflexivity. }
  destruct (part P (e_steps e) (e_ticks e)) as [ws left]. cbn [fst snd r_q r_pins] in *.
  destruct ws as [|w ws]; [congruence|]. clear Hw.
  remember (w :: ws) as wl eqn:Ewl. clear w ws Ewl. rewrite F1.
  set (q2 := if left =? 0 then q_pop (r_q r1) else set_first A (with_steps left e) (r_q r1)).
  assert (Hn1 : queueEntries (r_q r1) <> 0) by (rewrite T6; now apply nonempty_iff).
  pose proof (pend_pop A HA _ T5 Hn1) as Hh1. rewrite T2, T3 in Hh1. injection Hh1 as Ht1.
  assert (Q : ups (pend A q2)).
  { unfold q2. destruct (Z.eqb_spec left 0) as [El|Hl].
    - rewrite <- Ht1. auto.
    - assert (Ep : pend A (set_first A (with_steps left e) (r_q r1)) = with_steps left e :: t).
      { rewrite Ht1. now apply pend_set_head. }
      rewrite Ep. constructor; [|assumption]. cbn [with_steps e_steps e_up].
      intros _. apply Hu. intros K. destruct (E4 K) as [_ K2]. contradiction. }
  clearbody q2. cbn [g_r g_log r_q]. split; [exact Q|].
  apply Forall_app. split; [exact HW|]. constructor; [|constructor]. split; [apply pin_has; exact HQ|].
  destruct HQ as (_ & _ & HQ). rewrite <- HQ. cbn [k_want]. unfold edges. cbn [k_words]. rewrite E1, Hue. intros K. rewrite Hu; [reflexivity|].
  intros K2. destruct (E4 K2) as [_ K3]. lia.
Qed.
Lemma part_left s t : 0 <= s < 256 -> 0 <= snd (part P s t) /\ (snd (part P s t) <> 0 -> snd (part P s t) <= s - 12).
Proof.
  intros Hs. unfold part, steps_part.
  assert (U : forall z, 0 <= z < 256 -> u8 z = z) by (intros; apply Z.mod_small; assumption).
  assert (PP : P = 32 \/ P = 24) by exact HP.
  assert (PH : P / 2 = 16 /\ P = 32 \/ P / 2 = 12 /\ P = 24) by (destruct PP as [-> | ->]; [left|right]; split; reflexivity).
  pose proof (Z.div_mod s 2 ltac:(lia)) as DM. pose proof (Z.mod_pos_bound s 2 ltac:(lia)) as DM2.
  destruct (Z.eqb_spec s 0); [cbn; lia|]. destruct (t =? 65535).
  - destruct (Z.ltb_spec s (P / 2)); cbn [snd]; [lia|]. rewrite U by lia. lia.
  - destruct (Z.ltb_spec s (2 * P)); cbn [andb]; [destruct (Z.eqb_spec s P); cbn [negb]|]; cbn [snd].
    + rewrite U by lia. lia.
    + destruct (Z.gtb_spec s P); rewrite U by lia; lia.
    + rewrite U by lia. lia.
Qed.
Lemma parts_enough t : forall n m s, 0 <= s < 256 -> s <= 12 * Z.of_nat n -> s <= 12 * Z.of_nat m -> (0 < n)%nat -> (0 < m)%nat ->
  parts P n s t = parts P m s t.
Proof.
  induction n as [|n IH]; intros m s Hs H1 H2 H3 H4; [lia|]. destruct m as [|m]; [lia|]. cbn [parts]. cbv zeta. f_equal.
  destruct (part_left s t Hs) as [L1 L2]. destruct (Z.eqb_spec (snd (part P s t)) 0) as [E|E]; [reflexivity|].
  specialize (L2 E). apply IH; lia.
Qed.
Lemma parts_S n s t :
  parts P (S n) s t = fst (part P s t) :: (if snd (part P s t) =? 0 then [] else parts P n (snd (part P s t)) t).
Proof. reflexivity. Qed.
Lemma encoded_more s t : 0 <= s < 256 ->
  encoded P s t = fst (part P s t) :: (if snd (part P s t) =? 0 then [] else encoded P (snd (part P s t)) t).
Proof.
  intros Hs. unfold encoded at 1. rewrite (parts_S 23).
  destruct (part_left s t Hs) as [L1 L2]. destruct (Z.eqb_spec (snd (part P s t)) 0) as [E|E]; [reflexivity|].
  specialize (L2 E). unfold encoded. rewrite (parts_enough t 23 24) by lia. reflexivity.
Qed.
Lemma sym_encode s free : cinv s -> syms s -> syms (step (REncode free) s).
Proof.
  intros H HS. destruct H. cbn [rstep]. destruct (q_running (r_q (g_r s))) eqn:Er; [|auto].
  unfold call_of. set (r := g_r s) in *.
  unfold encode. destruct (free <? P); [cbn; auto|].
  destruct (r_stopped r) eqn:Est; [cbn; auto|].
  destruct (ci_rinv). fold r in ri_wf, ri_ent, ri_prep.
  rewrite (empty_rd A) by assumption. destruct HS as (ks & HS1 & HS2). fold r in HS2.
  assert (ES : forall T (x y : T), match short_part P (MIN_CMD_TICKS A) with [] => x | _ => y end = y).
  { intros. destruct (short_part P (MIN_CMD_TICKS A)) as [|w ws] eqn:Ew; [|reflexivity].
    apply app_last_nil in Ew. contradiction. }
  destruct (nonempty (r_q r)) eqn:En; cbn [negb].
  2:{ cbn [fst snd r_q r_pins]. rewrite ES. exists ks. cbn [g_r g_log r_q g_acc]. split; [|exact HS2].
      rewrite map_app. now apply pad_more. }
  destruct (e_toggle (head A (r_q r)) && r_last r) eqn:Etl.
  { cbn [fst snd r_q r_pins]. rewrite ES. exists ks. cbn [g_r g_log r_q g_acc]. split; [|exact HS2].
    rewrite map_app. now apply pad_more. }
  clear ES.
  destruct (toggle_first_spec A HA r ri_wf En) as (e & t & T1 & T2 & T3 & T4 & T5 & T6 & T7 & T8 & T9 & T10 & T11 & T12 & T13 & T14 & T15).
  set (r1 := toggle_first A r) in *. clearbody r1.
  unfold encode_first. rewrite T3.
  rewrite T1 in ri_ent, ci_fit, HS2.
  assert (He : ent_ok e) by (rewrite T4; exact (Forall_inv ri_ent)).
  assert (Hf : ent_fits P e) by (rewrite T4; exact (Forall_inv ci_fit)).
  assert (Hpe : ent_parts (head A (r_q r)) = ent_parts e) by (rewrite T4; reflexivity).
  destruct Hf as (F1 & F2 & F3). destruct He as [He1 He2].
  cbn [flat_map] in HS2. rewrite Hpe in HS2.
  pose proof (part_words P (e_steps e) (e_ticks e)) as Hw.
  unfold ent_parts at 1 in HS2. rewrite (encoded_more (e_steps e) (e_ticks e) He2) in HS2.
  destruct (part P (e_steps e) (e_ticks e)) as [ws left]. cbn [fst snd r_q r_pins] in *.
  destruct ws as [|w ws]; [congruence|]. clear Hw.
  remember (w :: ws) as wl eqn:Ewl. clear w ws Ewl. rewrite F1.
  assert (Hn1 : queueEntries (r_q r1) <> 0) by (rewrite T6; now apply nonempty_iff).
  pose proof (pend_pop A HA _ T5 Hn1) as Hh1. rewrite T2, T3 in Hh1. injection Hh1 as Ht1.
  exists (ks ++ [wl]). cbn [g_r g_log r_q g_acc]. split.
  { rewrite map_app. now apply pad_same. }
  rewrite <- HS2, <- app_assoc. cbn [app]. f_equal. f_equal. destruct (Z.eqb_spec left 0) as [El|Hl].
  - rewrite <- Ht1. reflexivity.
  - assert (Ep : pend A (set_first A (with_steps left e) (r_q r1)) = with_steps left e :: t).
    { rewrite Ht1. now apply pend_set_head. }
    rewrite Ep. reflexivity.
Qed.
Lemma ups_same q q' : pend A q' = pend A q -> ups (pend A q) -> ups (pend A q').
Proof. now intros ->. Qed.
Lemma start_dir s : rinv A s -> ups (pend A (r_q (g_r s))) -> ups (pend A (r_q (g_r (start_g A s)))).
Proof.
  intros R H1. pose proof (ri_wf _ _ R) as W. unfold start_g, start_rmt. rewrite (empty_rd A) by assumption.
  destruct (nonempty (r_q (g_r s))) eqn:En; cbn [negb g_r g_log r_q]; [|auto].
  destruct (toggle_first_spec A HA (g_r s) W En) as (e & t & T1 & T2 & T3 & T4 & T5 & T6 & T7 & T8 & T9 & T10 & T11 & T12 & T13 & T14 & T15).
  change (pend A (set_running true (r_q (toggle_first A (g_r s))))) with (pend A (r_q (toggle_first A (g_r s)))).
  rewrite T2. rewrite T1 in H1.
  constructor; [|exact (Forall_inv_tail H1)]. rewrite T4. exact (Forall_inv H1).
Qed.
Lemma encode_keeps free r : wf A (r_q r) -> let q' := r_q (fst (fst (encode P A free r))) in
  q_pin q' = q_pin (r_q r) /\ q_hcu q' = q_hcu (r_q r) /\ q_wr q' = q_wr (r_q r) /\
  (queueEntries (r_q r) < L -> q_ent q' (slot A (q_wr (r_q r))) = q_ent (r_q r) (slot A (q_wr (r_q r)))).
Proof.
  intros W. cbv zeta. unfold encode. destruct (free <? P); [cbn; auto|].
  destruct (r_stopped r) eqn:Est; [cbn; auto|]. rewrite (empty_rd A) by assumption.
  destruct (nonempty (r_q r)) eqn:En; cbn [negb]; [|cbn; auto].
  destruct (e_toggle (head A (r_q r)) && r_last r) eqn:Etl; [cbn; auto|].
  destruct (toggle_first_spec A HA r W En) as (e & t & T1 & T2 & T3 & T4 & T5 & T6 & T7 & T8 & T9 & T10 & T11 & T12 & T13 & T14 & T15).
  set (r1 := toggle_first A r) in *. clearbody r1. unfold encode_first. rewrite T3.
  assert (Hn1 : queueEntries (r_q r1) <> 0) by (rewrite T6; now apply nonempty_iff).
  destruct (part P (e_steps e) (e_ticks e)) as [ws left]. cbn [fst snd r_q].
  destruct (e_repeat e); destruct (left =? 0);
    repeat match goal with |- context [q_pop ?q] =>
      change (q_pin (q_pop q)) with (q_pin q) || change (q_wr (q_pop q)) with (q_wr q) || change (q_ent (q_pop q)) with (q_ent q) end;
    (split; [exact T9|]); (split; [exact T8|]); (split; [exact T11|]); intros Hq; try (rewrite <- T14 by assumption; reflexivity).
  all: rewrite <- T14, <- T11 by assumption; apply free_set_head; auto; lia.
Qed.
Lemma kinv_int ev s : kinv s -> rint ev = true -> kinv (step ev s).
Proof.
  intros [K1 K2 K3 K4 K5 K7 K8] He.
  assert (R' : rinv A (step ev s)) by (apply rinv_step; auto; destruct ev; try discriminate; exact I).
  destruct (settled_fields s) as (S1 & S2 & S3).
  assert (Hf : rev_fits P ev) by (destruct ev; try discriminate; exact I).
  assert (EA : g_acc (step ev s) = g_acc s).
  { destruct ev; try discriminate; cbn [rstep].
    - destruct (q_running _); [|reflexivity]. destruct (snd (fst (encode P A free (g_r s)))); reflexivity.
    - destruct (_ && _); reflexivity. }
  assert (EP : g_pc (step ev s) = g_pc s).
  { destruct ev; try discriminate; cbn [rstep].
    - destruct (q_running _); [|reflexivity]. destruct (snd (fst (encode P A free (g_r s)))); reflexivity.
    - destruct (_ && _); reflexivity. }
  assert (ST : settled (step ev s) = step ev (settled s)).
  { unfold settled. rewrite EP. destruct (g_pc s) as [|c ne st|] eqn:Ep; auto.
    destruct ev; try discriminate; cbn [rstep g_r g_pc g_fresh g_acc g_log].
    - destruct (q_running _); [|cbn; reflexivity]. unfold call_of. cbn [g_r g_fresh].
      destruct (snd (fst (encode P A free (g_r s)))); reflexivity.
    - destruct (_ && _); cbn; reflexivity. }
  assert (GR : g_r (step ev s) = g_r (step ev (settled s)) /\ g_log (step ev s) = g_log (step ev (settled s))).
  { rewrite <- ST. destruct (settled_fields (step ev s)) as (-> & _ & ->). auto. }
  destruct GR as [GR GL].
  constructor; auto.
  - destruct ev; try discriminate; revert R'; cbn [rstep].
    + intros _. destruct (q_running _); [|exact K2].
      destruct (encode_keeps free (g_r s)) as (E1 & E2 & _); [apply K1|].
      destruct (snd (fst (encode P A free (g_r s)))); cbn [g_r]; eapply pin_of; eassumption.
    + intros _. destruct (_ && _); exact K2.
  - rewrite EP. destruct (g_pc s) as [|c ne st|] eqn:Ep; auto. destruct K3 as [K3a K3]. split; [exact K3a|]. intros Hc.
    specialize (K3 Hc). pose proof (ri_prep _ _ K1) as K6. rewrite Ep in K6. destruct K6 as (_ & K6 & _).
    destruct ev; try discriminate; cbn [rstep].
    + destruct (q_running _); [|exact K3].
      destruct (encode_keeps free (g_r s)) as (_ & _ & Y1 & Y2); [apply K1|].
      destruct (snd (fst (encode P A free (g_r s)))); cbn [g_r]; rewrite Y1, Y2 by assumption; exact K3.
    + destruct (_ && _); exact K3.
  - rewrite EA, ST. intros H. apply cinv_step; auto.
  - rewrite EA. intros H1 H2. destruct (K5 H1 H2) as [U W]. destruct ev; try discriminate.
    + rewrite GR, GL. apply dir_encode; [auto|rewrite S1; exact K2|rewrite S1; exact U|rewrite S3; exact W].
    + cbn [rstep]. destruct (_ && _); auto.
  - rewrite EA. exact K7.
  - rewrite EA. intros H1. specialize (K8 H1). destruct ev; try discriminate.
    + assert (X : syms (step (REncode free) (settled s))).
      { apply sym_encode; [auto|]. unfold syms in *. rewrite S1, S2, S3. exact K8. }
      rewrite <- ST in X. unfold syms in *. destruct (settled_fields (step (REncode free) s)) as (Y1 & Y2 & Y3).
      rewrite Y1, Y2, Y3 in X. exact X.
    + unfold syms in *. cbn [rstep]. destruct (_ && _); auto.
Qed.
Lemma kinv_ints : forall l s, kinv s -> kinv (rints l s).
Proof.
  unfold rints. induction l as [|ev l IH]; intros s H; cbn [filter]; [exact H|].
  destruct (rint ev) eqn:E; [|now apply IH]. cbn [rrun]. apply IH. now apply kinv_int.
Qed.
Lemma kinv_begin c start s : kinv s -> cmd_ok c -> kinv (step (RBegin c start) s).
Proof.
  intros H Hc. pose proof H as [K1 K2 K3 K4 K5 K7 K8].
  assert (R' : rinv A (step (RBegin c start) s)) by (apply rinv_step; auto).
  revert R'. cbn [rstep]. destruct (g_pc s) eqn:Epc; try (intros; exact H).
  destruct (Z.eqb_spec (add_check A (ready_rmt (g_r s)) c (r_q (g_r s))) AQE_OK) as [Ek|Ek]; [|intros; exact H].
  apply check_ok in Ek. destruct Ek as (_ & Hnf & Hmin). pose proof (ri_wf _ _ K1) as W.
  assert (Hlt : queueEntries (r_q (g_r s)) < L) by (destruct W as (_ & _ & ?); lia).
  pose proof (prepare_spec A HA EXT c (r_q (g_r s)) (r_pins (g_r s)) W Hlt) as
    (S1 & S2 & S3 & S4 & S5 & S6 & S7 & S8 & S9 & S10). cbv zeta in *. intros R'.
  constructor; cbn [g_r g_pc g_log g_acc r_q r_pins]; rewrite ?S2, ?S7, ?S8; auto.
  - eapply pin_of; eassumption.
  - split; [split; assumption|]. intros Hf. apply new_fits; auto. apply K2.
  - intros Hf. specialize (K4 Hf). unfold settled in K4. rewrite Epc in K4. destruct K4 as [C1 C2 C3 C4 C5].
    pose proof (settled_rinv _ R') as R2. unfold settled in *. cbn [g_pc g_r g_fresh g_acc g_log] in *.
    constructor; cbn [g_r g_pc g_log g_acc r_q r_pins]; rewrite ?S2, ?S6; auto.
  - intros Hf. specialize (K8 Hf). unfold syms in *. cbn [g_r g_log g_acc r_q]. rewrite S2. exact K8.
Qed.
Lemma kinv_commit s : kinv s -> kinv (step RCommit s).
Proof.
  intros H. pose proof H as [K1 K2 K3 K4 K5 K7 K8].
  assert (R' : rinv A (step RCommit s)) by (apply rinv_step; auto; exact I).
  revert R'. cbn [rstep]. destruct (g_pc s) as [|c ne start|] eqn:Epc; try (intros; exact H).
  assert (KEEP : forall pc', (pc' = Free \/ exists st, pc' = Committed st) ->
    let s' := mkR (with_rq (r_q (g_r s)) (g_r s)) pc' (g_fresh s) (g_acc s) (g_log s) in rinv A s' -> kinv s').
  { intros pc' Hpc s' R'. constructor; cbn [s' with_rq g_r g_pc g_log g_acc r_q]; auto.
    - destruct Hpc as [->|[st ->]]; exact I.
    - intros Hf. specialize (K4 Hf). unfold settled in *. rewrite Epc in K4. destruct K4 as [C1 C2 C3 C4 C5].
      assert (E : match pc' with Prepared _ _ _ => mkR (with_rq (r_q (g_r s)) (g_r s)) Free (g_fresh s) (g_acc s) (g_log s) | _ => s' end = s')
        by (destruct Hpc as [->|[st ->]]; reflexivity).
      cbn [s' g_pc g_r g_fresh g_acc g_log]. fold s'. rewrite E. constructor; cbn [s' with_rq g_r g_pc g_log g_acc r_q]; auto.
      destruct Hpc as [->|[st ->]]; exact I. }
  unfold add_commit. destruct (q_ignore (r_q (g_r s))) eqn:Ei; cbn [fst snd].
  { change (AQE_OK =? AQE_OK) with true. cbv iota. apply KEEP. right. eexists. reflexivity. }
  destruct (ready_rmt (g_r s)); cbn [fst snd].
  2:{ change (AQE_DEVICE_NOT_READY =? AQE_OK) with false. cbv iota. apply KEEP. now left. }
  change (AQE_OK =? AQE_OK) with true. cbv iota. intros R'.
  pose proof (ri_prep _ _ K1) as RP. rewrite Epc in RP. destruct RP as (Hc & Hlt & Hne & Ht & Hst & Hu & Htog).
  pose proof (ri_wf _ _ K1) as W.
  set (q := r_q (g_r s)) in *. set (q1 := set_end ne (set_wr (u8 (q_wr q + 1)) q)) in *.
  assert (Epend : pend A q1 = pend A q ++ [q_ent q (slot A (q_wr q))]) by (now apply pend_commit).
  constructor; cbn [with_rq g_r g_pc g_log g_acc r_q]; auto.
  - intros Hf. apply Forall_app in Hf as [Hf1 Hf2]. specialize (K4 Hf1). unfold settled in *. rewrite Epc in K4.
    destruct K4 as [C1 C2 C3 C4 C5]. cbn [g_r g_acc g_log g_pc] in *. fold q in C2, C3, C5.
    constructor; cbn [with_rq g_r g_pc g_log g_acc r_q]; rewrite ?Epend; auto.
    + apply Forall_app. split; [assumption|]. constructor; [|constructor]. apply K3. exact (Forall_inv Hf2).
    + rewrite sum_left_snoc, sum_steps_snoc, Hst. lia.
  - intros Hf Hm. apply Forall_app in Hf as [Hf1 Hf2]. apply Forall_app in Hm as [Hm1 Hm2].
    destruct (K5 Hf1 Hm1) as [U V]. split; [|exact V]. rewrite Epend. apply Forall_app. split; [exact U|].
    constructor; [|constructor]. rewrite Hst, Hu. exact (Forall_inv Hm2).
  - apply Forall_app. split; [exact K7|]. constructor; [apply K3|constructor].
  - intros Hf. apply Forall_app in Hf as [Hf1 Hf2]. destruct (K8 Hf1) as (ks & S1 & S2). fold q in S2. exists ks.
    cbn [with_rq g_r g_pc g_log g_acc r_q]. split; [exact S1|]. rewrite Epend, !flat_map_app, app_assoc, S2. cbn [flat_map].
    unfold ent_parts, cmd_parts. rewrite Hst, Ht. reflexivity.
Qed.
Lemma kinv_start_g s : kinv s -> (g_pc s = Free \/ exists st, g_pc s = Committed st) -> rinv A (start_g A s) ->
  (Forall fit (g_acc s) -> cinv (start_g A s)) -> kinv (start_g A s).
Proof.
  intros [K1 K2 K3 K4 K5 K7 K8] Hp R' C. constructor; auto; [|exact I| |].
  - unfold start_g, start_rmt. cbn [g_r]. rewrite (empty_rd A) by apply K1.
    destruct (nonempty (r_q (g_r s))) eqn:En; cbn [negb]; [|exact K2].
    destruct (toggle_first_spec A HA (g_r s) (ri_wf _ _ K1) En) as (e & t & T1 & T2 & T3 & T4 & T5 & T6 & T7 & T8 & T9 & _).
    eapply pin_of; [exact T9|exact T8|exact K2].
  - intros H1 H2. destruct (K5 H1 H2). split; [now apply start_dir|assumption].
  - intros Hf. destruct (K8 Hf) as (ks & S1 & S2). exists ks. unfold start_g, start_rmt. cbn [g_log g_acc g_r].
    split; [exact S1|]. rewrite (empty_rd A) by apply K1.
    destruct (nonempty (r_q (g_r s))) eqn:En; cbn [negb]; [|exact S2].
    destruct (toggle_first_spec A HA (g_r s) (ri_wf _ _ K1) En) as (e & t & T1 & T2 & T3 & T4 & _).
    cbn [r_q]. change (pend A (set_running true (r_q (toggle_first A (g_r s))))) with (pend A (r_q (toggle_first A (g_r s)))).
    rewrite T2. rewrite T1 in S2. rewrite <- S2. cbn [flat_map]. rewrite T4. reflexivity.
Qed.
Lemma settled_id s : (g_pc s = Free \/ exists st, g_pc s = Committed st) -> settled s = s.
Proof. unfold settled. intros [->|[st ->]]; reflexivity. Qed.
Lemma kinv_start s : kinv s -> (g_pc s = Free \/ exists st, g_pc s = Committed st) -> kinv (step RStart s).
Proof.
  intros H Hp. pose proof H as [K1 K2 K3 K4 K5 K7 K8]. rewrite (settled_id s Hp) in K4.
  assert (R' : rinv A (step RStart s)) by (apply rinv_step; auto; exact I).
  assert (C' : Forall fit (g_acc s) -> cinv (step RStart s)) by (intros Hf; apply cinv_step; auto; exact I).
  revert R' C'. cbn [rstep]. destruct (g_pc s) as [| |st] eqn:Epc; try (intros; exact H).
  destruct (add_starts st (r_q (g_r s))); intros R' C'.
  - apply kinv_start_g; auto. rewrite Epc. exact Hp.
  - constructor; auto.
Qed.
Lemma kinv_null s : kinv s -> kinv (step RAddNull s).
Proof.
  intros H. pose proof H as [K1 K2 K3 K4 K5 K7 K8].
  assert (R' : rinv A (step RAddNull s)) by (apply rinv_step; auto; exact I).
  assert (C' : g_pc s = Free -> Forall fit (g_acc s) -> cinv (step RAddNull s)).
  { intros Hf Hc. specialize (K4 Hc). rewrite settled_id in K4 by auto. apply cinv_step; auto; exact I. }
  revert R' C'. cbn [rstep]. destruct (g_pc s) eqn:Epc; try (intros; exact H).
  destruct (a_started _); intros R' C'; [|exact H]. apply kinv_start_g; auto.
Qed.
Lemma kinv_ignore b s : kinv s -> kinv (step (RIgnore b) s).
Proof.
  intros H. pose proof H as [K1 K2 K3 K4 K5 K7 K8].
  assert (R' : rinv A (step (RIgnore b) s)) by (apply rinv_step; auto; exact I).
  constructor; auto. intros Hf.
  replace (settled (step (RIgnore b) s)) with (step (RIgnore b) (settled s)).
  - apply cinv_step; auto; exact I.
  - unfold settled. cbn [rstep]. cbn [g_pc]. destruct (g_pc s) eqn:E; cbn [g_r g_pc g_fresh g_acc g_log]; rewrite ?E; reflexivity.
Qed.

(** ** The number of entries *)
Notation qu s := (r_q (g_r s)).
(** [k]: at most this many entries *)
Definition room (k : Z) (s : rst) : Prop :=
  0 <= q_rd (qu s) < 256 /\ 0 <= q_wr (qu s) < 256 /\ queueEntries (qu s) <= k.

Lemma pop_room k q : 0 <= q_rd q < 256 -> 0 <= q_wr q < 256 -> q_rd q <> q_wr q -> queueEntries q <= k ->
  0 <= q_rd (q_pop q) < 256 /\ 0 <= q_wr (q_pop q) < 256 /\ queueEntries (q_pop q) <= k.
Proof.
  intros H1 H2 H3 H4. change (q_wr (q_pop q)) with (q_wr q). change (q_rd (q_pop q)) with (u8 (q_rd q + 1)).
  change (queueEntries (q_pop q)) with (u8 (q_wr q - u8 (q_rd q + 1))). unfold queueEntries in H4. unfold u8 in *.
  set (w := q_wr q) in *. set (r := q_rd q) in *. clearbody w r.
  pose proof (Z.mod_pos_bound (w - r) 256 ltac:(lia)) as M. pose proof (Z.div_mod (w - r) 256 ltac:(lia)) as D.
  pose proof (Z.mod_pos_bound (r + 1) 256 ltac:(lia)) as M1.
  assert (Hn : (w - r) mod 256 <> 0) by lia.
  split; [exact M1|]. split; [exact H2|].
  replace ((w - (r + 1) mod 256) mod 256) with ((w - r) mod 256 - 1); [lia|].
  rewrite Zminus_mod_idemp_r. apply Z.mod_unique with ((w - r) / 256); lia.
Qed.
Lemma toggle_same r : q_rd (r_q (toggle_first A r)) = q_rd (r_q r) /\ q_wr (r_q (toggle_first A r)) = q_wr (r_q r)
  /\ q_running (r_q (toggle_first A r)) = q_running (r_q r) /\ q_ignore (r_q (toggle_first A r)) = q_ignore (r_q r).
Proof. unfold toggle_first. destruct (e_toggle _); repeat split. Qed.
Lemma encode_room k free s : room k s ->
  let r := fst (fst (encode P A free (g_r s))) in
  (0 <= q_rd (r_q r) < 256 /\ 0 <= q_wr (r_q r) < 256 /\ queueEntries (r_q r) <= k)
  /\ q_running (r_q r) = q_running (qu s) /\ q_ignore (r_q r) = q_ignore (qu s).
Proof.
  intros (H1 & H2 & H3). unfold encode. destruct (free <? P); [cbn; auto|].
  destruct (r_stopped _); [cbn; auto|]. destruct (Z.eqb_spec (q_rd (qu s)) (q_wr (qu s))) as [|Hn]; [cbn; auto|].
  destruct (_ && _); [cbn; auto|]. destruct (toggle_same (g_r s)) as (T1 & T2 & T3 & T4).
  cbv zeta. cbn [fst]. unfold encode_first. cbv zeta.
  destruct (part P _ _) as [ws left]. cbn [fst r_q].
  set (q1 := r_q (toggle_first A (g_r s))) in *.
  assert (E : queueEntries q1 = queueEntries (qu s)) by (unfold queueEntries; congruence).
  destruct (left =? 0); [destruct (e_repeat _)|].
  - rewrite T1, T2, E. auto.
  - split; [|split; [exact T3|exact T4]]. apply pop_room; rewrite ?T1, ?T2, ?E; auto.
  - match goal with |- context [set_first A ?e q1] => change (queueEntries (set_first A e q1)) with (queueEntries q1) end.
    cbn [q_rd q_wr q_running q_ignore set_first set_ent]. rewrite T1, T2, E. auto.
Qed.
Lemma int_room k ev s : rint ev = true -> room k s ->
  room k (step ev s) /\ g_pc (step ev s) = g_pc s /\ q_ignore (qu (step ev s)) = q_ignore (qu s).
Proof.
  intros Hi H. destruct ev; try discriminate; cbn [rstep].
  - destruct (q_running (qu s)) eqn:Er; [|auto].
    destruct (encode_room k free s H) as (K1 & K2 & K3). cbv zeta in *.
    destruct (snd (fst (encode P A free (g_r s)))); cbn [g_r g_pc]; auto.
  - destruct (_ && _); [|auto]. split; [|auto]. exact H.
Qed.
Lemma ints_room k : forall l s, room k s ->
  room k (rints l s) /\ g_pc (rints l s) = g_pc s /\ q_ignore (qu (rints l s)) = q_ignore (qu s).
Proof.
  unfold rints. induction l as [|ev l IH]; intros s H; cbn [filter]; [auto|].
  destruct (rint ev) eqn:E; [|now apply IH]. cbn [rrun].
  destruct (int_room k ev s E H) as (K1 & K2 & K3). destruct (IH _ K1) as (L1 & L2 & L3).
  split; [exact L1|]. split; congruence.
Qed.
Lemma prep_same c q p : q_rd (fst (add_prepare A EXT c q p)) = q_rd q /\ q_wr (fst (add_prepare A EXT c q p)) = q_wr q
  /\ q_ignore (fst (add_prepare A EXT c q p)) = q_ignore q.
Proof. unfold add_prepare. cbv zeta. repeat match goal with |- context [if ?b then _ else _] => destruct b end; repeat split. Qed.
Lemma commit_room k ne s : k < 255 -> room k s -> q_ignore (qu s) = false -> ready_rmt (g_r s) = true ->
  let q := fst (add_commit (ready_rmt (g_r s)) ne (qu s)) in
  0 <= q_rd q < 256 /\ 0 <= q_wr q < 256 /\ 1 <= queueEntries q <= k + 1.
Proof.
  intros Hk (H1 & H2 & H3) Hi Hr. cbv zeta. unfold add_commit. rewrite Hi, Hr.
  unfold queueEntries in *. cbn [fst set_end set_wr q_rd q_wr]. unfold u8 in *.
  splits; try lia; try (apply Z.mod_pos_bound; lia);
  pose proof (Z.mod_pos_bound (q_wr (qu s) - q_rd (qu s)) 256 ltac:(lia));
  replace (((q_wr (qu s) + 1) mod 256 - q_rd (qu s)) mod 256) with ((q_wr (qu s) - q_rd (qu s)) mod 256 + 1); try lia;
  rewrite Zminus_mod_idemp_l; apply Z.mod_unique with ((q_wr (qu s) - q_rd (qu s)) / 256); try lia;
  pose proof (Z.div_mod (q_wr (qu s) - q_rd (qu s)) 256 ltac:(lia)); lia.
Qed.

(** a queue that stops running: the last call that matters is queue_done() *)
Lemma split_done k : forall l s, room k s -> q_running (qu s) = true -> q_running (qu (rints l s)) = false ->
  exists l1, rints l s = step RDone (rints l1 s) /\ q_running (qu (rints l1 s)) = true /\ r_stopped (g_r (rints l1 s)) = true.
Proof.
  unfold rints. induction l as [|ev l IH]; intros s H Hr; cbn [filter]; [cbn [rrun]; congruence|].
  destruct (rint ev) eqn:Ei; [|now apply IH]. cbn [rrun]. intros Hf.
  destruct (int_room k ev s Ei H) as (K1 & _ & _).
  destruct (q_running (qu (step ev s))) eqn:Er.
  - destruct (IH _ K1 Er Hf) as (l1 & L1 & L2 & L3). exists (ev :: l1). cbn [filter]. rewrite Ei. cbn [rrun]. auto.
  - assert (ED : ev = RDone /\ r_stopped (g_r s) = true).
    { destruct ev; try discriminate; cbn [rstep] in Er.
      - exfalso. rewrite Hr in Er. destruct (encode_room k free s H) as (_ & K2 & _). cbv zeta in K2.
        destruct (snd (fst (encode P A free (g_r s)))); cbn [g_r] in Er; congruence.
      - rewrite Hr in Er. cbn [andb] in Er. split; [reflexivity|]. destruct (r_stopped (g_r s)); [reflexivity|congruence]. }
    destruct ED as [-> Hs]. exists []. cbn [filter rrun]. splits; auto.
    clear - Er. set (s1 := step RDone s) in *. clearbody s1.
    induction l as [|e l IH]; cbn [filter]; [reflexivity|]. destruct (rint e) eqn:E; [|exact IH].
    cbn [rrun]. replace (step e s1) with s1; [exact IH|]. destruct e; try discriminate; cbn [rstep]; rewrite Er; reflexivity.
Qed.
Lemma idle_ints : forall l s, q_running (qu s) = false -> rints l s = s.
Proof.
  unfold rints. induction l as [|e l IH]; intros s Hr; cbn [filter]; [reflexivity|]. destruct (rint e) eqn:E; [|now apply IH].
  cbn [rrun]. replace (step e s) with s; [now apply IH|]. destruct e; try discriminate; cbn [rstep]; rewrite Hr; reflexivity.
Qed.

(** ** The calls *)
Definition Rel0 (t : rq) (th : hq) : Prop :=
  rel (rq_s t) (hq_h th) /\ g_pc (rq_s t) = Free /\ rq_p t = hq_p th /\ kinv (rq_s t).
(** within a pass of the task commands are not ignored *)
Definition Rel (t : rq) (th : hq) : Prop := Rel0 t th /\ q_ignore (tqueue th) = false.
Lemma Rel0_fields t th : Rel0 t th -> seen (t_q rq racc t) (tqueue th) /\ good A th /\ t_pins rq racc t = hq_p th.
Proof.
  intros (H & Hp & Hq & _). destruct H. split; [|split; [|exact Hq]].
  - exists (q_ent (r_q (g_r (rq_s t)))). apply rl_q0.
  - split; [exact rl_h0|congruence].
Qed.
Lemma Rel_fields t th : Rel t th -> seen (t_q rq racc t) (tqueue th) /\ good A th /\ t_pins rq racc t = hq_p th.
Proof. intros [H _]. now apply Rel0_fields. Qed.
Lemma Rel_ticks t th : Rel t th -> ticksInQueue A (t_q rq racc t) = ticksInQueue A (tqueue th).
Proof. intros ((H & _) & _). apply qsim_ticks. apply H. Qed.
Lemma ints_pc : forall l s, g_pc (rints l s) = g_pc s.
Proof.
  unfold rints. induction l as [|ev l IH]; intros s; cbn [filter]; [reflexivity|].
  destruct (rint ev) eqn:E; [|apply IH]. cbn [rrun]. rewrite IH. destruct ev; try discriminate; cbn [rstep].
  - destruct (q_running _); [|reflexivity]. destruct (snd (fst (encode P A free (g_r s)))); reflexivity.
  - destruct (_ && _); reflexivity.
Qed.
Lemma commit_pc s c ne st : g_pc s = Prepared c ne st -> g_pc (step RCommit s) = Free \/ g_pc (step RCommit s) = Committed st.
Proof. intros E. cbn [rstep]. rewrite E. cbn [g_pc]. destruct (_ =? _); auto. Qed.
(** the start test behind the interrupts [l]; the end of a transmission that leaves the queue empty
    might as well come behind the test *)
Lemma sim_test l s h : rel s h -> kinv s -> (g_pc s = Free \/ exists st, g_pc s = Committed st /\ (q_running (qu s) = false -> nonempty (qu s) = true)) ->
  let s4 := rints l s in
  exists e2 e3, let h5 := hstep A EXT EStartQ (isr A EXT e2 h) in
    rel (step RStart s4) (isr A EXT e3 h5) /\ g_pc (step RStart s4) = Free /\ h_res h5 = h_res h /\ kinv (step RStart s4).
Proof.
  intros HR HK Hp. cbv zeta. set (s4 := rints l s).
  assert (KR : forall l h, inv A h -> h_res (isr A EXT l h) = h_res h).
  { intros l0 h0 I0. destruct (isr_kept A EXT HA l0 h0 I0) as [_ K]. apply K. }
  assert (RO : room (QUEUE_LEN A) s) by (destruct (ri_wf _ _ (k_rinv _ HK)) as (W1 & W2 & W3); split; [exact W1|split; [exact W2|exact W3]]).
  assert (PC : forall l0, g_pc (rints l0 s) = Free \/ exists st, g_pc (rints l0 s) = Committed st).
  { intros l0. rewrite ints_pc. destruct Hp as [Hp|(st & Hp & _)]; eauto. }
  destruct (favourable s4) eqn:Hf.
  - destruct (rel_ints l _ _ HR) as [e2 H4]. fold s4 in H4. exists e2, [].
    destruct (rel_start _ _ H4 Hf (PC l)) as (H5 & P5 & E5). splits; auto.
    + rewrite E5. apply KR. apply HR.
    + apply kinv_start; [now apply kinv_ints|apply PC].
  - unfold favourable in Hf. destruct (g_pc s4) eqn:E4; try discriminate.
    destruct (add_starts start (qu s4)) eqn:Ea; [|discriminate].
    assert (R4 : q_running (qu s4) = false) by (unfold add_starts in Ea; destruct (q_running (qu s4)); [discriminate|reflexivity]).
    assert (PS : g_pc s = Committed start) by (rewrite <- (ints_pc l s); exact E4).
    destruct Hp as [Hp|(st & Hp & Hn)]; [congruence|].
    assert (RS : q_running (qu s) = true).
    { destruct (q_running (qu s)) eqn:K; [reflexivity|exfalso]. specialize (Hn eq_refl). unfold s4 in Hf. rewrite (idle_ints l s K) in Hf. congruence. }
    destruct (split_done _ l s RO RS R4) as (l1 & L1 & L2 & L3). fold s4 in L1.
    set (s4' := rints l1 s) in *.
    destruct (rel_ints l1 _ _ HR) as [e2 H4]. fold s4' in H4.
    assert (P4 : g_pc s4' = Committed start) by (unfold s4'; rewrite ints_pc; exact PS).
    assert (F4 : favourable s4' = true) by (unfold favourable, add_starts; rewrite P4, L2; reflexivity).
    destruct (rel_start _ _ H4 F4 (PC l1)) as (H5 & P5 & E5).
    destruct (rel_ints [RDone] _ _ H5) as [e3 H6]. exists e2, e3.
    assert (EQ : step RStart s4 = rints [RDone] (step RStart s4')).
    { unfold rints. cbn [filter rint rrun]. rewrite L1 in *.
      assert (A4 : add_starts start (qu s4') = false) by (unfold add_starts; rewrite L2; reflexivity).
      assert (ES : step RStart s4' = mkR (g_r s4') Free (g_fresh s4') (g_acc s4') (g_log s4')) by (cbn [rstep]; rewrite P4, A4; reflexivity).
      rewrite ES. cbn [rstep] in Ea, Hf |- *. rewrite L2, L3 in *. cbn [andb g_r g_pc g_fresh g_acc g_log] in Ea, Hf |- *. rewrite P4. rewrite Ea.
      unfold start_g. cbn [g_r g_fresh g_acc g_log]. rewrite Hf. unfold start_rmt.
      assert (EM : q_rd (r_q (done_rmt (g_r s4'))) =? q_wr (r_q (done_rmt (g_r s4'))) = true).
      { rewrite (empty_rd A).
        - rewrite Hf. reflexivity.
        - pose proof (ri_wf _ _ (rl_r _ _ H4)) as W. exact W. }
      rewrite EM, L2, L3. reflexivity. }
    rewrite EQ. splits; auto.
    + rewrite ints_pc. exact P5.
    + rewrite E5. apply KR. apply HR.
    + apply kinv_ints, kinv_start; [now apply kinv_ints|apply PC].
Qed.
(** a queue that is not running is not started without [start]; the driver is ready *)
Lemma stopped_ready c start s l1 : q_running (qu s) = false ->
  ready_rmt (g_r s) = true /\ ready_rmt (g_r (rints l1 (step (RBegin c start) s))) = true
  /\ q_running (qu (rints l1 (step (RBegin c start) s))) = false.
Proof.
  intros Hr.
  assert (R1 : q_running (qu (step (RBegin c start) s)) = false).
  { cbn [rstep]. destruct (g_pc s); auto. destruct (_ =? _); auto. cbn [g_r r_q]. unfold add_prepare. cbv zeta.
    destruct (direct_dir _); exact Hr. }
  rewrite (idle_ints _ _ R1). unfold ready_rmt. now rewrite Hr, R1.
Qed.
Lemma radd_stopped c t : g_pc (rq_s t) = Free -> q_running (qu (rq_s t)) = false ->
  q_running (qu (rq_s (fst (r_add c false t)))) = false.
Proof.
  intros Hp Hr. unfold r_add. cbv zeta. cbn [fst rq_s]. rewrite (idle_ints _ _ Hr).
  destruct (stopped_ready c false (rq_s t) (z_i1 (rw1 t)) Hr) as (_ & _ & R2).
  set (s2 := rints _ (step (RBegin c false) (rq_s t))) in *.
  assert (P2 : match g_pc s2 with Prepared _ _ st => st = false | Committed _ => False | Free => True end).
  { unfold s2. rewrite ints_pc. cbn [rstep]. rewrite Hp. destruct (_ =? _); [reflexivity|now rewrite Hp]. }
  assert (R3 : q_running (qu (step RCommit s2)) = false /\ match g_pc (step RCommit s2) with Committed st => st = false | _ => True end).
  { cbn [rstep]. destruct (g_pc s2) eqn:E; try contradiction; cbn [g_r g_pc with_rq r_q]; [rewrite E; auto|].
    split; [unfold add_commit; destruct (q_ignore _); [exact R2|]; destruct (ready_rmt _); exact R2|].
    destruct (_ =? _); [exact P2|exact I]. }
  destruct R3 as [R3 P3]. rewrite (idle_ints _ _ R3). set (s3 := step RCommit s2) in *. cbn [rstep].
  destruct (g_pc s3); auto. subst. unfold add_starts. rewrite R3. exact R3.
Qed.
Lemma sim_radd c start t th : Rel t th -> cmd_ok c ->
  exists ws th', Rel (fst (r_add c start t)) th' /\ (q_running (qu (rq_s t)) = false -> Forall ready ws) /\
    forall ws2, h_add A EXT c start (set_w (ws ++ ws2) th) = (set_w ws2 th', snd (r_add c start t)).
Proof.
  intros ((H & Hpc & Hp & HK) & Hi) Hc. unfold r_add in *. cbv zeta in *. cbn [fst snd] in *.
  set (x := rw1 t) in *.
  assert (RO : room (QUEUE_LEN A) (rq_s t)) by (destruct (ri_wf _ _ (k_rinv _ HK)) as (W1 & W2 & W3); split; [exact W1|split; [exact W2|exact W3]]).
  destruct (ints_room _ (z_i0 x) _ RO) as (_ & _ & I0).
  assert (IG : q_ignore (qu (rq_s t)) = false) by (rewrite (proj1 (rl_q _ _ H)); exact Hi).
  destruct (rel_ints (z_i0 x) _ _ H) as [e0 H0]. pose proof (kinv_ints (z_i0 x) _ HK) as K0.
  set (s0 := rints (z_i0 x) (rq_s t)) in *. set (h0 := isr A EXT e0 (hq_h th)) in *.
  assert (P0 : g_pc s0 = Free) by (unfold s0; rewrite ints_pc; exact Hpc).
  destruct (rel_begin c start _ _ H0 Hc) as (H1 & B1 & B2 & B3). pose proof (kinv_begin c start _ K0 Hc) as K1.
  assert (IG1 : q_ignore (qu (step (RBegin c start) s0)) = false).
  { cbn [rstep]. rewrite P0. destruct (_ =? _); [|congruence]. cbn [g_r r_q].
    destruct (prep_same c (qu s0) (r_pins (g_r s0))) as (_ & _ & T3). congruence. }
  set (s1 := step (RBegin c start) s0) in *. set (h1 := hstep A EXT (EBegin c start (ready_rmt (g_r s0))) h0) in *.
  assert (RO1 : room (QUEUE_LEN A) s1) by (destruct (ri_wf _ _ (k_rinv _ K1)) as (W1 & W2 & W3); split; [exact W1|split; [exact W2|exact W3]]).
  destruct (ints_room _ (z_i1 x) _ RO1) as (RO2 & _ & I2).
  destruct (rel_ints (z_i1 x) _ _ H1) as [e1 H2]. pose proof (kinv_ints (z_i1 x) _ K1) as K2.
  set (s2 := rints (z_i1 x) s1) in *. set (h2 := isr A EXT e1 h1) in *.
  assert (P2 : g_pc s2 = g_pc s1) by (unfold s2; apply ints_pc).
  destruct (rel_commit _ _ H2) as (H3 & C1). pose proof (kinv_commit _ K2) as K3.
  assert (PC : g_pc (step RCommit s2) = Free \/ exists st, g_pc (step RCommit s2) = Committed st /\
     (q_running (qu (step RCommit s2)) = false -> nonempty (qu (step RCommit s2)) = true)).
  { destruct (Z.eq_dec (add_check A (ready_rmt (g_r s0)) c (h_q h0)) AQE_OK) as [K|K].
    - destruct (B3 K P0) as [ne Q]. rewrite <- P2 in Q. destruct (commit_pc s2 c ne start Q) as [Q2|Q2]; [left; exact Q2|right].
      exists start. split; [exact Q2|]. intros _.
      pose proof (ri_prep _ _ (k_rinv _ K2)) as PR. rewrite Q in PR. destruct PR as (_ & PR & _).
      assert (RD : ready_rmt (g_r s2) = true).
      { destruct (ready_rmt (g_r s2)) eqn:Er; [reflexivity|]. exfalso. revert Q2. cbn [rstep]. rewrite Q. cbn [g_pc].
        unfold add_commit. rewrite I2, IG1, Er. cbn [snd]. discriminate. }
      assert (LL : 1 <= QUEUE_LEN A <= 128) by (destruct (ql_cases A HA); lia).
      assert (RO3 : room (QUEUE_LEN A - 1) s2) by (destruct RO2 as (W1 & W2 & _); split; [exact W1|split; [exact W2|lia]]).
      destruct (commit_room (QUEUE_LEN A - 1) ne s2 ltac:(lia) RO3 ltac:(congruence) RD) as (_ & _ & M3). cbv zeta in M3.
      cbn [rstep]. rewrite Q. cbn [g_r with_rq r_q]. unfold nonempty. apply negb_true_iff, Z.eqb_neq. lia.
    - destruct (B2 K P0) as [_ Q]. left. cbn [rstep]. rewrite P2, Q. congruence. }
  set (s3 := step RCommit s2) in *. set (h3 := hstep A EXT (ECommit (ready_rmt (g_r s2))) h2) in *.
  destruct (sim_test (z_i2 x) _ _ H3 K3 PC) as (e2 & e3 & H5 & P5 & E5 & K5).
  set (s4 := rints (z_i2 x) s3) in *. cbv zeta in *. set (h4 := isr A EXT e2 h3) in *.
  assert (KR : forall l h, inv A h -> h_res (isr A EXT l h) = h_res h).
  { intros l h J0. destruct (isr_kept A EXT HA l h J0) as [_ K]. apply K. }
  assert (LC : last_code (hstep A EXT EStartQ h4) = last_code h3) by (unfold last_code; now rewrite E5).
  assert (CODE : last_code (hstep A EXT EStartQ h4) =
    (if add_check A (ready_rmt (g_r s0)) c (r_q (g_r s0)) =? AQE_OK
     then match g_pc s2 with Prepared _ ne _ => snd (add_commit (ready_rmt (g_r s2)) ne (r_q (g_r s2))) | _ => AQE_OK end
     else add_check A (ready_rmt (g_r s0)) c (r_q (g_r s0)))).
  { rewrite LC. rewrite B1. destruct (Z.eqb_spec (add_check A (ready_rmt (g_r s0)) c (h_q h0)) AQE_OK) as [K|K].
    - destruct (B3 K P0) as [ne Q]. rewrite <- P2 in Q. rewrite Q in C1 |- *. exact C1.
    - destruct (B2 K P0) as [Q1 Q]. rewrite <- P2 in Q. rewrite Q in C1. rewrite C1.
      unfold last_code. unfold h2. rewrite KR; [exact Q1|apply H1]. }
  set (w := mkWeather (ready_rmt (g_r s0)) (ready_rmt (g_r s2)) e0 e1 e2 e3).
  exists [w], (mkHq (isr A EXT e3 (hstep A EXT EStartQ h4)) (hq_p th) []).
  split.
  - split; [split; [exact H5|split; [exact P5|split; [exact Hp|exact K5]]]|].
    assert (PH : h_pc (hq_h th) = Free) by (rewrite (rl_pc _ _ H) in *; assumption).
    pose proof (cs_ign _ _ _ _ _ (call_isr A EXT HA c _ _ _ e3 (proj1 (hcall_spec A EXT HA w c start (hq_h th) (rl_h _ _ H) Hc PH)))) as IGN.
    unfold tqueue in *. cbn [hq_h]. rewrite <- Hi. exact IGN.
  - split.
    { intros Hr. constructor; [|constructor]. unfold w, ready. cbn [w_r1 w_r2].
      assert (R0 : s0 = rq_s t) by (apply idle_ints; exact Hr).
      assert (Hr0 : q_running (qu s0) = false) by (rewrite R0; exact Hr).
      destruct (stopped_ready c start s0 (z_i1 x) Hr0) as (U1 & U2 & _). fold s1 in U2. fold s2 in U2. auto. }
    intros ws2. unfold h_add, set_w, weather1. cbn [app hq_w hq_h hq_p tl]. unfold hcall. unfold w. cbn [w_i0 w_i1 w_i2 w_i3 w_r1 w_r2].
    fold h0. fold h1. fold h2. fold h3. fold h4. now rewrite CODE.
Qed.
Lemma sim_rnull start t th : Rel t th ->
  exists ws th', Rel (fst (r_null start t)) th' /\ (q_running (qu (rq_s t)) = false -> Forall ready ws) /\
    forall ws2, h_null A EXT start (set_w (ws ++ ws2) th) = (set_w ws2 th', snd (r_null start t)).
Proof.
  intros ((H & Hpc & Hp & HK) & Hi). unfold r_null. cbv zeta. cbn [fst snd].
  set (x := rw1 t).
  destruct (rel_ints (z_i0 x) _ _ H) as [e0 H0]. set (s0 := rints (z_i0 x) (rq_s t)) in *. set (h0 := isr A EXT e0 (hq_h th)) in *.
  assert (P0 : g_pc s0 = Free) by (unfold s0; rewrite ints_pc; exact Hpc).
  destruct (rel_null start _ _ H0 P0) as (H1 & P1 & C1).
  exists [mkWeather (ready_rmt (g_r s0)) true e0 [] [] []], (mkHq (hstep A EXT (EAddNull start (ready_rmt (g_r s0))) h0) (hq_p th) []).
  split; [split; [split; [exact H1|split; [exact P1|split; [exact Hp|]]]|]|].
  { cbn [rq_s]. destruct start; [apply kinv_null|]; apply kinv_ints, HK. }
  { destruct (isr_kept A EXT HA e0 (hq_h th) (rl_h _ _ H)) as [_ K]. pose proof (k_ign _ _ K) as KI. fold h0 in KI.
    unfold tqueue in *. cbn [hq_h hstep]. destruct (_ && _); [|congruence].
    unfold start_head. destruct (_ && _); cbn; congruence. }
  split.
  { intros Hr. constructor; [|constructor]. split; [|reflexivity]. cbn [w_r1]. unfold s0. rewrite (idle_ints _ _ Hr).
    unfold ready_rmt. now rewrite Hr. }
  intros ws2. unfold h_null, set_w, weather1. cbn [app hq_w hq_h hq_p tl w_i0 w_i3 w_r1]. rewrite isr_nil. fold h0. now rewrite C1.
Qed.
Lemma rel0_pins p t th : Rel0 t th -> Rel0 (t_setpins rq racc p t) (t_setpins hq X p th).
Proof. intros (K2 & K3 & K4 & K5). split; [exact K2|]. split; [exact K3|]. split; [reflexivity|exact K5]. Qed.
Lemma rel0_ignore t th : Rel0 t th -> Rel (t_ignore rq racc false t) (t_ignore hq X false th).
Proof. intros (K2 & K3 & K4 & K5). split; [|reflexivity]. split; [apply rel_ignore; exact K2|]. split; [exact K3|]. split; [exact K4|now apply kinv_ignore]. Qed.
(** a pass of the task *)
Lemma sim_pass ext busy fuel old ws s t th s' t' : Rel0 t th -> conf_ok s ->
  fill_queue A rq racc ext busy fuel old s (rset_w ws t) = Some (s', t') ->
  exists w th', Rel0 t' th' /\ conf_ok s' /\ (q_running (qu (rq_s t)) = false -> Forall ready w) /\
    fill_queue A hq X ext busy fuel old s (set_w w th) = Some (s', th').
Proof.
  intros HR Hs E. destruct (q_running (qu (rq_s t))) eqn:Er.
  - destruct (StackSim.sim_fill A EXT rq racc Rel Rel0 Rel0 (fun _ => True) True (fun _ => True) Rel_fields Rel_ticks)
      with (ext := ext) (busy := busy) (fuel := fuel) (old := old)
      (s := s) (t := rset_w ws t) (th := th) (s' := s') (t' := t') as (w & th' & K1 & K2 & _ & K3); auto.
    + intros p t0 th0 [K1 K2]. split; [now apply rel0_pins|exact K2].
    + intros t0 th0 H. exact (proj1 H).
    + apply rel0_ignore.
    + intros c0 st0 t0 th0 R0 C0 _ _. destruct (sim_radd c0 st0 t0 th0 R0 C0) as (w & th' & K1 & _ & K2).
      exists w, th'. splits; auto. apply Forall_forall; auto.
    + intros st0 t0 th0 R0 _ _. destruct (sim_rnull st0 t0 th0 R0) as (w & th' & K1 & _ & K2).
      exists w, th'. splits; auto. apply Forall_forall; auto.
    + intros t0 th0 R0 _. destruct (sim_rnull true t0 th0 R0) as (w & th' & K1 & _ & K2).
      exists w, th'. splits; auto; [apply K1|apply Forall_forall; auto].
    + exists w, th'. splits; auto. discriminate.
  - destruct (StackSim.sim_fill A EXT rq racc (fun t th => Rel t th /\ q_running (qu (rq_s t)) = false)
        (fun t th => Rel0 t th /\ q_running (qu (rq_s t)) = false) Rel0 (fun _ => True) False ready)
      with (ext := ext) (busy := busy) (fuel := fuel) (old := old)
      (s := s) (t := rset_w ws t) (th := th) (s' := s') (t' := t') as (w & th' & K1 & K2 & K4 & K3); auto.
    + intros t0 th0 [K _]. now apply Rel_fields.
    + intros t0 th0 [K _]. now apply Rel_ticks.
    + intros p t0 th0 [[K1 K2] K3]. split; [|exact K3]. split; [now apply rel0_pins|exact K2].
    + intros t0 th0 H. exact (proj1 H).
    + intros t0 th0 H. exact (proj1 (proj1 H)).
    + intros t0 th0 [K1 K2]. split; [now apply rel0_ignore|exact K2].
    + intros c0 st0 t0 th0 [R0 Q0] C0 F0 _. destruct (sim_radd c0 st0 t0 th0 R0 C0) as (w & th' & K1 & K3 & K2).
      destruct st0; [destruct (F0 eq_refl)|].
      exists w, th'. splits; auto. apply radd_stopped; [apply R0|exact Q0].
    + intros st0 t0 th0 [R0 Q0] F0 _. destruct (sim_rnull st0 t0 th0 R0) as (w & th' & K1 & K3 & K2).
      destruct st0; [destruct (F0 eq_refl)|].
      exists w, th'. splits; auto. change (t_null rq racc false t0) with (r_null false t0). unfold r_null. cbv zeta. cbn [fst rq_s]. rewrite (idle_ints _ _ Q0). exact Q0.
    + intros t0 th0 [R0 Q0] _. destruct (sim_rnull true t0 th0 R0) as (w & th' & K1 & K3 & K2).
      exists w, th'. splits; auto. apply K1.
    + cbn. rewrite Er. discriminate.
    + exists w, th'. splits; auto.
Qed.
Lemma pass_none ext busy fuel old ws s t th : Rel0 t th -> conf_ok s ->
  fill_queue A rq racc ext busy fuel old s (rset_w ws t) = None ->
  exists w, fill_queue A hq X ext busy fuel old s (set_w w th) = None.
Proof.
  intros HR Hs E.
  apply (StackSim.fill_none A EXT rq racc Rel Rel0 Rel0 (fun _ => True) True (fun _ => True)) with (t := rset_w ws t); auto.
  - exact Rel_fields.
  - exact Rel_ticks.
  - intros p t0 th0 [K1 K2]. split; [now apply rel0_pins|exact K2].
  - intros t0 th0 H. exact (proj1 H).
  - apply rel0_ignore.
  - intros c0 st0 t0 th0 R0 C0 _ _. destruct (sim_radd c0 st0 t0 th0 R0 C0) as (w & th' & K1 & _ & K2).
    exists w, th'. splits; auto. apply Forall_forall; auto.
  - intros st0 t0 th0 R0 _ _. destruct (sim_rnull st0 t0 th0 R0) as (w & th' & K1 & _ & K2).
    exists w, th'. splits; auto. apply Forall_forall; auto.
  - intros t0 th0 R0 _. destruct (sim_rnull true t0 th0 R0) as (w & th' & K1 & _ & K2).
    exists w, th'. splits; auto; [apply K1|apply Forall_forall; auto].
Qed.
(** A pass is served, if it finds the queue empty and the transmitter off and the outputs ready. No
    other assumption on the interrupts is needed: the queue is started at the end of the pass. *)
Definition rserved_task (s : stepper) (t : rq) (e : rtask) : Prop :=
  match e with
  | RFill ext busy fuel _ _ => (1 <= fuel)%nat /\ (forall f, busy f = false) /\ responsive s ext
      /\ pend A (qu (rq_s t)) = [] /\ q_running (qu (rq_s t)) = false
  | _ => True
  end.
Definition is_rfill (e : rtask) : bool := match e with RFill _ _ _ _ _ => true | _ => false end.
Definition rpasses (l : list rtask) : nat := length (filter is_rfill l).
Fixpoint rserved (l : list rtask) (x : stepper * rq) : Prop :=
  match l with
  | [] => True
  | e :: l' => rserved_task (fst x) (snd x) e /\ forall y, rtstep e x = Some y -> rserved l' y
  end.
Lemma Rel0_pend t th : Rel0 t th -> pend A (qu (rq_s t)) = [] -> pend A (tqueue th) = [].
Proof. intros (H & _) E. apply pend_nil in E. apply pend_nil. rewrite (proj1 (rl_q _ _ H)) in E. exact E. Qed.
Lemma sim_task e s t th y : Rel0 t th -> conf_ok s -> rtstep e (s, t) = Some y ->
  exists e' th', tstep A EXT e' (s, th) = Some (fst y, th') /\ Rel0 (snd y) th' /\ conf_ok (fst y)
    /\ is_fill e' = is_rfill e /\ (rserved_task s t e -> served_task A s (tqueue th) e' /\ ready_task e').
Proof.
  intros HR Hs. destruct y as [s' t']. cbn [fst snd]. destruct e as [ext busy fuel old ws|l|ext]; cbn [rtstep].
  - intros E. destruct (sim_pass ext busy fuel old ws s t th s' t' HR Hs E) as (w & th' & K1 & K2 & K4 & K3).
    exists (TFill ext busy fuel old w), th'. splits; auto. intros (S1 & S2 & S3 & S4 & S5). cbn [served_task ready_task].
    splits; auto. now apply (Rel0_pend t).
  - intros E. injection E as <- <-. destruct HR as (H2 & H3 & H4 & H6).
    destruct (rel_ints l _ _ H2) as [l' H5].
    exists (TIsr l'), (set_h (isr A EXT l' (hq_h th)) th). splits; auto.
    split; [exact H5|]. split; [cbn [rq_s]; rewrite ints_pc; exact H3|]. split; [exact H4|now apply kinv_ints].
  - intros E. injection E as <- <-.
    destruct (StackSim.sim_tick A EXT rq racc Rel0 Rel0_fields) with (ext := ext) (s := s) (t := t) (th := th) as (th' & K1 & K2 & K3); auto.
    + apply rel0_pins.
    + exists (TTick ext), th'. splits; auto.
Qed.
Lemma task_none e s t th : Rel0 t th -> conf_ok s -> rtstep e (s, t) = None -> exists e', tstep A EXT e' (s, th) = None.
Proof.
  intros HR Hs. destruct e as [ext busy fuel old ws|l|ext]; cbn [rtstep]; try discriminate.
  intros E. destruct (pass_none ext busy fuel old ws s t th HR Hs E) as (w & K). exists (TFill ext busy fuel old w). exact K.
Qed.
Lemma sim_tasks : forall l s t th y, Rel0 t th -> conf_ok s -> rtrun l (s, t) = Some y ->
  exists l' th', trun A EXT l' (s, th) = Some (fst y, th') /\ Rel0 (snd y) th'
    /\ passes l' = rpasses l /\ (rserved l (s, t) -> served A EXT l' (s, th) /\ Forall ready_task l').
Proof.
  induction l as [|e l IH]; intros s t th y HR Hs; cbn [rtrun].
  - intros E. injection E as <-. exists [], th. splits; auto.
  - destruct (rtstep e (s, t)) as [z|] eqn:E1; [|discriminate]. intros E.
    destruct (sim_task e s t th z HR Hs E1) as (e' & th1 & T1 & R1 & F1 & G1 & S1).
    destruct z as [s1 t1]. cbn [fst snd] in *.
    destruct (IH s1 t1 th1 y R1 F1 E) as (l' & th2 & T2 & R2 & G2 & S2).
    exists (e' :: l'), th2. splits.
    + cbn [trun]. rewrite T1. exact T2.
    + exact R2.
    + unfold passes, rpasses in *. cbn [filter]. rewrite G1. destruct (is_rfill e); cbn [length]; lia.
    + cbn [rserved served fst snd]. intros [S3 S4]. destruct (S1 S3) as [S5 S6]. destruct (S2 (S4 _ E1)) as [S7 S8].
      split; [split; [exact S5|]|constructor; assumption]. intros y' E'. rewrite T1 in E'. injection E' as <-. exact S7.
Qed.
(** no undefined behaviour, unless the queue history has it *)
Lemma tasks_none : forall l s t th, Rel0 t th -> conf_ok s -> rtrun l (s, t) = None -> exists l', trun A EXT l' (s, th) = None.
Proof.
  induction l as [|e l IH]; intros s t th HR Hs; cbn [rtrun]; [discriminate|].
  destruct (rtstep e (s, t)) as [z|] eqn:E1.
  - intros E. destruct (sim_task e s t th z HR Hs E1) as (e' & th1 & T1 & R1 & F1 & _). destruct z as [s1 t1].
    destruct (IH s1 t1 th1 R1 F1 E) as [l' T2]. exists (e' :: l'). cbn [trun]. rewrite T1. exact T2.
  - intros _. destruct (task_none e s t th HR Hs E1) as [e' T1]. exists [e']. cbn [trun]. now rewrite T1.
Qed.
End Part.

(** ** A move on the ESP32 *)
Section Move.
Variable P : Z.
Hypothesis HP : part_size P.
Variable EXT : bool.
Notation A := arch_esp32.
Lemma HE : In A all_archs.
Proof. right. right. left. reflexivity. Qed.
(** The driver with the queue and the pins of a state; [stopped], [last]: any values left by
    earlier transmissions. The lists of commands and calls begin with the move. *)
Definition r_begin (stopped last : bool) (th : hq) : rq :=
  mkRq (mkR (mkRmt (tqueue th) (h_pins (hq_h th)) stopped last) Free false [] []) (hq_p th) [].
Lemma begin_Rel up stopped last th : good A th -> own_pin (q_pin (tqueue th)) -> q_running (tqueue th) = false ->
  pend A (tqueue th) = [] -> Rel0 P A (h_acc (hq_h th)) up (tqueue th) (r_begin stopped last th) th.
Proof.
  intros [Hi Hf] Ho Hr Hp. pose proof (iv_wf A _ Hi) as W.
  assert (Hn : nonempty (tqueue th) = false).
  { apply pend_nil in Hp. unfold nonempty. now rewrite Hp. }
  assert (RI : rinv A (rq_s (r_begin stopped last th))).
  { constructor; cbn [r_begin rq_s g_r r_q g_pc g_fresh g_log]; rewrite ?Hp, ?Hr, ?Hn; auto.
    - intros _ [K|[K|K]]; congruence.
    - discriminate.
    - exact I. }
  split; [|split; [reflexivity|split; [reflexivity|]]].
  - constructor; cbn [r_begin rq_s g_r r_q g_pc g_fresh g_log g_acc]; auto.
    + split; [exact Ho|]. rewrite Hf. split; [|exact I]. change (h_q (hq_h th)) with (tqueue th). rewrite Hp. constructor.
    + apply qsim_refl.
    + now rewrite app_nil_r.
  - constructor; auto; cbn [r_begin rq_s g_r r_q g_pc g_fresh g_log g_acc].
    + split; [exact Ho|]. auto.
    + exact I.
    + intros _. constructor; cbn [settled g_r r_q g_pc g_log g_acc]; rewrite ?Hp; auto.
    + intros _ _. rewrite Hp. split; constructor.
    + constructor.
    + intros _. exists []. cbn [g_log g_acc g_r r_q map flat_map app]. rewrite Hp. split; [apply pad_nil|reflexivity].
Qed.
Lemma woven_in a w : woven a w -> forall c, In c w -> c_steps c = 0 \/ In c a.
Proof.
  induction 1 as [|c cs w Hz Hw IH|c cs w Hw IH]; intros c' Hc; [destruct Hc|..]; destruct Hc as [<-|Hc].
  - now left.
  - apply IH. exact Hc.
  - right. now left.
  - destruct (IH c' Hc); [now left|right; now right].
Qed.
Lemma sum_total l : sum_steps l = total_steps l.
Proof. unfold sum_steps. induction l as [|c l IH]; cbn [map fold_right total_steps]; lia. Qed.
Lemma all_fit done w : woven done w -> Forall (valid_cmd A) done -> Forall (min_long A) w -> Forall (cmd_fits P) w.
Proof.
  intros Hw Hv Hl. apply Forall_forall. intros c Hc. rewrite Forall_forall in Hv, Hl.
  destruct (Hl c Hc) as [[C1 C2] C3]. unfold command_rate_ticks in C3. change (MIN_CMD_TICKS A) with 3200 in *.
  assert (PP : 24 <= P <= 32) by (destruct HP as [-> | ->]; lia).
  destruct (woven_in _ _ Hw c Hc) as [Hz|Hd].
  - rewrite Hz in C3. cbn in C3. split; rewrite Hz; [|left; lia]. split; [lia|]. split; [|cbn]; unfold u16, u32 in *; lia.
  - destruct (Hv c Hd) as (V1 & V2 & V3). change (MIN_CMD_TICKS A) with 3200 in *.
    split; [|apply spread_slow; [exact HP|lia]].
    split; [lia|]. split; [lia|]. destruct (Z.gtb_spec (c_steps c) 1); [|lia].
    apply Z.le_trans with (c_ticks c * 1); [lia|]. apply Z.mul_le_mono_nonneg_l; lia.
Qed.

(** [n]: the number of steps of the complete move; [lv]: the level of the direction pin *)
Definition on_the_line (lv : option bool) (n : Z) (log : list call) : Prop :=
  0 <= sum_edges log <= n
  /\ Forall (fun k => forall v, lv = Some v -> 0 < edges k -> k_level k = v) log
  /\ (forall l1 k l l2, log = l1 ++ k :: l :: l2 -> k_first l = false -> k_toggled l = true -> edges k = 0).
(** the symbols sent belong to the commands of the move [cs], with pauses in between; the
    symbols of [waiting] are still to come *)
Definition symbols_of (cs : list command) (log : list call) : Prop :=
  exists sent waiting done rest w, padded (short_part P (MIN_CMD_TICKS A)) sent (map k_words log)
    /\ cs = done ++ rest /\ woven done w /\ sent ++ waiting = flat_map (cmd_parts P) w.
Lemma total_pos l : Forall (min_long A) l -> 0 <= total_steps l.
Proof. induction 1 as [|c l [[_ H] _] _ IH]; cbn [total_steps]; lia. Qed.
Lemma edges_pos l : 0 <= sum_edges l.
Proof.
  assert (R : forall l b, 0 <= rises b l).
  { intros l0. induction l0 as [|[v d] l0 IH]; intros b; cbn [rises]; [lia|]. specialize (IH v). destruct (v && negb b); lia. }
  unfold sum_edges. induction l as [|k l IH]; cbn [map fold_right]; [lia|]. assert (0 <= edges k) by apply R. lia.
Qed.
Lemma left_pos l : Forall ent_ok l -> 0 <= sum_left l.
Proof. unfold sum_left. induction 1 as [|e l [_ H] _ IH]; cbn [map fold_right]; lia. Qed.
Lemma total_app a b : total_steps (a ++ b) = total_steps a + total_steps b.
Proof. induction a as [|c a IH]; cbn [app total_steps]; lia. Qed.
Lemma woven_total a w : woven a w -> total_steps w = total_steps a.
Proof. induction 1; cbn [total_steps]; lia. Qed.
Definition pin_level (q : queue) (up : bool) : option bool :=
  if has_pin q then Some (Bool.eqb up (q_hcu q)) else None.
Lemma rmt_move up cs pos s1 th stopped last : good A th -> conf_ok s1 -> own_pin (q_pin (tqueue th)) ->
  q_running (tqueue th) = false -> pend A (tqueue th) = [] ->
  Forall (valid_cmd A) cs -> Forall (moves_only up) cs -> carries A EXT up cs pos (s1, th) ->
  forall tasks y, rtrun P A EXT tasks (s1, r_begin stopped last th) = Some y ->
  let r := rq_s (snd y) in
  on_the_line (pin_level (tqueue th) up) (total_steps cs) (g_log r)
  /\ symbols_of cs (g_log r)
  /\ (isRampGeneratorActive (s_rg (fst y)) = false -> pend A (r_q (g_r r)) = [] ->
      sum_edges (g_log r) = total_steps cs /\ (forall done_p, getCurrentPosition A done_p (r_q (g_r r)) = pos)
      /\ woven cs (g_acc r) /\ padded (short_part P (MIN_CMD_TICKS A)) (flat_map (cmd_parts P) (g_acc r)) (map k_words (g_log r)))
  /\ (exists l' th', trun A EXT l' (s1, th) = Some (fst y, th') /\ accepted_cmds (fst y, th') = accepted_cmds (s1, th) ++ g_acc r).
Proof.
  intros Hg Hs Ho Hr Hp Hv Hm Hc tasks y E. cbv zeta.
  pose proof (begin_Rel up stopped last th Hg Ho Hr Hp) as HR.
  destruct (sim_tasks P A EXT HP HE _ _ _ tasks s1 _ th y HR Hs E) as (l' & th' & T & R & _ & _).
  destruct R as (R1 & _ & _ & K). set (r := rq_s (snd y)) in *.
  destruct (Hc l') as (y' & done & rest & w & T' & Ecs & Hw & Ha & Hq & Hend).
  rewrite T in T'. injection T' as <-. cbn [fst snd] in *.
  pose proof (rl_acc _ _ _ _ R1) as AC. unfold accepted_cmds in Ha. cbn [snd] in Ha. rewrite AC in Ha.
  apply app_inv_head in Ha. subst w.
  rewrite Ecs in Hv, Hm. apply Forall_app in Hv as [Hv1 Hv2]. apply Forall_app in Hm as [Hm1 Hm2].
  destruct K as [K1 K2 K3 K4 K5 K7 K8].
  pose proof (all_fit _ _ Hw Hv1 K7) as Hfit.
  assert (Hmo : Forall (moves_only up) (g_acc r)).
  { apply Forall_forall. intros c Hin. destruct (woven_in _ _ Hw c Hin) as [Hz|Hd]; [intros Hn; contradiction|].
    rewrite Forall_forall in Hm1. auto. }
  specialize (K4 Hfit). destruct (K5 Hfit Hmo) as [_ KW]. destruct (K8 Hfit) as (ks & Y1 & Y2).
  pose proof (ci_sum _ _ _ K4) as SUM. destruct (settled_fields r) as (F1 & F2 & F3). rewrite F1, F2, F3 in SUM.
  rewrite sum_total, (woven_total _ _ Hw) in SUM.
  pose proof (left_pos _ (ri_ent _ _ K1)) as LP. pose proof (edges_pos (g_log r)) as EP.
  assert (TR : 0 <= total_steps rest).
  { clear - Hv2. induction Hv2 as [|c l (_ & V & _) _ IH]; cbn [total_steps]; lia. }
  assert (TT : total_steps cs = total_steps done + total_steps rest) by (rewrite Ecs; apply total_app).
  unfold on_the_line. splits.
  - lia.
  - lia.
  - pose proof (ri_calls _ _ K1) as KC. unfold wants in KW. rewrite Forall_forall in KC, KW |- *. intros k Hk v Ev Hn.
    unfold pin_level in Ev. destruct (KC k Hk) as [KC1 _]. destruct (KW k Hk) as [KW1 KW2]. rewrite KW1 in KC1.
    destruct (has_pin (tqueue th)); [|discriminate]. injection Ev as <-. rewrite KC1 by auto. now apply KW2.
  - intros l1 k l l2 El Hf Ht. pose proof (ri_pairs _ _ K1) as KP. rewrite El in KP. apply pairs_split in KP.
    destruct (KP Hf) as [KP1 _]. now apply KP1.
  - exists ks, (flat_map (ent_parts P) (pend A (r_q (g_r r)))), done, rest, (g_acc r). auto.
  - intros Hi Hn. destruct (Hend Hi) as (-> & _ & Hpos).
    rewrite Hn in SUM, Y2. cbn [sum_left map fold_right] in SUM. cbn [flat_map] in Y2. rewrite app_nil_r in Y2, Ecs. subst done.
    split; [unfold sum_left in SUM; cbn in SUM; lia|].
    pose proof (rl_q _ _ _ _ R1) as [Q1 Q2].
    assert (Hn' : pend A (h_q (hq_h th')) = []).
    { apply pend_nil. apply pend_nil in Hn. rewrite Q1 in Hn. exact Hn. }
    destruct (Hpos Hn') as [Hp2 _]. split.
    + intros done_p. rewrite <- (Hp2 done_p). unfold fqueue. cbn [snd]. unfold getCurrentPosition.
      replace (q_rd (r_q (g_r r)) =? q_wr (r_q (g_r r))) with true.
      * replace (q_rd (h_q (hq_h th')) =? q_wr (h_q (hq_h th'))) with true; [rewrite Q1; reflexivity|].
        symmetry. rewrite (empty_rd A) by apply (rl_h _ _ _ _ R1). apply pend_nil in Hn'. unfold nonempty. now rewrite Hn'.
      * symmetry. rewrite (empty_rd A) by apply K1. apply pend_nil in Hn. unfold nonempty. now rewrite Hn.
    + split; [exact Hw|]. rewrite <- Y2. exact Y1.
  - exists l', th'. split; [exact T|]. exact AC.
Qed.

(** A stepper with its direction pin: setDirectionPin() tells the pin to the queue,
    src/FastAccelStepper.cpp:529-542 (see C60) *)
Definition rdinit (garbage : Z -> entry) (p ep : pins) (m : Z) (s : stepper) : stepper * hq :=
  let t := snd (finit A garbage p ep m s) in
  (s, mkHq (hstep A EXT (ESetDir (s_dirpin s) (s_hcu s)) (hq_h t)) (hq_p t) (hq_w t)).
Lemma rdinit_good garbage p ep m s0 evs : conf_ok s0 -> Forall fev_ok evs ->
  fgood A (frun A EXT evs (rdinit garbage p ep m s0)).
Proof.
  intros H1 H2.
  destruct (frun_ind A EXT HE (fun _ => True) (fun _ => True)) with (l := evs) (x := rdinit garbage p ep m s0)
    as (H & _); auto.
  - destruct (finit_good A HE garbage p ep m s0 H1) as [[Hi Hp] Hc]. split; [|exact Hc]. split; [|reflexivity].
    unfold rdinit. cbn [snd hq_h]. apply inv_step; [exact HE|exact Hi|exact I].
  - apply Forall_forall. auto.
Qed.
(** the pin and its polarity stay *)
Lemma fstep_pins e x : fgood A x -> fev_ok e ->
  let y := fstep A EXT e x in q_pin (fqueue y) = q_pin (fqueue x) /\ q_hcu (fqueue y) = q_hcu (fqueue x).
Proof.
  destruct x as [s t]. intros [Hg Hc] He. cbn [fst snd] in Hg, Hc. cbv zeta. unfold fqueue. destruct e; cbn [FrontHist.fstep].
  - pose proof (s_add_ok A EXT HE ext busy c start s (set_w ws t) Hg He Hc) as [].
    destruct (s_add A hq (hacc A EXT) ext busy c start s (set_w ws t)) as [[s' t'] code]. cbn [fst snd] in *.
    destruct sa_same. auto.
  - destruct (null_ok A EXT HE start (set_w ws t) Hg). destruct ns_same. auto.
  - destruct (isr_kept A EXT HE evs (hq_h t) (proj1 Hg)) as [I K]. destruct K. auto.
  - auto.
  - cbn [snd set_h hq_h hstep]. destruct (h_pc (hq_h t)); auto.
  - cbn [snd set_h hq_h hstep]. destruct (h_pc (hq_h t)); auto.
  - auto.
  - destruct (disableOutputs ext s (h_q (hq_h t)) (hq_p t)) as [[s1 p1] b]. auto.
  - auto.
  - auto.
  - auto.
  - auto.
  - auto.
Qed.
Lemma rdinit_pins garbage p ep m s0 evs : conf_ok s0 -> Forall fev_ok evs ->
  let q := fqueue (frun A EXT evs (rdinit garbage p ep m s0)) in q_pin q = s_dirpin s0 /\ q_hcu q = s_hcu s0.
Proof.
  intros H1 H2. cbv zeta.
  destruct (frun_ind A EXT HE (fun x => q_pin (fqueue x) = s_dirpin s0 /\ q_hcu (fqueue x) = s_hcu s0) (fun _ => True))
    with (l := evs) (x := rdinit garbage p ep m s0) as (_ & H & _); auto.
  - intros e x Hg He _ [K1 K2]. destruct (fstep_pins e x Hg He) as [K3 K4]. split; congruence.
  - exact (rdinit_good garbage p ep m s0 [] H1 (Forall_nil _)).
  - apply Forall_forall. auto.
Qed.
(** What is seen of a move of [n] steps to [pos] with the commands [cs], sent with the level [lv]
    of the direction pin; [plain]: the complete list of commands, when it does not depend on
    the schedule *)
Definition seen_move (lv : option bool) (n pos : Z) (cs : list command) (plain : option (list command)) (y : stepper * rq) : Prop :=
  let r := rq_s (snd y) in
  on_the_line lv n (g_log r)
  /\ symbols_of cs (g_log r)
  /\ (forall l, plain = Some l -> exists rest, l = g_acc r ++ rest /\ (isRampGeneratorActive (s_rg (fst y)) = false -> rest = []))
  /\ (isRampGeneratorActive (s_rg (fst y)) = false -> pend A (r_q (g_r r)) = [] ->
      sum_edges (g_log r) = n /\ (forall done_p, getCurrentPosition A done_p (r_q (g_r r)) = pos)
      /\ woven cs (g_acc r) /\ padded (short_part P (MIN_CMD_TICKS A)) (flat_map (cmd_parts P) (g_acc r)) (map k_words (g_log r))).
Lemma rmt_seen up n pos cs l s1 th stopped last : good A th -> conf_ok s1 -> own_pin (q_pin (tqueue th)) ->
  q_running (tqueue th) = false -> pend A (tqueue th) = [] -> n = total_steps cs ->
  Forall (valid_cmd A) cs -> Forall (moves_only up) cs -> carries A EXT up cs pos (s1, th) ->
  (forall l', l = Some l' -> exact_carries A EXT cs (s1, th) /\ l' = with_pauses (s_dirdelay s1) (up_of th) cs) ->
  forall tasks, exists y, rtrun P A EXT tasks (s1, r_begin stopped last th) = Some y /\
  seen_move (pin_level (tqueue th) up) n pos cs l y.
Proof.
  intros Hg Hs Ho Hr Hp -> Hv Hm Hc Hx tasks.
  destruct (rtrun P A EXT tasks (s1, r_begin stopped last th)) as [y|] eqn:E.
  2:{ destruct (tasks_none P A EXT HP HE _ up _ tasks s1 _ th (begin_Rel up stopped last th Hg Ho Hr Hp) Hs E) as [l' T].
      destruct (Hc l') as (y & _ & _ & _ & T2 & _). congruence. }
  exists y. split; [reflexivity|].
  destruct (rmt_move up cs pos s1 th stopped last Hg Hs Ho Hr Hp Hv Hm Hc tasks y E) as (K1 & K2 & K3 & (l' & th' & T & AC)).
  unfold seen_move. splits; auto. intros ll El. destruct (Hx ll El) as [X ->].
  destruct (X l') as (z & w & rest & T2 & A2 & A3 & A4). rewrite T in T2. injection T2 as <-.
  exists rest. unfold accepted_cmds in AC. cbn [snd fst] in *. unfold acc_of in A2. rewrite AC in A2. apply app_inv_head in A2. subst w.
  split; [exact A3|exact A4].
Qed.
(** the list of commands does not depend on the schedule, when the outputs are switched on
    already and the direction pin belongs to the microcontroller (see C97) *)
Definition one_list (fed : bool) (s : stepper) (q : queue) (cs : list command) : option (list command) :=
  if fed && negb (is_external (s_dirpin s)) then Some (with_pauses (s_dirdelay s) (qe_up (q_end q)) cs) else None.
Lemma moveTo_rmt garbage p ep m s0 evs a M pos : conf_ok s0 -> Forall fev_ok evs -> -2147483648 <= pos < 2147483648 ->
  let x := frun A EXT evs (rdinit garbage p ep m s0) in
  let q := fqueue x in
  let d := i32 (pos - qe_pos (q_end q)) in
  own_pin (q_pin q) -> q_running q = false -> pend A q = [] -> ready_to_move A (fst x) q a M d ->
  exists s1 cs, s_moveTo pos (fst x) q = (s1, MOVE_OK) /\ total_steps cs = Z.abs d
  /\ Forall (valid_cmd A) cs /\ speed_ok M cs /\
  forall fd stopped last tasks, (fd = true -> fed (fst x)) ->
  exists y, rtrun P A EXT tasks (s1, r_begin stopped last (snd x)) = Some y /\
  seen_move (pin_level q (0 <? d)) (Z.abs d) pos cs (one_list fd (fst x) q cs) y.
Proof.
  intros Hc He Hpos x q d Ho Hr Hp Hrd.
  destruct (rdinit_good garbage p ep m s0 evs Hc He) as [Hg Hcf]. fold x in Hg, Hcf.
  destruct (moveTo_planned A EXT HE _ _ a M Hg pos Hpos Hrd) as (s1 & cs & n & H1 & H2 & H3 & H4 & H5 & (H6 & _) & H7 & _).
  destruct (moveTo_keeps _ _ _ _ _ H1) as (g & Eg).
  exists s1, cs. splits; auto. intros fd stopped last tasks Hfd.
  change q with (tqueue (snd x)). apply (rmt_seen (0 <? d)) with (s1 := s1) (stopped := stopped) (last := last) (tasks := tasks); try assumption; [|symmetry; exact H2|].
  - rewrite Eg. exact Hcf.
  - intros l' El. unfold one_list in El. destruct fd; [|discriminate].
    destruct (is_external (s_dirpin (fst x))) eqn:Ex; [discriminate|]. injection El as <-. split; [|rewrite Eg; reflexivity].
    apply (inv_exact A EXT HE (q_max (tqueue (snd x))) n cs); [exact H6|cbn [fst]; rewrite Eg; apply Hfd; reflexivity|cbn [fst]; rewrite Eg; exact Ex].
Qed.
Lemma move_rmt garbage p ep m s0 evs a M delta : conf_ok s0 -> Forall fev_ok evs ->
  -2147483648 <= delta < 2147483648 -> delta <> 0 ->
  let x := frun A EXT evs (rdinit garbage p ep m s0) in
  let q := fqueue x in
  let g := s_rg (fst x) in
  let target := i32 (base_target g (q_end q) + pending_move g + delta) in
  let d := i32 (target - qe_pos (q_end q)) in
  own_pin (q_pin q) -> q_running q = false -> pend A q = [] -> ready_to_move A (fst x) q a M d ->
  (s_dirpin (fst x) = PIN_UNDEFINED -> 0 <= delta) ->
  exists s1 cs, s_move delta (fst x) = (s1, MOVE_OK) /\ total_steps cs = Z.abs d
  /\ Forall (valid_cmd A) cs /\ speed_ok M cs /\
  forall fd stopped last tasks, (fd = true -> fed (fst x)) ->
  exists y, rtrun P A EXT tasks (s1, r_begin stopped last (snd x)) = Some y /\
  seen_move (pin_level q (0 <? d)) (Z.abs d) target cs (one_list fd (fst x) q cs) y.
Proof.
  intros Hc He Hd0 Hd1 x q g target d Ho Hr Hp Hrd Hdir.
  destruct (rdinit_good garbage p ep m s0 evs Hc He) as [Hg Hcf]. fold x in Hg, Hcf.
  destruct (move_planned A EXT HE _ _ a M Hg delta Hd0 Hd1 Hrd Hdir) as (s1 & cs & n & H1 & H2 & H3 & H4 & H5 & (H6 & _) & H7 & _).
  destruct (move_keeps _ _ _ _ H1) as (g1 & Eg).
  exists s1, cs. splits; auto. intros fd stopped last tasks Hfd.
  change q with (tqueue (snd x)). apply (rmt_seen (0 <? d)) with (s1 := s1) (stopped := stopped) (last := last) (tasks := tasks); try assumption; [|symmetry; exact H2|].
  - rewrite Eg. exact Hcf.
  - intros l' El. unfold one_list in El. destruct fd; [|discriminate].
    destruct (is_external (s_dirpin (fst x))) eqn:Ex; [discriminate|]. injection El as <-. split; [|rewrite Eg; reflexivity].
    apply (inv_exact A EXT HE (q_max (tqueue (snd x))) n cs); [exact H6|cbn [fst]; rewrite Eg; apply Hfd; reflexivity|cbn [fst]; rewrite Eg; exact Ex].
Qed.
End Move.

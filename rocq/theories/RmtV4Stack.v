(** * RmtV4Stack: front end, queue and RMT driver (ESP-IDF 4) together

    The front end of Stepper.v (addQueueEntry, fill_queue) on the queue of the RMT driver of RmtV4.v:
    from the commands of the ramp generator to the two parts of the symbol memory. *)
From Coq Require Import ZArith Bool List Lia ZifyBool.
From Verif Require Import Base RampCalc RampGen RampStep RampRun RampMove RampSafe RampAcc RampUser RampPlan Queue QueueFacts QueuePos QueueHist QueueProp Stepper StepperHist FrontHist FrontProp FrontFill FrontTask FrontStart FrontMove FrontPause AccessSim StackSim Rmt RmtFacts RmtHist RmtCount RmtStack RmtV4 RmtV4Facts RmtV4Hist RmtV4Count.
Import ListNotations.
Open Scope Z_scope.
Ltac Zify.zify_post_hook ::= idtac.
Local Ltac splits := repeat match goal with |- _ /\ _ => split end.

(** Circumstances of one call of the queue's addQueueEntry: the number of parts the hardware is
    through with before the call, before the critical section, and before the test whether the queue
    is to be started *)
Record vweather := mkVwe { y_i0 : nat; y_i1 : nat; y_i2 : nat }.
(** The driver, the levels of the enable pins, the circumstances of the coming calls (none
    left: no interrupt) *)
Record fq := mkFq { fq_s : vst; fq_p : pins; fq_w : list vweather }.

Section Driver.
Variable N : bool.
Variable A : arch.
Variable EXT : bool.
Notation step := (vstep N A EXT).
Definition vints (n : nat) (s : vst) : vst := vrun N A EXT (sents n) s.
Definition vw1 (t : fq) : vweather := match fq_w t with [] => mkVwe 0 0 0 | x :: _ => x end.
(** q->addQueueEntry(&c, start): src/StepperISR.cpp:6-110 *)
Definition f_add (c : command) (start : bool) (t : fq) : fq * Z :=
  let x := vw1 t in
  let s0 := vints (y_i0 x) (fq_s t) in
  let s2 := vints (y_i1 x) (step (VBegin c start) s0) in
  let s4 := vints (y_i2 x) (step VCommit s2) in
  (mkFq (step VStart s4) (fq_p t) (tl (fq_w t)),
   let code := add_check A (ready_rmt (w_r (v_w s0))) c (v_q s0) in
   if code =? AQE_OK
   then match v_pc s2 with
        | Prepared _ ne _ => snd (add_commit (ready_rmt (w_r (v_w s2))) ne (v_q s2))
        | _ => AQE_OK
        end
   else code).
(** q->addQueueEntry(NULL, start) *)
Definition f_null (start : bool) (t : fq) : fq * Z :=
  let x := vw1 t in
  let s0 := vints (y_i0 x) (fq_s t) in
  (mkFq (if start then step VAddNull s0 else s0) (fq_p t) (tl (fq_w t)),
   a_code (q_add_null (ready_rmt (w_r (v_w s0))) start (v_q s0) (r_pins (w_r (v_w s0))))).
Definition facc : access fq := {|
  t_q := fun t => v_q (fq_s t);
  t_pins := fq_p;
  t_setpins := fun p t => mkFq (fq_s t) p (fq_w t);
  t_ignore := fun b t => mkFq (step (VIgnore b) (fq_s t)) (fq_p t) (fq_w t);
  t_add := f_add;
  t_null := f_null
|}.

(** ** Background task and interrupts, as in FrontTask.v *)
Inductive ftask :=
| FFill (ext : extcall) (busy : nat -> bool) (fuel : nat) (old : next_command) (ws : list vweather)
| FSent (n : nat)
| FTick (ext : extcall).
Definition fset_w (ws : list vweather) (t : fq) : fq := mkFq (fq_s t) (fq_p t) ws.
Definition ftstep (e : ftask) (x : stepper * fq) : option (stepper * fq) :=
  let '(s, t) := x in
  match e with
  | FFill ext busy fuel old ws => fill_queue A fq facc ext busy fuel old s (fset_w ws t)
  | FSent n => Some (s, mkFq (vints n (fq_s t)) (fq_p t) (fq_w t))
  | FTick ext =>
    let r := tick ext s (v_q (fq_s t)) (fq_p t) in Some (fst r, t_setpins fq facc (snd r) t)
  end.
Fixpoint ftrun (l : list ftask) (x : stepper * fq) : option (stepper * fq) :=
  match l with
  | [] => Some x
  | e :: l' => match ftstep e x with None => None | Some y => ftrun l' y end
  end.

Hypothesis HA : In A all_archs.
Notation L := (QUEUE_LEN A).
Notation X := (hacc A EXT).
Notation norep := (norep A).

(** ** The driver and the queue history *)
Variable ACC0 : list command.
Record rel4 (s : vst) (h : hst) : Prop := mkRel4 {
  fl_v : vinv N A s;
  fl_h : inv A h;
  fl_n : norep h;
  fl_q : qsim (v_q s) (h_q h);
  fl_pc : v_pc s = h_pc h;
  fl_acc : h_acc h = ACC0 ++ v_acc s
}.
(** a part of the first command *)
Lemma take_sim r h left : qsim (r_q r) (h_q h) -> inv A h -> norep h -> nonempty (h_q h) = true -> q_running (h_q h) = true ->
  0 <= left <= e_steps (head A (h_q h)) ->
  exists l, qsim (if left =? 0 then (if e_repeat (head A (r_q r)) then r_q r else q_pop (r_q r))
                  else set_first A (with_steps left (head A (r_q r))) (r_q r)) (h_q (isr A EXT l h)).
Proof.
  intros T4 R2 (N1 & N2 & N3) Qn Qr PL.
  destruct (untoggle_eq _ _ (qsim_head A _ _ T4)) as (H1 & H2 & H3 & H4 & H5 & H6 & H7 & H8).
  pose proof (pend_pop A HA _ (iv_wf A h R2) (proj1 (nonempty_iff _) Qn)) as Hpp.
  assert (Hrep : e_repeat (head A (h_q h)) = false) by (rewrite Hpp in N2; now inversion N2).
  assert (Hent : ent_ok (head A (h_q h))).
  { pose proof (iv_ent A h R2) as K. rewrite Hpp in K. now inversion K. }
  destruct Hent as [He1 He2]. rewrite H3, Hrep.
  pose proof T4 as [T5 T6].
  destruct (resume A EXT h Qn Qr) as [D1 D2].
  destruct (Z.eqb_spec left 0) as [->|Hl].
  - exists [EResume; EPop].
    unfold isr. cbn [filter isr_ev hrun]. cbn [hstep] in D1, D2. cbn [hstep]. rewrite D1, D2, Qn, Qr. cbn [andb].
    rewrite sh_q. cbn [h_q]. rewrite ?D1. split.
    + rewrite T5 at 1. cbn [q_ent q_pop set_rd]. rewrite T5. reflexivity.
    + intros i. apply T6.
  - exists [EResume; EDec (e_steps (head A (h_q h)) - left)].
    unfold isr. cbn [filter isr_ev hrun]. cbn [hstep] in D1, D2. cbn [hstep]. rewrite D1, D2, Qn, Qr. cbn [andb].
    replace (_ - left <=? _) with true by lia. rewrite andb_true_r.
    assert (EQ : forall q2, q2 = h_q h \/ q2 = q_dec A (e_steps (head A (h_q h)) - left) (h_q h) ->
       (q2 = h_q h -> left = e_steps (head A (h_q h))) ->
       qsim (set_first A (with_steps left (head A (r_q r))) (r_q r)) q2).
    { intros q2 K1 K2. split.
      - unfold set_first. rewrite (ent_ent _ _ _ _ T5). destruct K1 as [->| ->]; reflexivity.
      - intros i. unfold set_first. cbn [set_ent q_ent]. unfold upd.
        replace (q_rd (r_q r)) with (q_rd (h_q h)) by (rewrite T5; reflexivity).
        destruct (Z.eqb_spec i (slot A (q_rd (h_q h)))) as [->|K3].
        + destruct K1 as [K1|K1].
          * rewrite K1. rewrite (K2 K1). change (q_ent (h_q h) (slot A (q_rd (h_q h)))) with (head A (h_q h)).
            rewrite <- (qsim_head A _ _ T4). rewrite <- H1. destruct (head A (r_q r)); reflexivity.
          * rewrite K1. unfold q_dec. cbn [set_ent q_ent]. unfold upd. rewrite Z.eqb_refl.
            unfold untoggle, with_steps. cbn [e_steps e_toggle e_up e_more e_has e_repeat e_dirstate e_ticks e_pos16].
            rewrite H2, H3, H4, H5, H6, H7, H8. f_equal. unfold u8. rewrite Z.mod_small; lia.
        + destruct K1 as [->| ->]; [apply T6|]. unfold q_dec. cbn [set_ent q_ent]. unfold upd.
          destruct (Z.eqb_spec i (slot A (q_rd (h_q h)))); [contradiction|apply T6]. }
    destruct (Z.ltb_spec 0 (e_steps (head A (h_q h)) - left)); cbn [h_q].
    + apply EQ; [now right|]. intros K. exfalso.
      assert (KK : e_steps (head A (q_dec A (e_steps (head A (h_q h)) - left) (h_q h))) = left).
      { unfold head at 1. unfold q_dec. cbn [set_ent q_ent q_rd]. unfold upd. rewrite Z.eqb_refl. cbn [e_steps]. unfold u8. rewrite Z.mod_small; lia. }
      rewrite K in KK. lia.
    + rewrite sh_q. apply EQ; [now left|]. lia.
Qed.
Lemma wq_put two b w : wq (put two b w) = wq w.
Proof. unfold wq. now rewrite (proj1 (put_r _ _ _)). Qed.
Lemma apply_sim two w h : wok N A w -> qsim (wq w) (h_q h) -> inv A h -> norep h -> q_running (h_q h) = true ->
  exists l, qsim (wq (apply4 N A two w)) (h_q (isr A EXT l h)).
Proof.
  intros W R4 R2 R3 Qr. unfold apply4. fold (wq w). rewrite (empty_rd A) by apply W.
  pose proof R4 as [E4 S4].
  assert (Qn : nonempty (wq w) = nonempty (h_q h)) by (rewrite E4; reflexivity).
  destruct (nonempty (wq w)) eqn:En; cbn [negb].
  2:{ exists []. destruct two; [exact R4|]. rewrite wq_put. exact R4. }
  destruct (_ && _).
  { exists []. rewrite wq_put. exact R4. }
  pose proof (qsim_toggle A (w_r w) _ R4) as T4. set (r1 := toggle_first A (w_r w)) in *. clearbody r1.
  destruct (untoggle_eq _ _ (qsim_head A _ _ T4)) as (H1 & H2 & _).
  pose proof (pend_pop A HA _ (iv_wf A h R2) (proj1 (nonempty_iff _) (eq_sym Qn))) as Hpp.
  assert (Hent : ent_ok (head A (h_q h))).
  { pose proof (iv_ent A h R2) as K. rewrite Hpp in K. now inversion K. }
  destruct Hent as [He1 He2]. rewrite <- H1 in He2.
  pose proof (part4_left N two (e_steps (head A (r_q r1))) (e_ticks (head A (r_q r1))) He2) as (PF1 & PF2 & PF3).
  set (x := v4_part N two (e_steps (head A (r_q r1))) (e_ticks (head A (r_q r1)))) in *.
  rewrite wq_put. cbn [with_r]. unfold wq. cbn [w_r r_q].
  apply take_sim; auto. rewrite <- H1. split; [lia|].
  destruct (Z.eq_dec (e_steps (head A (r_q r1))) 0) as [K|K]; [rewrite (PF3 K); lia|specialize (PF2 K); lia].
Qed.
Lemma keep4 l s s' h : rel4 s h -> vinv N A s' -> qsim (v_q s') (h_q (isr A EXT l h)) -> v_pc s' = v_pc s -> v_acc s' = v_acc s ->
  rel4 s' (isr A EXT l h).
Proof.
  intros [R1 R2 R3 R4 R5 R7] K1 K2 K3 K4. destruct (isr_kept A EXT HA l h R2) as [I' K].
  constructor; auto; [now apply norep_isrs|rewrite K3, (k_pc _ _ K); exact R5|rewrite K4, (k_acc _ _ K); exact R7].
Qed.
(** an interrupt *)
Lemma rel_sent s h : rel4 s h -> exists l, rel4 (step VSent s) (isr A EXT l h).
Proof.
  intros HR. pose proof HR as [R1 R2 R3 R4 R5 R7].
  assert (VI : vinv N A (step VSent s)) by (apply vinv_step; auto; exact I).
  pose proof R4 as [E4 S4].
  assert (Qr : q_running (v_q s) = q_running (h_q h)) by (rewrite E4; reflexivity).
  assert (Qn : nonempty (v_q s) = nonempty (h_q h)) by (rewrite E4; reflexivity).
  pose proof (vi_w _ _ _ R1) as W. pose proof (vi_run _ _ _ R1) as Hrun.
  pose proof (vi_conti _ _ _ R1) as Hc. pose proof (vi_old _ _ _ R1) as Ho. pose proof (vi_stop _ _ _ R1) as Hs.
  revert VI. cbn [vstep]. unfold sent. destruct (v_hw s) eqn:Eh; intros VI.
  - exists []. exact HR.
  - rewrite Hrun in Qr by discriminate.
    destruct (negb N && _) eqn:Es.
    + exists []. eapply keep4; eauto.
    + destruct (apply_sim false (v_w s) h W R4 R2 R3 (eq_sym Qr)) as [l Hl].
      exists l. eapply keep4; eauto.
  - rewrite Hrun in Qr by discriminate. specialize (Hc ltac:(discriminate)). specialize (Ho ltac:(discriminate)).
    destruct (w_conti (v_w s)) eqn:Ec.
    + destruct (negb N && _) eqn:Es.
      { exfalso. apply andb_true_iff in Es as [E1 E2]. apply negb_true_iff in E1. specialize (Ho E1). rewrite E2 in Ho. discriminate. }
      destruct (apply_sim true (v_w s) h W R4 R2 R3 (eq_sym Qr)) as [l Hl].
      exists l. eapply keep4; eauto.
    + specialize (Hc eq_refl). rewrite Hc, orb_true_r in VI |- *. exists [EStop]. eapply keep4; eauto.
      specialize (Hs (Hrun ltac:(discriminate)) Hc). apply pend_nil in Hs.
      unfold isr. cbn [filter isr_ev hrun hstep]. rewrite <- Qn, <- Qr. unfold nonempty. rewrite Hs. cbn [negb andb Z.eqb with_q h_q].
      split; [|exact S4]. unfold v_q in *. cbn [v_w with_r w_r mkrun r_q]. rewrite E4 at 1. reflexivity.
  - exfalso. exact (vi_loop _ _ _ R1 Eh).
Qed.
Lemma vints_S n s : vints (S n) s = vints n (step VSent s).
Proof. reflexivity. Qed.
Lemma rel_sents : forall n s h, rel4 s h -> exists l, rel4 (vints n s) (isr A EXT l h).
Proof.
  induction n as [|n IH]; intros s h H; [exists []; exact H|]. rewrite vints_S.
  destruct (rel_sent s h H) as [l1 H1]. destruct (IH _ _ H1) as [l2 H2].
  exists (l1 ++ l2). rewrite isr_app. exact H2.
Qed.
Lemma rel4_begin c start s h : rel4 s h -> cmd_ok c ->
  rel4 (step (VBegin c start) s) (hstep A EXT (EBegin c start (ready_rmt (w_r (v_w s)))) h)
  /\ add_check A (ready_rmt (w_r (v_w s))) c (v_q s) = add_check A (ready_rmt (w_r (v_w s))) c (h_q h)
  /\ (add_check A (ready_rmt (w_r (v_w s))) c (h_q h) <> AQE_OK -> v_pc s = Free ->
      last_code (hstep A EXT (EBegin c start (ready_rmt (w_r (v_w s)))) h) = add_check A (ready_rmt (w_r (v_w s))) c (h_q h)
      /\ v_pc (step (VBegin c start) s) = Free)
  /\ (add_check A (ready_rmt (w_r (v_w s))) c (h_q h) = AQE_OK -> v_pc s = Free ->
      exists ne, v_pc (step (VBegin c start) s) = Prepared c ne start).
Proof.
  intros HR Hc. pose proof HR as [R1 R2 R3 R4 R5 R7]. pose proof R4 as [E4 S4].
  set (rd := ready_rmt (w_r (v_w s))).
  assert (RI : vinv N A (step (VBegin c start) s)) by (apply vinv_step; auto).
  assert (HI : inv A (hstep A EXT (EBegin c start rd) h)) by (apply inv_step; auto).
  pose proof (norep_begin A EXT HA h c start rd R2 R3) as HN.
  assert (EC : add_check A rd c (v_q s) = add_check A rd c (h_q h)) by (rewrite E4; reflexivity).
  split; [|split; [exact EC|]].
  - revert RI HI HN. cbn [vstep hstep]. change (r_q (w_r (v_w s))) with (v_q s). fold rd. rewrite EC. destruct (v_pc s) eqn:Epc; rewrite <- R5; [|intros; exact HR|intros; exact HR].
    destruct (add_check A rd c (h_q h) =? AQE_OK) eqn:Ek.
    2:{ intros RI HI HN. constructor; auto. }
    intros RI HI HN. constructor; auto.
    + unfold v_q at 1. cbn [v_w with_r w_r r_q h_q]. unfold add_prepare.
      replace (direct_dir (v_q s)) with (direct_dir (h_q h)) by (rewrite E4; reflexivity).
      assert (EN : new_entry A EXT c (v_q s) = new_entry A EXT c (h_q h)) by (rewrite E4; reflexivity).
      assert (QS : qsim (set_ent (upd (q_ent (v_q s)) (slot A (q_wr (v_q s))) (new_entry A EXT c (v_q s))) (v_q s))
        (set_ent (upd (q_ent (h_q h)) (slot A (q_wr (h_q h))) (new_entry A EXT c (h_q h))) (h_q h))).
      { split.
        - cbn [set_ent q_ent]. rewrite (ent_ent _ _ _ _ E4). reflexivity.
        - intros i. cbn [set_ent q_ent]. rewrite EN. unfold upd.
          replace (q_wr (v_q s)) with (q_wr (h_q h)) by (rewrite E4; reflexivity).
          destruct (i =? slot A (q_wr (h_q h))); [reflexivity|apply S4]. }
      destruct (direct_dir (h_q h)); cbn [fst]; [|exact QS].
      destruct QS as [Q1 Q2]. split; [|exact Q2].
      match goal with |- set_end ?a ?x = set_ent _ (set_end ?b ?y) => 
        transitivity (set_end b x); [f_equal; rewrite E4; reflexivity|] end.
      rewrite Q1 at 1. reflexivity.
    + cbn [v_pc h_pc]. f_equal. rewrite E4. reflexivity.
  - cbn [vstep hstep]. change (r_q (w_r (v_w s))) with (v_q s). fold rd. rewrite EC. split; intros K Hf; rewrite ?Hf, <- ?R5, ?Hf.
    + destruct (Z.eqb_spec (add_check A rd c (h_q h)) AQE_OK) as [Ek|Ek]; [contradiction|].
      split; [|exact Hf]. unfold last_code. cbn [h_res]. rewrite last_last. reflexivity.
    + rewrite K, Z.eqb_refl. cbn [v_pc]. eexists. reflexivity.
Qed.
Lemma rel4_commit s h : rel4 s h ->
  rel4 (step VCommit s) (hstep A EXT (ECommit (ready_rmt (w_r (v_w s)))) h)
  /\ match v_pc s with
     | Prepared _ ne _ => last_code (hstep A EXT (ECommit (ready_rmt (w_r (v_w s)))) h) = snd (add_commit (ready_rmt (w_r (v_w s))) ne (v_q s))
     | _ => hstep A EXT (ECommit (ready_rmt (w_r (v_w s)))) h = h
     end.
Proof.
  intros HR. pose proof HR as [R1 R2 R3 R4 R5 R7]. pose proof R4 as [E4 S4].
  set (rd := ready_rmt (w_r (v_w s))).
  assert (RI : vinv N A (step VCommit s)) by (apply vinv_step; auto; exact I).
  assert (HI : inv A (hstep A EXT (ECommit rd) h)) by (apply inv_step; auto; exact I).
  pose proof (norep_commit A EXT HA h rd R2 R3) as HN.
  assert (EG : q_ignore (v_q s) = q_ignore (h_q h)) by (rewrite E4; reflexivity).
  revert RI HI HN. cbn [vstep hstep]. change (r_q (w_r (v_w s))) with (v_q s). fold rd. destruct (v_pc s) as [|c ne st|] eqn:Epc; rewrite <- R5; [split; auto| |split; auto].
  unfold add_commit. rewrite EG.
  intros RI HI HN. split.
  2:{ unfold last_code. cbn [h_res]. rewrite last_last. cbn [snd]. destruct (q_ignore (h_q h)); [reflexivity|destruct rd; reflexivity]. }
  constructor; auto; unfold with_vq, v_q; cbn [v_w with_r w_r with_rq r_q h_q v_acc h_acc v_pc h_pc]; destruct (q_ignore (h_q h)) eqn:Ei; cbn [fst snd]; auto;
    destruct rd eqn:Erd; cbn [fst snd]; auto.
  - split; [|exact S4]. change (r_q (w_r (v_w s))) with (v_q s). rewrite E4 at 1. cbn [q_ent set_end set_wr]. rewrite E4. reflexivity.
  - rewrite R7. now rewrite app_assoc.
Qed.
(** the start takes the first two parts *)
Lemma start4_sim s h : rel4 s h -> nonempty (v_q s) = true -> vinv N A (start_v N A s) ->
  let h' := start_head A (with_pc Free (with_q (set_running true (h_q h)) h)) in
  inv A h' -> norep h' -> exists l, rel4 (start_v N A s) (isr A EXT l h').
Proof.
  intros HR Hn VI h' HI HN. pose proof HR as [R1 R2 R3 R4 R5 R7]. pose proof (vi_w _ _ _ R1) as W.
  assert (SH : h_q h' = set_running true (h_q h) /\ h_pc h' = Free /\ h_acc h' = h_acc h).
  { unfold h', start_head. destruct (_ && _); auto. }
  destruct SH as (SQ & SP & SA).
  destruct (start_spec N A HA (v_w s) W Hn) as (w1 & w2 & w3 & E & A1 & A2 & Hw1 & _ & Rn & _ & _ & _ & _ & E3).
  pose proof E as E'. unfold start4 in E. set (w0 := pattern N (with_r (stopped false (mkrun true (w_r (v_w s)))) (v_w s))) in E.
  assert (E0 : w_r w0 = stopped false (mkrun true (w_r (v_w s)))) by (unfold w0; now rewrite (proj1 (pattern_r _ _))).
  clear A1 A2 Hw1 Rn w1 w2 E3.
  assert (Q0 : qsim (wq w0) (h_q h')).
  { unfold wq. rewrite E0, SQ. cbn [stopped mkrun r_q]. destruct R4 as [E4 S4]. unfold v_q in *. split; [|exact S4]. rewrite E4 at 1. reflexivity. }
  assert (W0 : wok N A w0).
  { apply wok_pattern. destruct W. constructor; assumption. }
  clearbody w0.
  assert (Hn0 : nonempty (wq w0) = true) by (unfold wq; rewrite E0; exact Hn).
  rewrite (empty_rd A) in E by apply W0. fold (wq w0) in E. rewrite Hn0 in E. cbn [negb] in E.
  assert (W1 : wok N A (flags_on (with_r (toggle_first A (w_r w0)) w0))).
  { destruct W0 as [V1 V2 V3 V4]. destruct (toggle_first_spec A HA (w_r w0) V1 Hn0) as (e & t & T1 & T2 & T3 & T4 & T5 & _).
    unfold wq in V2. constructor; unfold wq; cbn [flags_on with_r w_r w_one w_two b_words]; auto.
    rewrite T2. rewrite T1 in V2. constructor; [|exact (Forall_inv_tail V2)]. rewrite T4. exact (Forall_inv V2). }
  assert (Q1 : qsim (wq (flags_on (with_r (toggle_first A (w_r w0)) w0))) (h_q h')) by (unfold wq; cbn [flags_on with_r w_r]; now apply qsim_toggle).
  set (w1 := flags_on (with_r (toggle_first A (w_r w0)) w0)) in *.
  assert (Rn : q_running (h_q h') = true) by (rewrite SQ; reflexivity).
  destruct (apply_sim false w1 h' W1 Q1 HI HN Rn) as [l1 Q2].
  pose proof (apply_spec N A HA false w1 W1) as A1. pose proof (ap_wok _ _ _ _ _ A1) as W2.
  destruct (isr_kept A EXT HA l1 h' HI) as [HI2 K2].
  assert (Rn2 : q_running (h_q (isr A EXT l1 h')) = true).
  { destruct Q2 as [Q2 _]. assert (Y : q_running (wq (apply4 N A false w1)) = q_running (h_q (isr A EXT l1 h'))) by (rewrite Q2; reflexivity).
    rewrite <- Y, (ap_running _ _ _ _ _ A1). destruct Q1 as [Q1 _]. rewrite Q1. exact Rn. }
  destruct (apply_sim true _ _ W2 Q2 HI2 (norep_isrs A EXT HA l1 h' HI HN) Rn2) as [l2 Q3].
  exists (l1 ++ l2). rewrite isr_app.
  destruct (isr_kept A EXT HA l2 _ HI2) as [HI3 K3].
  assert (ES : v_q (start_v N A s) = wq (apply4 N A true (apply4 N A false w1))).
  { injection E as E. unfold start_v. rewrite E'. unfold v_q, wq. cbn [fst v_w]. rewrite <- E. cbn [w_r]. destruct N; reflexivity. }
  clearbody w1.
  constructor; auto.
  - now apply norep_isrs; [| |apply norep_isrs].
  - rewrite ES. exact Q3.
  - rewrite (k_pc _ _ K3), (k_pc _ _ K2), SP. reflexivity.
  - rewrite (k_acc _ _ K3), (k_acc _ _ K2), SA. exact R7.
Qed.
Lemma rel4_ignore b s h : rel4 s h -> rel4 (step (VIgnore b) s) (hstep A EXT (EIgnore b) h).
Proof.
  intros HR. pose proof HR as [R1 R2 R3 R4 R5 R7]. pose proof R4 as [E4 S4].
  constructor; auto.
  - apply vinv_step; auto; exact I.
  - apply inv_step; auto; exact I.
  - unfold v_q in *. cbn. split; [rewrite E4 at 1; cbn [q_ent set_ignore]; rewrite E4; reflexivity|exact S4].
Qed.
Notation qv s := (v_q s).
Lemma sent_pc s : v_pc (step VSent s) = v_pc s /\ v_acc (step VSent s) = v_acc s.
Proof. cbn [vstep]. unfold sent. destruct (v_hw s); auto. destruct (w_conti _); [|auto]. destruct (_ && _); auto. Qed.
Lemma sents_pc : forall n s, v_pc (vints n s) = v_pc s.
Proof. induction n as [|n IH]; intros s; [reflexivity|]. rewrite vints_S, IH. apply sent_pc. Qed.
Lemma sents_vinv : forall n s, vinv N A s -> vinv N A (vints n s).
Proof. induction n as [|n IH]; intros s H; [exact H|]. rewrite vints_S. apply IH, vinv_step; auto; exact I. Qed.
Lemma off_sents : forall n s, v_hw s = Off -> vints n s = s.
Proof.
  induction n as [|n IH]; intros s H; [reflexivity|]. rewrite vints_S.
  assert (E : step VSent s = s) by (cbn [vstep]; unfold sent; now rewrite H). rewrite E. now apply IH.
Qed.
Lemma idle_off s : vinv N A s -> q_running (qv s) = false -> v_hw s = Off.
Proof. intros H Hr. pose proof (vi_run _ _ _ H) as K. destruct (v_hw s); auto; rewrite K in Hr by discriminate; discriminate. Qed.
(** a queue that stops running: the hardware is off then *)
Lemma split_off : forall n s, vinv N A s -> q_running (qv s) = true -> q_running (qv (vints n s)) = false ->
  exists n1, q_running (qv (vints n1 s)) = true /\ qv (vints n s) = set_running false (qv (vints n1 s)).
Proof.
  induction n as [|n IH]; intros s H Hr; [cbn; unfold vints; cbn; congruence|]. rewrite vints_S. intros Hf.
  assert (V : vinv N A (step VSent s)) by (apply vinv_step; auto; exact I).
  destruct (q_running (qv (step VSent s))) eqn:Er.
  - destruct (IH _ V Er Hf) as (n1 & L1 & L2). exists (S n1). rewrite vints_S. auto.
  - exists O. split; [exact Hr|]. rewrite off_sents by now apply idle_off. change (vints 0 s) with s.
    pose proof (vi_w _ _ _ H) as W. revert Er V. cbn [vstep]. unfold sent. destruct (v_hw s) eqn:Eh; try congruence.
    + destruct (negb N && _); unfold v_q in *; cbn [v_w]; [congruence|].
      pose proof (ap_running _ _ _ _ _ (apply_spec N A HA false _ W)) as K. unfold wq in K. congruence.
    + pose proof (ap_running _ _ _ _ _ (apply_spec N A HA true _ W)) as K. unfold wq in K.
      destruct (w_conti _).
      * destruct (negb N && _); [intros _ _; reflexivity|]. unfold v_q in *. cbn [v_w]. congruence.
      * destruct (N || _); [intros _ _; reflexivity|]. unfold v_q in *. cbn [v_w]. congruence.
Qed.
Lemma commit4_pc s c ne st : v_pc s = Prepared c ne st -> v_pc (step VCommit s) = Free \/ v_pc (step VCommit s) = Committed st.
Proof. intros E. cbn [vstep]. rewrite E. cbn [v_pc]. destruct (_ =? _); auto. Qed.
(** the test whether the queue is to be started. The start of a queue that has run empty in
    the meantime leaves it running, as if its end had not been noticed. *)
Lemma test4 n s h : rel4 s h ->
  (v_pc s = Free \/ exists st, v_pc s = Committed st /\ (q_running (qv s) = false -> nonempty (qv s) = true)) ->
  let s4 := vints n s in
  exists e2 e3, let h5 := hstep A EXT EStartQ (isr A EXT e2 h) in
    rel4 (step VStart s4) (isr A EXT e3 h5) /\ v_pc (step VStart s4) = Free /\ h_res h5 = h_res h.
Proof.
  intros HR Hp. cbv zeta. set (s4 := vints n s).
  assert (KR : forall l h, inv A h -> h_res (isr A EXT l h) = h_res h).
  { intros l0 h0 I0. destruct (isr_kept A EXT HA l0 h0 I0) as [_ K]. apply K. }
  destruct (rel_sents n _ _ HR) as [e2 H4]. fold s4 in H4.
  pose proof H4 as [R1 R2 R3 R4 R5 R7]. pose proof R4 as [E4 S4].
  assert (P4 : v_pc s4 = v_pc s) by apply sents_pc.
  assert (VI : vinv N A (step VStart s4)) by (apply vinv_step; auto; exact I).
  assert (HI : inv A (hstep A EXT EStartQ (isr A EXT e2 h))) by (apply inv_step; auto; exact I).
  pose proof (norep_rest A EXT (isr A EXT e2 h) EStartQ I R3) as HN.
  set (h4 := isr A EXT e2 h) in *.
  destruct Hp as [Hp|(st & Hp & Hn)].
  { exists e2, []. fold h4. rewrite isr_nil. cbn [vstep hstep]. rewrite P4, Hp, <- R5, P4, Hp. splits; auto; try congruence; apply KR, HR. }
  assert (ES : add_starts st (qv s4) = add_starts st (h_q h4)) by (rewrite E4; reflexivity).
  destruct (add_starts st (qv s4)) eqn:Es.
  2:{ exists e2, []. fold h4. rewrite isr_nil. revert VI HI HN. cbn [vstep hstep]. change (r_q (w_r (v_w s4))) with (qv s4).
      rewrite P4, Hp, <- R5, P4, Hp, Es, <- ES. intros VI HI HN. splits; auto; try (apply KR, HR); constructor; auto. }
  assert (R4r : q_running (qv s4) = false) by (unfold add_starts in Es; destruct (q_running (qv s4)); [discriminate|reflexivity]).
  destruct (nonempty (qv s4)) eqn:En.
  - revert VI HI HN. cbn [vstep hstep]. change (r_q (w_r (v_w s4))) with (qv s4).
    rewrite P4, Hp, Es, <- R5, P4, Hp, <- ES. intros VI HI HN.
    destruct (start4_sim s4 h4 H4 En VI HI HN) as [e3 H5].
    exists e2, e3. fold h4. cbn [hstep]. rewrite <- R5, P4, Hp, <- ES. splits; auto.
    transitivity (h_res h4); [unfold start_head; destruct (_ && _); reflexivity|]. apply KR, HR.
  - assert (RS : q_running (qv s) = true).
    { destruct (q_running (qv s)) eqn:K; [reflexivity|exfalso]. specialize (Hn eq_refl).
      unfold s4 in En. rewrite off_sents in En; [congruence|]. apply idle_off; [apply HR|exact K]. }
    destruct (split_off n s (fl_v _ _ HR) RS R4r) as (n1 & L1 & L2).
    destruct (rel_sents n1 _ _ HR) as [e2' H4']. pose proof H4' as [Q1 Q2 Q3 Q4 Q5 Q7]. pose proof Q4 as [F4 G4].
    assert (P4' : v_pc (vints n1 s) = Committed st) by (rewrite sents_pc; exact Hp).
    exists e2', []. rewrite isr_nil. set (h4' := isr A EXT e2' h) in *.
    assert (HI' : inv A (hstep A EXT EStartQ h4')) by (apply inv_step; auto; exact I).
    pose proof (norep_rest A EXT h4' EStartQ I Q3) as HN'.
    assert (Rh : q_running (h_q h4') = true) by (rewrite <- L1, F4; reflexivity).
    assert (EH : hstep A EXT EStartQ h4' = with_pc Free h4').
    { cbn [hstep]. rewrite <- Q5, P4'. unfold add_starts. rewrite Rh. reflexivity. }
    rewrite EH in *.
    assert (EV : qv (step VStart s4) = set_running true (qv s4) /\ v_pc (step VStart s4) = Free /\ v_acc (step VStart s4) = v_acc s4).
    { cbn [vstep]. change (r_q (w_r (v_w s4))) with (qv s4). rewrite P4, Hp, Es. unfold start_v.
      rewrite (start_empty N A (v_w s4) (vi_w _ _ _ R1) En). cbn [fst snd]. unfold v_q. cbn [v_w v_pc v_acc].
      rewrite (proj1 (pattern_r _ _)). auto. }
    destruct EV as (V1 & V2 & V3).
    splits; [|exact V2|apply KR, HR].
    constructor; auto.
    + rewrite V1. unfold s4. rewrite L2. cbn [with_pc h_q]. split; [|exact G4].
      cbn [q_ent set_running]. rewrite F4 at 1. destruct (h_q h4'); cbn in *; subst; reflexivity.
    + rewrite V3. cbn [with_pc h_acc]. rewrite Q7. f_equal.
      assert (G : forall k u, v_acc (vints k u) = v_acc u).
      { induction k as [|k IH]; intros u; [reflexivity|]. rewrite vints_S, IH. apply sent_pc. }
      unfold s4. now rewrite !G.
Qed.
Lemma rel4_null (start : bool) s h : rel4 s h -> v_pc s = Free ->
  exists e3, rel4 (if start then step VAddNull s else s) (isr A EXT e3 (hstep A EXT (EAddNull start (ready_rmt (w_r (v_w s)))) h))
  /\ v_pc (if start then step VAddNull s else s) = Free
  /\ a_code (q_add_null (ready_rmt (w_r (v_w s))) start (v_q s) (r_pins (w_r (v_w s))))
     = a_code (q_add_null (ready_rmt (w_r (v_w s))) start (h_q h) (h_pins h)).
Proof.
  intros HR Hp. pose proof HR as [R1 R2 R3 R4 R5 R7]. pose proof R4 as [E4 S4].
  set (rd := ready_rmt (w_r (v_w s))).
  assert (RI : vinv N A (step VAddNull s)) by (apply vinv_step; auto; exact I).
  assert (HI : inv A (hstep A EXT (EAddNull start rd) h)) by (apply inv_step; auto; exact I).
  pose proof (norep_rest A EXT h (EAddNull start rd) I R3) as HN.
  assert (EA : a_code (q_add_null rd start (v_q s) (r_pins (w_r (v_w s)))) = a_code (q_add_null rd start (h_q h) (h_pins h)) /\
    a_started (q_add_null rd start (v_q s) (r_pins (w_r (v_w s)))) = a_started (q_add_null rd start (h_q h) (h_pins h))).
  { rewrite E4. unfold q_add_null. cbn [set_ent q_running q_wr q_rd]. destruct (negb rd); [split; reflexivity|].
    destruct (start && _); [|split; reflexivity]. destruct (_ =? _); split; reflexivity. }
  destruct EA as [EA1 EA2].
  assert (EN : a_started (q_add_null rd start (h_q h) (h_pins h)) = true -> start = true /\ nonempty (v_q s) = true).
  { rewrite <- EA2. unfold q_add_null. destruct (negb rd); [discriminate|]. destruct start; [|discriminate]. cbn [andb].
    destruct (negb (q_running _)); [|discriminate]. rewrite Z.eqb_sym, (empty_rd A) by apply (vi_w _ _ _ R1).
    destruct (nonempty (v_q s)); cbn [negb a_started]; auto. }
  revert RI HI HN. cbn [vstep hstep]. change (r_q (w_r (v_w s))) with (v_q s). fold rd. rewrite Hp, <- R5, Hp. cbn [is_free andb].
  destruct start.
  - rewrite EA2. destruct (a_started (q_add_null rd true (h_q h) (h_pins h))) eqn:Ea.
    + destruct (EN eq_refl) as [_ En]. intros RI HI HN.
      assert (EE : with_q (set_running true (h_q h)) h = with_pc Free (with_q (set_running true (h_q h)) h)).
      { unfold with_pc, with_q. cbn. rewrite <- R5, Hp. reflexivity. }
      rewrite EE in *. destruct (start4_sim s h HR En RI HI HN) as [e3 H3]. exists e3. split; [exact H3|split; [reflexivity|exact EA1]].
    + intros _ HI HN. exists []. splits; auto.
  - destruct (a_started (q_add_null rd false (h_q h) (h_pins h))) eqn:Ea; [destruct (EN eq_refl); discriminate|].
    intros _ HI HN. exists []. splits; auto.
Qed.

(** ** The rising edges *)
Variable up : bool.
Variable q0 : queue.
Notation fit := (cmd_fits4 N).
Notation kinv := (kinv N A).
Notation ups := (ups up).
Notation pin_same := (pin_same q0).
Notation want0 := (Bool.eqb up (q_hcu q0)).
(** a command that is being prepared does not count yet *)
Definition calm (s : vst) : vst :=
  match v_pc s with Prepared _ _ _ => mkV (v_w s) Free (v_hw s) (v_acc s) (v_log s) | _ => s end.
Definition wants4 (l : list chunk) : Prop :=
  Forall (fun k => x_pin k = has_pin q0 /\ (0 < xedges k -> x_want k = want0)) l.
Definition part_wants (b : buf) : Prop := 0 < bedges b -> b_want b = want0.
Record sinv (s : vst) : Prop := mkSinv {
  sv_v : vinv N A s;
  sv_same : pin_same (qv s);
  sv_prep : match v_pc s with
            | Prepared c _ _ => min_long A c /\ (fit c -> ent_fits4 N (q_ent (qv s) (slot A (q_wr (qv s)))))
            | _ => True
            end;
  sv_cnt : Forall fit (v_acc s) -> kinv (calm s);
  sv_dir : Forall fit (v_acc s) -> Forall (moves_only up) (v_acc s) ->
           ups (pend A (qv s)) /\ wants4 (v_log s) /\ (v_hw s <> Off -> forall two, part_wants (part_of two (v_w s)));
  sv_long : Forall (min_long A) (v_acc s)
}.
Lemma calm_fields s : v_w (calm s) = v_w s /\ v_acc (calm s) = v_acc s /\ v_log (calm s) = v_log s /\ v_hw (calm s) = v_hw s.
Proof. unfold calm. destruct (v_pc s); auto. Qed.
Lemma calm_id s : (v_pc s = Free \/ exists st, v_pc s = Committed st) -> calm s = s.
Proof. unfold calm. intros [->|[st ->]]; reflexivity. Qed.
Lemma calm_sent s : calm (step VSent s) = step VSent (calm s).
Proof.
  unfold calm. rewrite (proj1 (sent_pc s)). destruct (v_pc s) eqn:E; auto. cbn [vstep]. unfold sent.
  destruct (v_hw s) eqn:Eh; cbn [v_w v_hw v_pc v_acc v_log]; rewrite ?Eh; auto.
  destruct (w_conti _); [|reflexivity]. destruct (_ && _); reflexivity.
Qed.
Lemma calm_vinv s : vinv N A s -> vinv N A (calm s).
Proof.
  intros H. unfold calm. destruct (v_pc s) eqn:E; auto. destruct H. constructor; auto; cbn [v_w v_pc v_hw v_log].
  - exact I.
  - intros H. apply vi_sync. rewrite E. destruct H as [H|[H|H]]; [auto|auto|congruence].
Qed.
(** a part gets the steps of the first command *)
Lemma apply_dir two w w1 : wok N A w -> applied N A two w w1 -> Forall (ent_fits4 N) (pend A (wq w)) ->
  pin_same (wq w) -> ups (pend A (wq w)) -> ups (pend A (wq w1)) /\ part_wants (part_of two w1) /\ pin_same (wq w1).
Proof.
  intros Hw HP Hf Hs Hu. assert (PS : pin_same (wq w1)) by (eapply pin_of; [apply HP|apply HP|exact Hs]).
  destruct HP. unfold part_wants. destruct ap_case as [(-> & E & _)|(e & t & E1 & E2 & E3 & E4 & E5 & E6)].
  { splits; auto. intros K. lia. }
  pose proof (wk_part N A w two Hw) as Hl.
  pose proof (wk_ent _ _ _ Hw) as He. rewrite E1 in *.
  destruct (Forall_inv He) as [[He1 He2] He3]. destruct (Forall_inv Hf) as (F1 & F2 & F3).
  pose proof (Forall_inv Hu) as U1. pose proof (Forall_inv_tail Hu) as U2. cbv beta in U1.
  pose proof (part4_edges N two _ _ _ He2 F2 He3 F3 Hl) as (X1 & X2 & X3).
  splits; [| |exact PS].
  - rewrite E6, F1. destruct (_ =? 0) eqn:Ez; [exact U2|]. constructor; [|exact U2].
    cbn [with_steps untoggle e_steps e_up]. intros K. apply U1. intros K0.
    destruct (part4_left N two (e_steps e) (e_ticks e) He2) as (_ & _ & P3). specialize (P3 K0). lia.
  - unfold bedges. rewrite E5, X1, E4. intros K. rewrite U1; [|lia]. f_equal. apply Hs.
Qed.
Lemma wants4_snoc l two w w1 : wants4 l -> pin_same (wq w) -> part_wants (part_of two w) -> wants4 (l ++ [chunk_of two w w1]).
Proof.
  intros H Hs Hp. apply Forall_app. split; [exact H|]. constructor; [|constructor].
  split; [exact (pin_has _ _ Hs)|]. exact Hp.
Qed.
Lemma sinv_sent s : sinv s -> sinv (step VSent s).
Proof.
  intros [K1 K2 K3 K4 K5 K6].
  assert (V' : vinv N A (step VSent s)) by (apply vinv_step; auto; exact I).
  destruct (sent_pc s) as [EP EA].
  pose proof (vi_w _ _ _ K1) as W.
  pose proof (vi_conti _ _ _ K1) as Hc. pose proof (vi_old _ _ _ K1) as Ho.
  assert (QF : pin_same (qv (step VSent s)) /\
    (queueEntries (qv s) < L -> q_ent (qv (step VSent s)) (slot A (q_wr (qv (step VSent s)))) = q_ent (qv s) (slot A (q_wr (qv s))))).
  { assert (AQ : forall two, pin_same (wq (apply4 N A two (v_w s))) /\ (queueEntries (qv s) < L ->
        q_ent (wq (apply4 N A two (v_w s))) (slot A (q_wr (wq (apply4 N A two (v_w s))))) = q_ent (qv s) (slot A (q_wr (qv s))))).
    { intros two. pose proof (apply_spec N A HA two (v_w s) W) as AP. split; [eapply pin_of; [apply AP|apply AP|exact K2]|].
      intros Hq. rewrite (ap_wr _ _ _ _ _ AP), (ap_slot _ _ _ _ _ AP) by exact Hq. reflexivity. }
    cbn [vstep]. unfold sent. destruct (v_hw s); [auto| | |auto].
    - destruct (negb N && _); [auto|]. apply AQ.
    - destruct (w_conti _); [destruct (negb N && _); [auto|apply AQ]|]. destruct (N || _); [auto|apply AQ]. }
  destruct QF as [Q1 Q2].
  constructor; auto.
  - rewrite EP. destruct (v_pc s) as [|c ne st|] eqn:Ep; auto. destruct K3 as [K3a K3b]. split; [exact K3a|]. intros Hf.
    pose proof (vi_prep _ _ _ K1) as Y. rewrite Ep in Y. destruct Y as (_ & _ & Y & _). rewrite Q2 by exact Y. auto.
  - rewrite EA, calm_sent. intros Hf. apply kinv_sent; auto.
  - rewrite EA. intros Hf Hm. destruct (K5 Hf Hm) as (D1 & D2 & D3).
    specialize (K4 Hf). pose proof (ki_fit _ _ _ K4) as KF. destruct (calm_fields s) as (F1 & _ & _ & _). unfold v_q in KF. rewrite F1 in KF.
    assert (AD : forall two, ups (pend A (wq (apply4 N A two (v_w s)))) /\ part_wants (part_of two (apply4 N A two (v_w s)))
       /\ part_of (negb two) (apply4 N A two (v_w s)) = part_of (negb two) (v_w s)).
    { intros two. pose proof (apply_spec N A HA two (v_w s) W) as AP.
      destruct (apply_dir two _ _ W AP KF K2 D1) as (X1 & X2 & _). splits; auto. apply AP. }
    cbn [vstep]. unfold sent. destruct (v_hw s) eqn:Eh.
    + splits; auto; try congruence.
    + specialize (D3 ltac:(discriminate)). destruct (negb N && _); unfold v_q; cbn [v_w v_log v_hw].
      * splits; auto; apply wants4_snoc; auto; exact (D3 true).
      * destruct (AD false) as (X1 & X2 & X3). splits; auto; [apply wants4_snoc; auto; apply (D3 true)|].
        intros _ [|]; [|exact X2]. cbn [negb] in X3. rewrite X3. apply D3.
    + specialize (D3 ltac:(discriminate)). specialize (Hc ltac:(discriminate)). specialize (Ho ltac:(discriminate)).
      destruct (w_conti (v_w s)) eqn:Ec.
      * destruct (negb N && _) eqn:Es.
        { exfalso. apply andb_true_iff in Es as [E1 E2]. apply negb_true_iff in E1. specialize (Ho E1). rewrite E2 in Ho. discriminate. }
        unfold v_q; cbn [v_w v_log v_hw]. destruct (AD true) as (X1 & X2 & X3). splits; auto; [apply wants4_snoc; auto; exact (D3 false)|].
        intros _ [|]; [exact X2|]. cbn [negb] in X3. rewrite X3. apply D3.
      * rewrite (Hc eq_refl), orb_true_r. unfold v_q; cbn [v_w v_log v_hw]. splits; auto; try congruence.
    + exfalso. exact (vi_loop _ _ _ K1 Eh).
  - rewrite EA. exact K6.
Qed.
Lemma sinv_sents : forall n s, sinv s -> sinv (vints n s).
Proof. induction n as [|n IH]; intros s H; [exact H|]. rewrite vints_S. apply IH, sinv_sent, H. Qed.
Lemma sinv_begin c start s : sinv s -> cmd_ok c -> sinv (step (VBegin c start) s).
Proof.
  intros H Hc. pose proof H as [K1 K2 K3 K4 K5 K6].
  assert (V' : vinv N A (step (VBegin c start) s)) by (apply vinv_step; auto).
  revert V'. cbn [vstep]. destruct (v_pc s) eqn:Epc; try (intros; exact H). change (r_q (w_r (v_w s))) with (qv s).
  destruct (Z.eqb_spec (add_check A (ready_rmt (w_r (v_w s))) c (qv s)) AQE_OK) as [Ek|Ek]; [|intros; exact H].
  apply check_ok in Ek. destruct Ek as (_ & Hnf & Hmin). pose proof (wk_wf _ _ _ (vi_w _ _ _ K1)) as W. change (wq (v_w s)) with (qv s) in W.
  assert (Hlt : queueEntries (qv s) < L) by (destruct W as (_ & _ & ?); lia).
  pose proof (prepare_spec A HA EXT c (qv s) (r_pins (w_r (v_w s))) W Hlt) as
    (S1 & S2 & S3 & S4 & S5 & S6 & S7 & S8 & S9 & S10). cbv zeta in *. intros V'.
  constructor; unfold v_q; cbn [v_w v_pc v_hw v_log v_acc with_r w_r r_q]; fold (qv s); rewrite ?S2, ?S7, ?S8; auto.
  - eapply pin_of; eassumption.
  - split; [split; assumption|]. intros Hf. apply new_fits4; auto. apply K2.
  - intros Hf. specialize (K4 Hf). rewrite calm_id in K4 by auto. destruct K4 as [C1 C2 C3 C4 C5].
    pose proof (calm_vinv _ V') as R2. unfold calm in *. cbn [v_w v_pc v_hw v_log v_acc] in *.
    constructor; unfold v_q; cbn [v_w v_pc v_hw v_log v_acc with_r w_r r_q]; fold (qv s); rewrite ?S2, ?S6; auto.
Qed.
Lemma sinv_commit s : sinv s -> sinv (step VCommit s).
Proof.
  intros H. pose proof H as [K1 K2 K3 K4 K5 K6].
  assert (V' : vinv N A (step VCommit s)) by (apply vinv_step; auto; exact I).
  revert V'. cbn [vstep]. destruct (v_pc s) as [|c ne start|] eqn:Epc; try (intros; exact H). change (r_q (w_r (v_w s))) with (qv s).
  assert (KEEP : forall pc', (pc' = Free \/ exists st, pc' = Committed st) ->
    let s' := mkV (with_vq (qv s) s) pc' (v_hw s) (v_acc s) (v_log s) in vinv N A s' -> sinv s').
  { intros pc' Hpc s' R'. constructor; unfold v_q; cbn [s' with_vq with_r with_rq v_w v_pc v_hw v_log v_acc w_r r_q]; auto.
    - destruct Hpc as [->|[st ->]]; exact I.
    - intros Hf. specialize (K4 Hf). unfold calm in K4. rewrite Epc in K4. destruct K4 as [C1 C2 C3 C4 C5].
      rewrite calm_id by exact Hpc. constructor; unfold v_q; cbn [s' with_vq with_r with_rq v_w v_pc v_hw v_log v_acc w_r r_q]; auto.
      destruct Hpc as [->|[st ->]]; exact I. }
  unfold add_commit. destruct (q_ignore (qv s)) eqn:Ei; cbn [fst snd].
  { change (AQE_OK =? AQE_OK) with true. cbv iota. apply KEEP. right. eexists. reflexivity. }
  destruct (ready_rmt (w_r (v_w s))); cbn [fst snd].
  2:{ change (AQE_DEVICE_NOT_READY =? AQE_OK) with false. cbv iota. apply KEEP. now left. }
  change (AQE_OK =? AQE_OK) with true. cbv iota. intros V'.
  pose proof (vi_prep _ _ _ K1) as RP. rewrite Epc in RP. destruct RP as (Hc & Hc0 & Hlt & Hne & Ht & Hst & Hu & Htog).
  pose proof (wk_wf _ _ _ (vi_w _ _ _ K1)) as W. change (wq (v_w s)) with (qv s) in W.
  set (q := qv s) in *. set (q1 := set_end ne (set_wr (u8 (q_wr q + 1)) q)) in *.
  assert (Epend : pend A q1 = pend A q ++ [q_ent q (slot A (q_wr q))]) by (now apply pend_commit).
  constructor; unfold v_q; cbn [with_vq with_r with_rq v_w v_pc v_hw v_log v_acc w_r r_q]; auto.
  - intros Hf. apply Forall_app in Hf as [Hf1 Hf2]. specialize (K4 Hf1). unfold calm in K4. rewrite Epc in K4.
    destruct K4 as [C1 C2 C3 C4 C5]. unfold waiting, v_q in C2, C3, C4, C5. cbn [v_w v_pc v_hw v_log v_acc] in C2, C3, C4, C5. fold (qv s) in C2, C3, C5. fold q in C2, C3, C5.
    rewrite calm_id by (right; eexists; reflexivity).
    constructor; unfold waiting, v_q; cbn [with_vq with_r with_rq v_w v_pc v_hw v_log v_acc w_r r_q w_one w_two w_conti]; rewrite ?Epend; auto.
    + apply Forall_app. split; [assumption|]. constructor; [|constructor]. apply K3. exact (Forall_inv Hf2).
    + rewrite sum_left_snoc, sum_steps_snoc, Hst. lia.
  - intros Hf Hm. apply Forall_app in Hf as [Hf1 Hf2]. apply Forall_app in Hm as [Hm1 Hm2].
    destruct (K5 Hf1 Hm1) as (U & V & X). splits; [|exact V|intros Y two; specialize (X Y two); destruct two; exact X].
    rewrite Epend. apply Forall_app. split; [exact U|].
    constructor; [|constructor]. rewrite Hst, Hu. exact (Forall_inv Hm2).
  - apply Forall_app. split; [exact K6|]. constructor; [apply K3|constructor].
Qed.
Lemma apply_hcu two w : q_hcu (wq (apply4 N A two w)) = q_hcu (wq w).
Proof.
  unfold apply4. destruct (_ =? _); [destruct two; reflexivity|]. destruct (_ && _); [now rewrite wq_put|]. cbv zeta. rewrite wq_put.
  unfold wq. cbn [with_r w_r r_q]. assert (T : q_hcu (r_q (toggle_first A (w_r w))) = q_hcu (r_q (w_r w))) by (unfold toggle_first; destruct (e_toggle _); reflexivity).
  destruct (_ =? 0); [destruct (e_repeat _)|]; exact T.
Qed.
Lemma start_hcu w : q_hcu (wq (fst (start4 N A w))) = q_hcu (wq w).
Proof.
  unfold start4. set (w0 := pattern N (with_r (stopped false (mkrun true (w_r w))) w)).
  assert (E0 : w_r w0 = stopped false (mkrun true (w_r w))) by (unfold w0; now rewrite (proj1 (pattern_r _ _))). clearbody w0.
  destruct (_ =? _); cbn [fst].
  { unfold wq. rewrite E0. reflexivity. }
  set (w1 := flags_on (with_r (toggle_first A (w_r w0)) w0)).
  assert (E1 : q_hcu (wq w1) = q_hcu (wq w)).
  { unfold wq, w1. cbn [flags_on with_r w_r]. transitivity (q_hcu (r_q (w_r w0))); [unfold toggle_first; destruct (e_toggle _); reflexivity|rewrite E0; reflexivity]. }
  clearbody w1. set (w2 := apply4 N A true (apply4 N A false w1)).
  assert (E2 : q_hcu (wq w2) = q_hcu (wq w)) by (unfold w2; now rewrite !apply_hcu). clearbody w2.
  unfold wq in *. cbn [w_r]. destruct N; exact E2.
Qed.
Lemma sinv_start_v s : sinv s -> (v_pc s = Free \/ exists st, v_pc s = Committed st) -> q_running (qv s) = false ->
  vinv N A (start_v N A s) -> (Forall fit (v_acc s) -> kinv (start_v N A s)) -> sinv (start_v N A s).
Proof.
  intros [K1 K2 K3 K4 K5 K6] Hp Hr V' C'. pose proof (start_hcu (v_w s)) as SH. pose proof (vi_w _ _ _ K1) as W.
  rewrite (calm_id s Hp) in K4.
  revert V' C'. unfold start_v. destruct (nonempty (qv s)) eqn:En.
  2:{ rewrite (start_empty N A) by assumption. cbn [fst snd]. intros V' C'.
      constructor; auto.
      - unfold v_q. cbn [v_w]. rewrite (proj1 (pattern_r _ _)). exact K2.
      - exact I.
      - intros Hf Hm. destruct (K5 Hf Hm) as (D1 & D2 & D3). unfold v_q. cbn [v_w v_log v_hw].
        rewrite (proj1 (pattern_r _ _)). splits; auto; try congruence. }
  destruct (start_spec N A HA (v_w s) W En) as (w1 & w2 & w3 & E & A1 & A2 & Hw1 & _ & _ & Pn & _ & (e & t & X1 & X2) & _ & E3).
  rewrite E in *. cbn [fst snd] in *. intros V' C'.
  assert (Q3 : wq w3 = wq (apply4 N A true w2)) by (rewrite E3; unfold wq; destruct N; reflexivity).
  assert (P1 : pin_same (wq w1)).
  { apply (pin_of q0 (qv s)); [exact Pn| |exact K2]. rewrite Q3, (ap_hcu _ _ _ _ _ A2), (ap_hcu _ _ _ _ _ A1) in SH. exact SH. }
  assert (P3 : pin_same (wq w3)).
  { rewrite Q3. eapply pin_of; [apply A2|apply A2|]. eapply pin_of; [apply A1|apply A1|exact P1]. }
  constructor; auto.
  - exact I.
  - intros Hf Hm. destruct (K5 Hf Hm) as (D1 & D2 & _). pose proof (ki_fit _ _ _ (K4 Hf)) as KF.
    assert (F1 : Forall (ent_fits4 N) (pend A (wq w1)) /\ ups (pend A (wq w1))).
    { change (v_q s) with (wq (v_w s)) in KF, D1. rewrite X1 in KF, D1. rewrite X2.
      split; (constructor; [|eapply Forall_inv_tail; eassumption]); [exact (Forall_inv KF)|exact (Forall_inv D1)]. }
    destruct F1 as [F1 U1].
    destruct (apply_dir _ _ _ Hw1 A1 F1 P1 U1) as (U2 & G1 & P2).
    destruct (apply_counts N A _ _ _ Hw1 A1 F1) as [F2 _].
    destruct (apply_dir _ _ _ (ap_wok _ _ _ _ _ A1) A2 F2 P2 U2) as (U3 & G2 & _).
    pose proof (ap_other _ _ _ _ _ A2) as O. cbn [negb part_of] in O, G1, G2.
    assert (PW : forall two, part_wants (part_of two w3)).
    { intros two. rewrite E3. destruct two; cbn [part_of w_one w_two]; [exact G2|]. rewrite O. exact G1. }
    unfold v_q. cbn [v_w v_log v_hw]. fold (wq w3). splits; auto; [rewrite Q3; exact U3|].
    apply wants4_snoc; auto.
Qed.
Lemma sinv_start s : sinv s -> (v_pc s = Free \/ exists st, v_pc s = Committed st) -> sinv (step VStart s).
Proof.
  intros H Hp. pose proof H as [K1 K2 K3 K4 K5 K6]. rewrite (calm_id s Hp) in K4.
  assert (V' : vinv N A (step VStart s)) by (apply vinv_step; auto; exact I).
  assert (C' : Forall fit (v_acc s) -> kinv (step VStart s)) by (intros Hf; apply kinv_step; auto; exact I).
  revert V' C'. cbn [vstep]. destruct (v_pc s) as [| |st] eqn:Epc; try (intros; exact H). change (r_q (w_r (v_w s))) with (qv s).
  destruct (add_starts st (qv s)) eqn:Ea; intros V' C'.
  - apply sinv_start_v; auto; [rewrite Epc; exact Hp|]. unfold add_starts in Ea. destruct (q_running (qv s)); [discriminate|reflexivity].
  - constructor; auto.
Qed.
Lemma sinv_null s : sinv s -> sinv (step VAddNull s).
Proof.
  intros H. pose proof H as [K1 K2 K3 K4 K5 K6].
  assert (V' : vinv N A (step VAddNull s)) by (apply vinv_step; auto; exact I).
  assert (C' : v_pc s = Free -> Forall fit (v_acc s) -> kinv (step VAddNull s)).
  { intros Hf Hc. specialize (K4 Hc). rewrite calm_id in K4 by auto. apply kinv_step; auto; exact I. }
  revert V' C'. cbn [vstep]. destruct (v_pc s) eqn:Epc; try (intros; exact H). change (r_q (w_r (v_w s))) with (qv s).
  destruct (a_started _) eqn:Ea; intros V' C'; [|exact H]. apply sinv_start_v; auto.
  unfold q_add_null in Ea. destruct (negb (ready_rmt (w_r (v_w s)))); [discriminate|].
  destruct (q_running (qv s)); [discriminate|reflexivity].
Qed.
Lemma sinv_ignore b s : sinv s -> sinv (step (VIgnore b) s).
Proof.
  intros H. pose proof H as [K1 K2 K3 K4 K5 K6].
  assert (V' : vinv N A (step (VIgnore b) s)) by (apply vinv_step; auto; exact I).
  constructor; auto. intros Hf.
  replace (calm (step (VIgnore b) s)) with (step (VIgnore b) (calm s)).
  - apply kinv_step; auto; exact I.
  - unfold calm. cbn [vstep]. cbn [v_pc]. destruct (v_pc s) eqn:E; cbn [v_w v_pc v_hw v_acc v_log]; rewrite ?E; reflexivity.
Qed.

(** ** The calls *)
Definition Rel0 (t : fq) (th : hq) : Prop :=
  rel4 (fq_s t) (hq_h th) /\ v_pc (fq_s t) = Free /\ fq_p t = hq_p th /\ sinv (fq_s t).
(** within a pass of the task commands are not ignored *)
Definition Rel (t : fq) (th : hq) : Prop := Rel0 t th /\ q_ignore (tqueue th) = false.
Lemma Rel0_fields t th : Rel0 t th -> seen (t_q fq facc t) (tqueue th) /\ good A th /\ t_pins fq facc t = hq_p th.
Proof.
  intros (H & Hp & Hq & _). destruct H. split; [|split; [|exact Hq]].
  - exists (q_ent (qv (fq_s t))). apply fl_q0.
  - split; [exact fl_h0|congruence].
Qed.
Lemma Rel_fields t th : Rel t th -> seen (t_q fq facc t) (tqueue th) /\ good A th /\ t_pins fq facc t = hq_p th.
Proof. intros [H _]. now apply Rel0_fields. Qed.
Lemma Rel_ticks t th : Rel t th -> ticksInQueue A (t_q fq facc t) = ticksInQueue A (tqueue th).
Proof. intros ((H & _) & _). apply qsim_ticks. apply H. Qed.
(** a queue that is not running is not started without [start]; the driver is ready *)
Lemma stopped_ready4 c start s n : vinv N A s -> cmd_ok c -> q_running (qv s) = false ->
  let s2 := vints n (step (VBegin c start) s) in
  ready_rmt (w_r (v_w s)) = true /\ ready_rmt (w_r (v_w s2)) = true /\ q_running (qv s2) = false.
Proof.
  intros Hv Hc Hr. cbv zeta.
  assert (R1 : q_running (qv (step (VBegin c start) s)) = false).
  { cbn [vstep]. destruct (v_pc s); auto. destruct (_ =? _); auto. unfold v_q. cbn [v_w with_r w_r r_q]. unfold add_prepare. cbv zeta.
    destruct (direct_dir _); exact Hr. }
  assert (V1 : vinv N A (step (VBegin c start) s)) by (apply vinv_step; auto).
  rewrite off_sents by (now apply idle_off). unfold ready_rmt. change (r_q (w_r (v_w s))) with (qv s).
  change (r_q (w_r (v_w (step (VBegin c start) s)))) with (qv (step (VBegin c start) s)). now rewrite Hr, R1.
Qed.
Lemma fadd_stopped c t : vinv N A (fq_s t) -> cmd_ok c -> v_pc (fq_s t) = Free -> q_running (qv (fq_s t)) = false ->
  q_running (qv (fq_s (fst (f_add c false t)))) = false.
Proof.
  intros Hv Hc Hp Hr. unfold f_add. cbv zeta. cbn [fst fq_s]. rewrite (off_sents (y_i0 (vw1 t))) by (now apply idle_off).
  destruct (stopped_ready4 c false (fq_s t) (y_i1 (vw1 t)) Hv Hc Hr) as (_ & _ & R2).
  assert (V2 : vinv N A (vints (y_i1 (vw1 t)) (step (VBegin c false) (fq_s t)))) by (apply sents_vinv, vinv_step; auto).
  cbv zeta in R2. set (s2 := vints _ (step (VBegin c false) (fq_s t))) in *.
  assert (P2 : match v_pc s2 with Prepared _ _ st => st = false | Committed _ => False | Free => True end).
  { unfold s2. rewrite sents_pc. cbn [vstep]. rewrite Hp. destruct (_ =? _); [reflexivity|now rewrite Hp]. }
  assert (V3 : vinv N A (step VCommit s2)) by (apply vinv_step; auto; exact I).
  assert (R3 : q_running (qv (step VCommit s2)) = false /\ match v_pc (step VCommit s2) with Committed st => st = false | _ => True end).
  { cbn [vstep]. destruct (v_pc s2) eqn:E; try contradiction; [rewrite E; auto|].
    unfold v_q. cbn [v_w with_vq with_r w_r with_rq r_q v_pc]. change (r_q (w_r (v_w s2))) with (qv s2).
    split; [unfold add_commit; destruct (q_ignore _); [exact R2|]; destruct (ready_rmt _); exact R2|].
    destruct (_ =? _); [exact P2|exact I]. }
  destruct R3 as [R3 P3]. rewrite off_sents by (now apply idle_off). set (s3 := step VCommit s2) in *. cbn [vstep].
  destruct (v_pc s3); auto. subst. change (r_q (w_r (v_w s3))) with (qv s3). unfold add_starts. rewrite R3. exact R3.
Qed.
Lemma sim_fadd c start t th : Rel t th -> cmd_ok c ->
  exists ws th', Rel (fst (f_add c start t)) th' /\ (q_running (qv (fq_s t)) = false -> Forall ready ws) /\
    forall ws2, h_add A EXT c start (set_w (ws ++ ws2) th) = (set_w ws2 th', snd (f_add c start t)).
Proof.
  intros ((H & Hpc & Hp & HK) & Hi) Hc. unfold f_add. cbv zeta. cbn [fst snd].
  set (x := vw1 t) in *.
  assert (IG : forall s h, rel4 s h -> q_ignore (qv s) = q_ignore (h_q h)) by (intros s h K; rewrite (proj1 (fl_q _ _ K)); reflexivity).
  assert (KI : forall l h, inv A h -> q_ignore (h_q (isr A EXT l h)) = q_ignore (h_q h)).
  { intros l h J0. destruct (isr_kept A EXT HA l h J0) as [_ K]. apply K. }
  assert (KR : forall l h, inv A h -> h_res (isr A EXT l h) = h_res h).
  { intros l h J0. destruct (isr_kept A EXT HA l h J0) as [_ K]. apply K. }
  destruct (rel_sents (y_i0 x) _ _ H) as [e0 H0]. pose proof (sinv_sents (y_i0 x) _ HK) as K0.
  set (s0 := vints (y_i0 x) (fq_s t)) in *. set (h0 := isr A EXT e0 (hq_h th)) in *.
  assert (I0 : q_ignore (qv s0) = false) by (rewrite (IG _ _ H0); unfold h0; rewrite KI by apply H; exact Hi).
  assert (P0 : v_pc s0 = Free) by (unfold s0; rewrite sents_pc; exact Hpc).
  destruct (rel4_begin c start _ _ H0 Hc) as (H1 & B1 & B2 & B3). pose proof (sinv_begin c start _ K0 Hc) as K1.
  assert (IG1 : q_ignore (qv (step (VBegin c start) s0)) = false).
  { cbn [vstep]. rewrite P0. destruct (_ =? _); [|congruence]. unfold v_q. cbn [v_w with_r w_r r_q].
    destruct (prep_same A EXT c (qv s0) (r_pins (w_r (v_w s0)))) as (_ & _ & T3). unfold v_q in *. congruence. }
  set (s1 := step (VBegin c start) s0) in *. set (h1 := hstep A EXT (EBegin c start (ready_rmt (w_r (v_w s0)))) h0) in *.
  destruct (rel_sents (y_i1 x) _ _ H1) as [e1 H2]. pose proof (sinv_sents (y_i1 x) _ K1) as K2.
  set (s2 := vints (y_i1 x) s1) in *. set (h2 := isr A EXT e1 h1) in *.
  assert (I2 : q_ignore (qv s2) = false).
  { rewrite (IG _ _ H2). unfold h2. rewrite KI by apply H1. rewrite <- (IG _ _ H1). exact IG1. }
  assert (P2 : v_pc s2 = v_pc s1) by (unfold s2; apply sents_pc).
  destruct (rel4_commit _ _ H2) as (H3 & C1). pose proof (sinv_commit _ K2) as K3.
  assert (PC : v_pc (step VCommit s2) = Free \/ exists st, v_pc (step VCommit s2) = Committed st /\
     (q_running (qv (step VCommit s2)) = false -> nonempty (qv (step VCommit s2)) = true)).
  { destruct (Z.eq_dec (add_check A (ready_rmt (w_r (v_w s0))) c (h_q h0)) AQE_OK) as [K|K].
    - destruct (B3 K P0) as [ne Q]. rewrite <- P2 in Q. destruct (commit4_pc s2 c ne start Q) as [Q2|Q2]; [left; exact Q2|right].
      exists start. split; [exact Q2|]. intros _.
      pose proof (vi_prep _ _ _ (sv_v _ K2)) as PR. rewrite Q in PR. destruct PR as (_ & _ & PR & _).
      assert (RD : ready_rmt (w_r (v_w s2)) = true).
      { destruct (ready_rmt (w_r (v_w s2))) eqn:Er; [reflexivity|]. exfalso. revert Q2. cbn [vstep]. rewrite Q. cbn [v_pc].
        unfold add_commit. change (r_q (w_r (v_w s2))) with (qv s2). rewrite I2, Er. cbn [snd]. discriminate. }
      assert (EQ : qv (step VCommit s2) = set_end ne (set_wr (u8 (q_wr (qv s2) + 1)) (qv s2))).
      { cbn [vstep]. rewrite Q. unfold v_q at 1. cbn [v_w with_vq with_r w_r with_rq r_q]. change (r_q (w_r (v_w s2))) with (qv s2).
        unfold add_commit. rewrite I2, RD. reflexivity. }
      destruct (nonempty (qv (step VCommit s2))) eqn:En; [reflexivity|exfalso].
      apply (nonempty_false A) in En. rewrite EQ in En. rewrite pend_commit in En; auto.
      + destruct (pend A (qv s2)); discriminate.
      + apply (wk_wf _ _ _ (vi_w _ _ _ (sv_v _ K2))).
    - destruct (B2 K P0) as [_ Q]. left. cbn [vstep]. rewrite P2, Q. congruence. }
  set (s3 := step VCommit s2) in *. set (h3 := hstep A EXT (ECommit (ready_rmt (w_r (v_w s2)))) h2) in *.
  destruct (test4 (y_i2 x) _ _ H3 PC) as (e2 & e3 & H5 & P5 & E5).
  assert (K5 : sinv (step VStart (vints (y_i2 x) s3))).
  { apply sinv_start; [apply sinv_sents, K3|]. rewrite sents_pc. destruct PC as [PC|(st & PC & _)]; eauto. }
  set (s4 := vints (y_i2 x) s3) in *. cbv zeta in *. set (h4 := isr A EXT e2 h3) in *.
  assert (LC : last_code (hstep A EXT EStartQ h4) = last_code h3) by (unfold last_code; now rewrite E5).
  assert (CODE : last_code (hstep A EXT EStartQ h4) =
    (if add_check A (ready_rmt (w_r (v_w s0))) c (qv s0) =? AQE_OK
     then match v_pc s2 with Prepared _ ne _ => snd (add_commit (ready_rmt (w_r (v_w s2))) ne (qv s2)) | _ => AQE_OK end
     else add_check A (ready_rmt (w_r (v_w s0))) c (qv s0))).
  { rewrite LC. rewrite B1. destruct (Z.eqb_spec (add_check A (ready_rmt (w_r (v_w s0))) c (h_q h0)) AQE_OK) as [K|K].
    - destruct (B3 K P0) as [ne Q]. rewrite <- P2 in Q. rewrite Q in C1 |- *. exact C1.
    - destruct (B2 K P0) as [Q1 Q]. rewrite <- P2 in Q. rewrite Q in C1. rewrite C1.
      unfold last_code. unfold h2. rewrite KR; [exact Q1|apply H1]. }
  set (w := mkWeather (ready_rmt (w_r (v_w s0))) (ready_rmt (w_r (v_w s2))) e0 e1 e2 e3).
  exists [w], (mkHq (isr A EXT e3 (hstep A EXT EStartQ h4)) (hq_p th) []).
  split.
  - split; [split; [exact H5|split; [exact P5|split; [exact Hp|exact K5]]]|].
    assert (PH : h_pc (hq_h th) = Free) by (rewrite <- (fl_pc _ _ H); exact Hpc).
    pose proof (cs_ign _ _ _ _ _ (call_isr A EXT HA c _ _ _ e3 (proj1 (hcall_spec A EXT HA w c start (hq_h th) (fl_h _ _ H) Hc PH)))) as IGN.
    unfold tqueue in *. cbn [hq_h]. rewrite <- Hi. exact IGN.
  - split.
    { intros Hr. constructor; [|constructor]. unfold w, ready. cbn [w_r1 w_r2].
      assert (R0 : s0 = fq_s t) by (apply off_sents, idle_off; [apply HK|exact Hr]).
      assert (Hr0 : q_running (qv s0) = false) by (rewrite R0; exact Hr).
      destruct (stopped_ready4 c start s0 (y_i1 x) (sv_v _ K0) Hc Hr0) as (U1 & U2 & _). fold s1 in U2. fold s2 in U2. auto. }
    intros ws2. unfold h_add, set_w, weather1. cbn [app hq_w hq_h hq_p tl]. unfold hcall. unfold w. cbn [w_i0 w_i1 w_i2 w_i3 w_r1 w_r2].
    fold h0. fold h1. fold h2. fold h3. fold h4. now rewrite CODE.
Qed.
Lemma sim_fnull start t th : Rel t th ->
  exists ws th', Rel (fst (f_null start t)) th' /\ (q_running (qv (fq_s t)) = false -> Forall ready ws) /\
    forall ws2, h_null A EXT start (set_w (ws ++ ws2) th) = (set_w ws2 th', snd (f_null start t)).
Proof.
  intros ((H & Hpc & Hp & HK) & Hi). unfold f_null. cbv zeta. cbn [fst snd].
  set (x := vw1 t).
  destruct (rel_sents (y_i0 x) _ _ H) as [e0 H0]. set (s0 := vints (y_i0 x) (fq_s t)) in *. set (h0 := isr A EXT e0 (hq_h th)) in *.
  assert (P0 : v_pc s0 = Free) by (unfold s0; rewrite sents_pc; exact Hpc).
  destruct (rel4_null start _ _ H0 P0) as (e3 & H1 & P1 & C1).
  set (h1 := hstep A EXT (EAddNull start (ready_rmt (w_r (v_w s0)))) h0) in *.
  assert (J1 : inv A h1) by (apply inv_step; [exact HA|apply H0|exact I]).
  exists [mkWeather (ready_rmt (w_r (v_w s0))) true e0 [] [] e3], (mkHq (isr A EXT e3 h1) (hq_p th) []).
  split; [split; [split; [exact H1|split; [exact P1|split; [exact Hp|]]]|]|].
  { cbn [fq_s]. destruct start; [apply sinv_null|]; apply sinv_sents, HK. }
  { destruct (isr_kept A EXT HA e0 (hq_h th) (fl_h _ _ H)) as [_ K]. pose proof (k_ign _ _ K) as KI. fold h0 in KI.
    destruct (isr_kept A EXT HA e3 h1 J1) as [_ K']. pose proof (k_ign _ _ K') as KI'.
    unfold tqueue in *. cbn [hq_h]. rewrite KI'. unfold h1. cbn [hstep]. destruct (_ && _); [|congruence].
    unfold start_head. destruct (_ && _); cbn; congruence. }
  split.
  { intros Hr. constructor; [|constructor]. split; [|reflexivity]. cbn [w_r1]. unfold s0. rewrite off_sents by (apply idle_off; [apply HK|exact Hr]).
    unfold ready_rmt. change (r_q (w_r (v_w (fq_s t)))) with (qv (fq_s t)). now rewrite Hr. }
  intros ws2. unfold h_null, set_w, weather1. cbn [app hq_w hq_h hq_p tl w_i0 w_i3 w_r1]. fold h0. fold h1. now rewrite C1.
Qed.
Lemma rel0_pins p t th : Rel0 t th -> Rel0 (t_setpins fq facc p t) (t_setpins hq X p th).
Proof. intros (K2 & K3 & K4 & K5). split; [exact K2|]. split; [exact K3|]. split; [reflexivity|exact K5]. Qed.
Lemma rel0_ignore t th : Rel0 t th -> Rel (t_ignore fq facc false t) (t_ignore hq X false th).
Proof. intros (K2 & K3 & K4 & K5). split; [|reflexivity]. split; [apply rel4_ignore; exact K2|]. split; [exact K3|]. split; [exact K4|now apply sinv_ignore]. Qed.
(** the hardware is on, if the queue has been started *)
Definition runs_on (t : fq) : Prop := q_running (qv (fq_s t)) = true -> v_hw (fq_s t) <> Off.
Lemma fnull_on t : vinv N A (fq_s t) -> v_pc (fq_s t) = Free -> q_running (qv (fq_s t)) = false -> runs_on (fst (f_null true t)).
Proof.
  intros Hv Hp Hr. unfold f_null, runs_on. cbv zeta. cbn [fst fq_s]. rewrite off_sents by (now apply idle_off).
  cbn [vstep]. rewrite Hp. change (r_q (w_r (v_w (fq_s t)))) with (qv (fq_s t)).
  destruct (a_started _) eqn:Ea; [|congruence]. intros _.
  assert (En : nonempty (qv (fq_s t)) = true).
  { destruct (nonempty (qv (fq_s t))) eqn:En; [reflexivity|exfalso].
    pose proof (empty_rd A _ (wk_wf _ _ _ (vi_w _ _ _ Hv))) as K. change (wq (v_w (fq_s t))) with (qv (fq_s t)) in K. rewrite En in K. cbn [negb] in K.
    revert Ea. unfold q_add_null. rewrite Z.eqb_sym, K. destruct (negb _); [discriminate|]. destruct (true && _); discriminate. }
  destruct (start_spec N A HA (v_w (fq_s t)) (vi_w _ _ _ Hv) En) as (w1 & w2 & w3 & E & _).
  unfold start_v. rewrite E. cbn [fst snd v_hw]. discriminate.
Qed.
(** a pass of the task *)
Lemma sim_pass ext busy fuel old ws s t th s' t' : Rel0 t th -> conf_ok s ->
  fill_queue A fq facc ext busy fuel old s (fset_w ws t) = Some (s', t') ->
  exists w th', Rel0 t' th' /\ conf_ok s' /\ (q_running (qv (fq_s t)) = false -> Forall ready w /\ runs_on t') /\
    fill_queue A hq X ext busy fuel old s (set_w w th) = Some (s', th').
Proof.
  intros HR Hs E. destruct (q_running (qv (fq_s t))) eqn:Er.
  - destruct (StackSim.sim_fill A EXT fq facc Rel Rel0 Rel0 (fun _ => True) True (fun _ => True) Rel_fields Rel_ticks)
      with (ext := ext) (busy := busy) (fuel := fuel) (old := old)
      (s := s) (t := fset_w ws t) (th := th) (s' := s') (t' := t') as (w & th' & K1 & K2 & _ & K3); auto.
    + intros p t0 th0 [K1 K2]. split; [now apply rel0_pins|exact K2].
    + intros t0 th0 H. exact (proj1 H).
    + apply rel0_ignore.
    + intros c0 st0 t0 th0 R0 C0 _ _. destruct (sim_fadd c0 st0 t0 th0 R0 C0) as (w & th' & K1 & _ & K2).
      exists w, th'. splits; auto. apply Forall_forall; auto.
    + intros st0 t0 th0 R0 _ _. destruct (sim_fnull st0 t0 th0 R0) as (w & th' & K1 & _ & K2).
      exists w, th'. splits; auto. apply Forall_forall; auto.
    + intros t0 th0 R0 _. destruct (sim_fnull true t0 th0 R0) as (w & th' & K1 & _ & K2).
      exists w, th'. splits; auto; [apply K1|apply Forall_forall; auto].
    + exists w, th'. splits; auto. discriminate.
  - destruct (StackSim.sim_fill A EXT fq facc (fun t th => Rel t th /\ q_running (qv (fq_s t)) = false)
        (fun t th => Rel0 t th /\ q_running (qv (fq_s t)) = false) (fun t th => Rel0 t th /\ runs_on t) (fun _ => True) False ready)
      with (ext := ext) (busy := busy) (fuel := fuel) (old := old)
      (s := s) (t := fset_w ws t) (th := th) (s' := s') (t' := t') as (w & th' & [K1 KO] & K2 & K4 & K3); auto.
    + intros t0 th0 [K _]. now apply Rel_fields.
    + intros t0 th0 [K _]. now apply Rel_ticks.
    + intros p t0 th0 [[K1 K2] K3]. split; [|exact K3]. split; [now apply rel0_pins|exact K2].
    + intros t0 th0 [H1 H2]. split; [exact H1|]. intros K. congruence.
    + intros t0 th0 [H1 H2]. split; [exact (proj1 H1)|]. intros K. congruence.
    + intros t0 th0 [K1 K2]. split; [now apply rel0_ignore|exact K2].
    + intros c0 st0 t0 th0 [R0 Q0] C0 F0 _. destruct (sim_fadd c0 st0 t0 th0 R0 C0) as (w & th' & K1 & K3 & K2).
      destruct st0; [destruct (F0 eq_refl)|].
      exists w, th'. splits; auto. apply fadd_stopped; auto; [apply (sv_v _ (proj2 (proj2 (proj2 (proj1 R0)))))|apply R0].
    + intros st0 t0 th0 [R0 Q0] F0 _. destruct (sim_fnull st0 t0 th0 R0) as (w & th' & K1 & K3 & K2).
      destruct st0; [destruct (F0 eq_refl)|].
      exists w, th'. splits; auto. change (t_null fq facc false t0) with (f_null false t0). unfold f_null. cbv zeta. cbn [fst fq_s]. rewrite off_sents; [exact Q0|]. apply idle_off; [apply (sv_v _ (proj2 (proj2 (proj2 (proj1 R0)))))|exact Q0].
    + intros t0 th0 [R0 Q0] _. destruct (sim_fnull true t0 th0 R0) as (w & th' & K1 & K3 & K2).
      exists w, th'. splits; auto; [apply K1|]. destruct R0 as [(_ & P0 & _ & S0) _]. apply fnull_on; [apply S0|exact P0|exact Q0].
    + intros K. change (q_running (qv (fq_s t)) = true) in K. congruence.
    + exists w, th'. splits; auto.
Qed.
Lemma pass_none ext busy fuel old ws s t th : Rel0 t th -> conf_ok s ->
  fill_queue A fq facc ext busy fuel old s (fset_w ws t) = None ->
  exists w, fill_queue A hq X ext busy fuel old s (set_w w th) = None.
Proof.
  intros HR Hs E.
  apply (StackSim.fill_none A EXT fq facc Rel Rel0 Rel0 (fun _ => True) True (fun _ => True)) with (t := fset_w ws t); auto.
  - exact Rel_fields.
  - exact Rel_ticks.
  - intros p t0 th0 [K1 K2]. split; [now apply rel0_pins|exact K2].
  - intros t0 th0 H. exact (proj1 H).
  - apply rel0_ignore.
  - intros c0 st0 t0 th0 R0 C0 _ _. destruct (sim_fadd c0 st0 t0 th0 R0 C0) as (w & th' & K1 & _ & K2).
    exists w, th'. splits; auto. apply Forall_forall; auto.
  - intros st0 t0 th0 R0 _ _. destruct (sim_fnull st0 t0 th0 R0) as (w & th' & K1 & _ & K2).
    exists w, th'. splits; auto. apply Forall_forall; auto.
  - intros t0 th0 R0 _. destruct (sim_fnull true t0 th0 R0) as (w & th' & K1 & _ & K2).
    exists w, th'. splits; auto; [apply K1|apply Forall_forall; auto].
Qed.
(** A pass is served, if it finds the queue empty and the transmitter off and the outputs ready. No
    other assumption on the interrupts is needed: the queue is started at the end of the pass. *)
Definition fserved_task (s : stepper) (t : fq) (e : ftask) : Prop :=
  match e with
  | FFill ext busy fuel _ _ => (1 <= fuel)%nat /\ (forall f, busy f = false) /\ responsive s ext
      /\ pend A (qv (fq_s t)) = [] /\ q_running (qv (fq_s t)) = false
  | _ => True
  end.
Definition is_ffill (e : ftask) : bool := match e with FFill _ _ _ _ _ => true | _ => false end.
Definition fpasses (l : list ftask) : nat := length (filter is_ffill l).
Fixpoint fserved (l : list ftask) (x : stepper * fq) : Prop :=
  match l with
  | [] => True
  | e :: l' => fserved_task (fst x) (snd x) e /\ forall y, ftstep e x = Some y -> fserved l' y
  end.
Lemma Rel0_pend t th : Rel0 t th -> pend A (qv (fq_s t)) = [] -> pend A (tqueue th) = [].
Proof. intros (H & _) E. apply pend_nil in E. apply pend_nil. rewrite (proj1 (fl_q _ _ H)) in E. exact E. Qed.
Lemma sim_ftask e s t th y : Rel0 t th -> conf_ok s -> ftstep e (s, t) = Some y ->
  exists e' th', tstep A EXT e' (s, th) = Some (fst y, th') /\ Rel0 (snd y) th' /\ conf_ok (fst y)
    /\ is_fill e' = is_ffill e /\ (fserved_task s t e -> served_task A s (tqueue th) e' /\ ready_task e').
Proof.
  intros HR Hs. destruct y as [s' t']. cbn [fst snd]. destruct e as [ext busy fuel old ws|l|ext]; cbn [ftstep].
  - intros E. destruct (sim_pass ext busy fuel old ws s t th s' t' HR Hs E) as (w & th' & K1 & K2 & K4 & K3).
    exists (TFill ext busy fuel old w), th'. splits; auto. intros (S1 & S2 & S3 & S4 & S5). cbn [served_task ready_task].
    destruct (K4 S5). splits; auto. now apply (Rel0_pend t).
  - intros E. injection E as <- <-. destruct HR as (H2 & H3 & H4 & H6).
    destruct (rel_sents l _ _ H2) as [l' H5].
    exists (TIsr l'), (set_h (isr A EXT l' (hq_h th)) th). splits; auto.
    split; [exact H5|]. split; [cbn [fq_s]; rewrite sents_pc; exact H3|]. split; [exact H4|now apply sinv_sents].
  - intros E. injection E as <- <-.
    destruct (StackSim.sim_tick A EXT fq facc Rel0 Rel0_fields) with (ext := ext) (s := s) (t := t) (th := th) as (th' & K1 & K2 & K3); auto.
    + apply rel0_pins.
    + exists (TTick ext), th'. splits; auto.
Qed.
Lemma ftask_none e s t th : Rel0 t th -> conf_ok s -> ftstep e (s, t) = None -> exists e', tstep A EXT e' (s, th) = None.
Proof.
  intros HR Hs. destruct e as [ext busy fuel old ws|l|ext]; cbn [ftstep]; try discriminate.
  intros E. destruct (pass_none ext busy fuel old ws s t th HR Hs E) as (w & K). exists (TFill ext busy fuel old w). exact K.
Qed.
Lemma sim_ftasks : forall l s t th y, Rel0 t th -> conf_ok s -> ftrun l (s, t) = Some y ->
  exists l' th', trun A EXT l' (s, th) = Some (fst y, th') /\ Rel0 (snd y) th'
    /\ passes l' = fpasses l /\ (fserved l (s, t) -> served A EXT l' (s, th) /\ Forall ready_task l').
Proof.
  induction l as [|e l IH]; intros s t th y HR Hs; cbn [ftrun].
  - intros E. injection E as <-. exists [], th. splits; auto.
  - destruct (ftstep e (s, t)) as [z|] eqn:E1; [|discriminate]. intros E.
    destruct (sim_ftask e s t th z HR Hs E1) as (e' & th1 & T1 & R1 & F1 & G1 & S1).
    destruct z as [s1 t1]. cbn [fst snd] in *.
    destruct (IH s1 t1 th1 y R1 F1 E) as (l' & th2 & T2 & R2 & G2 & S2).
    exists (e' :: l'), th2. splits.
    + cbn [trun]. rewrite T1. exact T2.
    + exact R2.
    + unfold passes, fpasses in *. cbn [filter]. rewrite G1. destruct (is_ffill e); cbn [length]; lia.
    + cbn [fserved served fst snd]. intros [S3 S4]. destruct (S1 S3) as [S5 S6]. destruct (S2 (S4 _ E1)) as [S7 S8].
      split; [split; [exact S5|]|constructor; assumption]. intros y' E'. rewrite T1 in E'. injection E' as <-. exact S7.
Qed.
(** no undefined behaviour, unless the queue history has it *)
Lemma ftasks_none : forall l s t th, Rel0 t th -> conf_ok s -> ftrun l (s, t) = None -> exists l', trun A EXT l' (s, th) = None.
Proof.
  induction l as [|e l IH]; intros s t th HR Hs; cbn [ftrun]; [discriminate|].
  destruct (ftstep e (s, t)) as [z|] eqn:E1.
  - intros E. destruct (sim_ftask e s t th z HR Hs E1) as (e' & th1 & T1 & R1 & F1 & _). destruct z as [s1 t1].
    destruct (IH s1 t1 th1 R1 F1 E) as [l' T2]. exists (e' :: l'). cbn [trun]. rewrite T1. exact T2.
  - intros _. destruct (ftask_none e s t th HR Hs E1) as [e' T1]. exists [e']. cbn [trun]. now rewrite T1.
Qed.
End Driver.

(** ** A move on the ESP32 *)
Section Move.
Variable N : bool.
Variable EXT : bool.
Notation A := arch_esp32.
(** What earlier transmissions have left: the flags, the two parts of the memory *)
Record left4 := mkLeft { l_stopped : bool; l_conti : bool; l_one : buf; l_two : buf }.
Definition left_ok (x : left4) : Prop :=
  Z.of_nat (length (b_words (l_one x))) = psize N /\ Z.of_nat (length (b_words (l_two x))) = psize N.
(** The driver with the queue and the pins of a state, the hardware off. The lists of commands
    and parts begin with the move. *)
Definition v_begin (x : left4) (th : hq) : fq :=
  mkFq (mkV (mkV4 (mkRmt (tqueue th) (h_pins (hq_h th)) (l_stopped x) false) (l_conti x) (l_one x) (l_two x))
         Free Off [] []) (hq_p th) [].
Lemma begin_Rel4 up x th : left_ok x -> good A th -> own_pin (q_pin (tqueue th)) -> q_running (tqueue th) = false ->
  pend A (tqueue th) = [] -> Rel0 N A (h_acc (hq_h th)) up (tqueue th) (v_begin x th) th.
Proof.
  intros [L1 L2] [Hi Hf] Ho Hr Hp. pose proof (iv_wf A _ Hi) as W.
  assert (Hn : nonempty (tqueue th) = false).
  { apply pend_nil in Hp. unfold nonempty. now rewrite Hp. }
  assert (RI : vinv N A (fq_s (v_begin x th))).
  { constructor; unfold v_q; cbn [v_begin fq_s v_w v_pc v_hw v_log w_r r_q r_stopped w_conti]; rewrite ?Hp, ?Hr, ?Hn; auto; try congruence.
    - constructor; unfold wq; cbn [w_r r_q w_one w_two]; rewrite ?Hp; auto.
    - intros [K|[[K _]|K]]; congruence. }
  split; [|split; [reflexivity|split; [reflexivity|]]].
  - constructor; unfold v_q; cbn [v_begin fq_s v_w v_pc v_acc w_r r_q]; auto.
    + split; [exact Ho|]. rewrite Hf. split; [|exact I]. change (h_q (hq_h th)) with (tqueue th). rewrite Hp. constructor.
    + apply qsim_refl.
    + now rewrite app_nil_r.
  - constructor; auto; unfold v_q; cbn [v_begin fq_s v_w v_pc v_hw v_log v_acc w_r r_q].
    + split; [exact Ho|]. auto.
    + exact I.
    + intros _. constructor; unfold v_q; cbn [calm v_w v_pc v_hw v_log v_acc w_r r_q]; rewrite ?Hp; auto.
    + intros _ _. rewrite Hp. splits; [constructor|constructor|congruence].
    + constructor.
Qed.
(** a command of 65535 ticks has few steps (otherwise see C73) *)
Definition short_65535 (c : command) : Prop := c_ticks c = 65535 -> c_steps c < psize N / 2.
Lemma all_fit4 done w : woven done w -> Forall (valid_cmd A) done -> Forall short_65535 done -> Forall (min_long A) w ->
  Forall (cmd_fits4 N) w.
Proof.
  intros Hw Hv Hs Hl. apply Forall_forall. intros c Hc. rewrite Forall_forall in Hv, Hl, Hs.
  destruct (Hl c Hc) as [[C1 C2] C3]. unfold command_rate_ticks in C3. change (MIN_CMD_TICKS A) with 3200 in *.
  assert (PP : psize N = 23 \/ psize N = 31) by (unfold psize; destruct N; auto).
  destruct (woven_in _ _ Hw c Hc) as [Hz|Hd].
  - rewrite Hz in C3. cbn in C3. split; rewrite Hz; [|unfold spread4; destruct (_ =? 65535); [destruct PP as [-> | ->]; reflexivity|left; lia]].
    split; [lia|]. split; [|cbn]; unfold u16, u32 in *; lia.
  - destruct (Hv c Hd) as (V1 & V2 & V3). change (MIN_CMD_TICKS A) with 3200 in *. specialize (Hs c Hd). unfold short_65535 in Hs.
    split.
    + split; [lia|]. split; [lia|]. destruct (Z.gtb_spec (c_steps c) 1); [|lia].
      apply Z.le_trans with (c_ticks c * 1); [lia|]. apply Z.mul_le_mono_nonneg_l; lia.
    + destruct (Z.eq_dec (c_ticks c) 65535) as [E|E]; [unfold spread4; rewrite E; cbn [Z.eqb Pos.eqb]; auto|].
      apply spread4_slow. lia.
Qed.
Lemma chunks_pos l : 0 <= sum_chunks l.
Proof. unfold sum_chunks. induction l as [|k l IH]; cbn [map fold_right]; [lia|]. assert (0 <= xedges k) by apply rises_nonneg. lia. Qed.
(** [n]: the number of steps of the complete move; [lv]: the level of the direction pin. The pin has
    this level when a part with steps begins and after the interrupt that follows. *)
Definition on_the_line4 (lv : option bool) (n : Z) (log : list chunk) : Prop :=
  0 <= sum_chunks log <= n
  /\ Forall (fun k => forall v, lv = Some v -> 0 < xedges k -> x_before k = v /\ x_after k = v) log.
Lemma v4_move up cs pos s1 th x : left_ok x -> good A th -> conf_ok s1 -> own_pin (q_pin (tqueue th)) ->
  q_running (tqueue th) = false -> pend A (tqueue th) = [] ->
  Forall (valid_cmd A) cs -> Forall short_65535 cs -> Forall (moves_only up) cs -> carries A EXT up cs pos (s1, th) ->
  forall tasks y, ftrun N A EXT tasks (s1, v_begin x th) = Some y ->
  let r := fq_s (snd y) in
  on_the_line4 (pin_level (tqueue th) up) (total_steps cs) (v_log r)
  /\ (isRampGeneratorActive (s_rg (fst y)) = false -> pend A (v_q r) = [] ->
      woven cs (v_acc r) /\ (forall done_p, getCurrentPosition A done_p (v_q r) = pos)
      /\ (v_hw r = Off -> sum_chunks (v_log r) = total_steps cs))
  /\ (isRampGeneratorActive (s_rg (fst y)) = false -> v_hw r <> Off ->
      exists k, let s := vints N A EXT k r in
        v_hw s = Off /\ q_running (v_q s) = false /\ pend A (v_q s) = [] /\ sum_chunks (v_log s) = total_steps cs)
  /\ (exists l' th', trun A EXT l' (s1, th) = Some (fst y, th') /\ accepted_cmds (fst y, th') = accepted_cmds (s1, th) ++ v_acc r).
Proof.
  intros Hx Hg Hs Ho Hr Hp Hv Hsh Hm Hc tasks y E. cbv zeta.
  pose proof (begin_Rel4 up x th Hx Hg Ho Hr Hp) as HR.
  destruct (sim_ftasks N A EXT HE _ _ _ tasks s1 _ th y HR Hs E) as (l' & th' & T & R & _ & _).
  destruct R as (R1 & P1 & _ & K). set (r := fq_s (snd y)) in *.
  destruct (Hc l') as (y' & done & rest & w & T' & Ecs & Hw & Ha & Hq & Hend).
  rewrite T in T'. injection T' as <-. cbn [fst snd] in *.
  pose proof (fl_acc _ _ _ _ _ R1) as AC. unfold accepted_cmds in Ha. cbn [snd] in Ha. rewrite AC in Ha.
  apply app_inv_head in Ha. subst w.
  rewrite Ecs in Hv, Hm, Hsh. apply Forall_app in Hv as [Hv1 Hv2]. apply Forall_app in Hm as [Hm1 Hm2]. apply Forall_app in Hsh as [Hs1 Hs2].
  destruct K as [K1 K2 K3 K4 K5 K7].
  pose proof (all_fit4 _ _ Hw Hv1 Hs1 K7) as Hfit.
  assert (Hmo : Forall (moves_only up) (v_acc r)).
  { apply Forall_forall. intros c Hin. destruct (woven_in _ _ Hw c Hin) as [Hz|Hd]; [intros Hn; contradiction|].
    rewrite Forall_forall in Hm1. auto. }
  specialize (K4 Hfit). destruct (K5 Hfit Hmo) as (_ & KW & _).
  pose proof (ki_sum _ _ _ K4) as SUM. destruct (calm_fields r) as (F1 & F2 & F3 & F4). unfold waiting, v_q in SUM. rewrite F1, F2, F3, F4 in SUM.
  rewrite sum_total, (woven_total _ _ Hw) in SUM.
  assert (WE : Forall ent_ok (pend A (r_q (w_r (v_w r))))).
  { eapply Forall_impl; [|exact (wk_ent _ _ _ (vi_w _ _ _ K1))]. intros e [? _]. assumption. }
  pose proof (left_pos _ WE) as LP. pose proof (chunks_pos (v_log r)) as EP.
  assert (B1 : 0 <= bedges (w_one (v_w r))) by apply rises_nonneg. assert (B2 : 0 <= bedges (w_two (v_w r))) by apply rises_nonneg.
  assert (TR : 0 <= total_steps rest).
  { clear - Hv2. induction Hv2 as [|c l (_ & V & _) _ IH]; cbn [total_steps]; lia. }
  assert (TT : total_steps cs = total_steps done + total_steps rest) by (rewrite Ecs; apply total_app).
  unfold on_the_line4. splits.
  - lia.
  - destruct (v_hw r); try lia. destruct (w_conti _); lia.
  - pose proof (vi_log _ _ _ K1) as KC. unfold wants4 in KW. rewrite Forall_forall in KC, KW |- *. intros k Hk v Ev Hn.
    unfold pin_level in Ev. specialize (KC k Hk). destruct (KW k Hk) as [KW1 KW2]. unfold chunk_ok in KC. rewrite KW1 in KC.
    destruct (has_pin (tqueue th)); [|discriminate]. injection Ev as <-. rewrite (KW2 Hn) in KC. auto.
  - intros Hi Hn. destruct (Hend Hi) as (-> & _ & Hpos). rewrite app_nil_r in Ecs. subst done.
    unfold v_q in Hn. rewrite Hn in SUM. unfold sum_left in SUM. cbn [map fold_right] in SUM.
    split; [exact Hw|].
    pose proof (fl_q _ _ _ _ _ R1) as [Q1 Q2]. unfold v_q in Q1.
    assert (Hn' : pend A (h_q (hq_h th')) = []).
    { apply pend_nil. apply pend_nil in Hn. rewrite Q1 in Hn. exact Hn. }
    destruct (Hpos Hn') as [Hp2 _]. split.
    + intros done_p. rewrite <- (Hp2 done_p). unfold fqueue. cbn [snd]. unfold getCurrentPosition, v_q.
      replace (q_rd (r_q (w_r (v_w r))) =? q_wr (r_q (w_r (v_w r)))) with true.
      * replace (q_rd (h_q (hq_h th')) =? q_wr (h_q (hq_h th'))) with true; [rewrite Q1; reflexivity|].
        symmetry. rewrite (empty_rd A) by apply (fl_h _ _ _ _ _ R1). apply pend_nil in Hn'. unfold nonempty. now rewrite Hn'.
      * symmetry. rewrite (empty_rd A) by apply (vi_w _ _ _ K1). apply pend_nil in Hn. unfold nonempty. now rewrite Hn.
    + intros Ho4. rewrite Ho4 in SUM. lia.
  - intros Hi Hh. destruct (Hend Hi) as (-> & _ & _). rewrite app_nil_r in Ecs. subst done.
    rewrite calm_id in K4 by auto.
    destruct (drained N A HE EXT r K4 Hh) as (k & _ & D1 & D2 & D3 & D4). exists k. cbv zeta. unfold vints. splits; auto.
    rewrite D4. assert (G : forall k u, v_acc (vints N A EXT k u) = v_acc u).
    { induction k0 as [|k0 IH]; intros u; [reflexivity|]. rewrite vints_S, IH. apply sent_pc. }
    fold (vints N A EXT k r). rewrite G, sum_total. exact (woven_total _ _ Hw).
  - exists l', th'. split; [exact T|]. exact AC.
Qed.
(** What is seen of a move of [n] steps to [pos] with the commands [cs]; [plain] as in [seen_move] *)
Definition seen_move4 (lv : option bool) (n pos : Z) (cs : list command) (plain : option (list command)) (y : stepper * fq) : Prop :=
  let r := fq_s (snd y) in
  on_the_line4 lv n (v_log r)
  /\ (forall l, plain = Some l -> exists rest, l = v_acc r ++ rest /\ (isRampGeneratorActive (s_rg (fst y)) = false -> rest = []))
  /\ (isRampGeneratorActive (s_rg (fst y)) = false -> pend A (v_q r) = [] ->
      woven cs (v_acc r) /\ (forall done_p, getCurrentPosition A done_p (v_q r) = pos)
      /\ (v_hw r = Off -> sum_chunks (v_log r) = n))
  /\ (isRampGeneratorActive (s_rg (fst y)) = false -> v_hw r <> Off ->
      exists k, let s := vints N A EXT k r in
        v_hw s = Off /\ q_running (v_q s) = false /\ pend A (v_q s) = [] /\ sum_chunks (v_log s) = n).
Lemma v4_seen up n pos cs l s1 th x : left_ok x -> good A th -> conf_ok s1 -> own_pin (q_pin (tqueue th)) ->
  q_running (tqueue th) = false -> pend A (tqueue th) = [] -> n = total_steps cs ->
  Forall (valid_cmd A) cs -> Forall short_65535 cs -> Forall (moves_only up) cs -> carries A EXT up cs pos (s1, th) ->
  (forall l', l = Some l' -> exact_carries A EXT cs (s1, th) /\ l' = with_pauses (s_dirdelay s1) (up_of th) cs) ->
  forall tasks, exists y, ftrun N A EXT tasks (s1, v_begin x th) = Some y /\
  seen_move4 (pin_level (tqueue th) up) n pos cs l y.
Proof.
  intros Hx Hg Hs Ho Hr Hp -> Hv Hsh Hm Hc Hxx tasks.
  destruct (ftrun N A EXT tasks (s1, v_begin x th)) as [y|] eqn:E.
  2:{ destruct (ftasks_none N A EXT HE _ _ _ tasks s1 _ th (begin_Rel4 up x th Hx Hg Ho Hr Hp) Hs E) as [l' T].
      destruct (Hc l') as (y & _ & _ & _ & T2 & _). congruence. }
  exists y. split; [reflexivity|].
  destruct (v4_move up cs pos s1 th x Hx Hg Hs Ho Hr Hp Hv Hsh Hm Hc tasks y E) as (K1 & K2 & K3 & (l' & th' & T & AC)).
  unfold seen_move4. splits; auto. intros ll El. destruct (Hxx ll El) as [X ->].
  destruct (X l') as (z & w & rest & T2 & A2 & A3 & A4). rewrite T in T2. injection T2 as <-.
  exists rest. unfold accepted_cmds in AC. cbn [snd fst] in *. unfold acc_of in A2. rewrite AC in A2. apply app_inv_head in A2. subst w.
  split; [exact A3|exact A4].
Qed.
Lemma moveTo_v4 garbage p ep m s0 evs a M pos : conf_ok s0 -> Forall fev_ok evs -> -2147483648 <= pos < 2147483648 ->
  let x := frun A EXT evs (rdinit EXT garbage p ep m s0) in
  let q := fqueue x in
  let d := i32 (pos - qe_pos (q_end q)) in
  own_pin (q_pin q) -> q_running q = false -> pend A q = [] -> ready_to_move A (fst x) q a M d ->
  exists s1 cs, s_moveTo pos (fst x) q = (s1, MOVE_OK) /\ total_steps cs = Z.abs d
  /\ Forall (valid_cmd A) cs /\ speed_ok M cs /\ (Forall short_65535 cs ->
  forall fd lf tasks, (fd = true -> fed (fst x)) -> left_ok lf ->
  exists y, ftrun N A EXT tasks (s1, v_begin lf (snd x)) = Some y /\
  seen_move4 (pin_level q (0 <? d)) (Z.abs d) pos cs (one_list fd (fst x) q cs) y).
Proof.
  intros Hc He Hpos x q d Ho Hr Hp Hrd.
  destruct (rdinit_good EXT garbage p ep m s0 evs Hc He) as [Hg Hcf]. fold x in Hg, Hcf.
  destruct (moveTo_planned A EXT HE _ _ a M Hg pos Hpos Hrd) as (s1 & cs & n & H1 & H2 & H3 & H4 & H5 & (H6 & _) & H7 & _).
  destruct (moveTo_keeps _ _ _ _ _ H1) as (g & Eg).
  exists s1, cs. splits; auto. intros Hsh fd lf tasks Hfd Hlf.
  change q with (tqueue (snd x)). apply (v4_seen (0 <? d)) with (s1 := s1) (x := lf) (tasks := tasks); try assumption; [|symmetry; exact H2|].
  - rewrite Eg. exact Hcf.
  - intros l' El. unfold one_list in El. destruct fd; [|discriminate].
    destruct (is_external (s_dirpin (fst x))) eqn:Ex; [discriminate|]. injection El as <-. split; [|rewrite Eg; reflexivity].
    apply (inv_exact A EXT HE (q_max (tqueue (snd x))) n cs); [exact H6|cbn [fst]; rewrite Eg; apply Hfd; reflexivity|cbn [fst]; rewrite Eg; exact Ex].
Qed.
Lemma move_v4 garbage p ep m s0 evs a M delta : conf_ok s0 -> Forall fev_ok evs ->
  -2147483648 <= delta < 2147483648 -> delta <> 0 ->
  let x := frun A EXT evs (rdinit EXT garbage p ep m s0) in
  let q := fqueue x in
  let g := s_rg (fst x) in
  let target := i32 (base_target g (q_end q) + pending_move g + delta) in
  let d := i32 (target - qe_pos (q_end q)) in
  own_pin (q_pin q) -> q_running q = false -> pend A q = [] -> ready_to_move A (fst x) q a M d ->
  (s_dirpin (fst x) = PIN_UNDEFINED -> 0 <= delta) ->
  exists s1 cs, s_move delta (fst x) = (s1, MOVE_OK) /\ total_steps cs = Z.abs d
  /\ Forall (valid_cmd A) cs /\ speed_ok M cs /\ (Forall short_65535 cs ->
  forall fd lf tasks, (fd = true -> fed (fst x)) -> left_ok lf ->
  exists y, ftrun N A EXT tasks (s1, v_begin lf (snd x)) = Some y /\
  seen_move4 (pin_level q (0 <? d)) (Z.abs d) target cs (one_list fd (fst x) q cs) y).
Proof.
  intros Hc He Hd0 Hd1 x q g target d Ho Hr Hp Hrd Hdir.
  destruct (rdinit_good EXT garbage p ep m s0 evs Hc He) as [Hg Hcf]. fold x in Hg, Hcf.
  destruct (move_planned A EXT HE _ _ a M Hg delta Hd0 Hd1 Hrd Hdir) as (s1 & cs & n & H1 & H2 & H3 & H4 & H5 & (H6 & _) & H7 & _).
  destruct (move_keeps _ _ _ _ H1) as (g1 & Eg).
  exists s1, cs. splits; auto. intros Hsh fd lf tasks Hfd Hlf.
  change q with (tqueue (snd x)). apply (v4_seen (0 <? d)) with (s1 := s1) (x := lf) (tasks := tasks); try assumption; [|symmetry; exact H2|].
  - rewrite Eg. exact Hcf.
  - intros l' El. unfold one_list in El. destruct fd; [|discriminate].
    destruct (is_external (s_dirpin (fst x))) eqn:Ex; [discriminate|]. injection El as <-. split; [|rewrite Eg; reflexivity].
    apply (inv_exact A EXT HE (q_max (tqueue (snd x))) n cs); [exact H6|cbn [fst]; rewrite Eg; apply Hfd; reflexivity|cbn [fst]; rewrite Eg; exact Ex].
Qed.
End Move.

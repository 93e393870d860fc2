(** * AvrStack: front end, queue and timer of the AVR together

    The front end of Stepper.v (addQueueEntry, fill_queue) on the queue of the AVR driver
    (AvrIsr.v): from the commands of the ramp generator to the edges of the step pin. *)
From Coq Require Import ZArith Bool List Lia ZifyBool.
From Verif Require Import Base RampCalc RampGen RampStep RampRun RampMove RampSafe RampAcc RampUser RampPlan Queue QueueFacts QueuePos QueueHist QueueProp Stepper StepperHist FrontHist FrontProp FrontFill FrontTask FrontStart FrontMove AccessSim AvrIsr.
Import ListNotations.
Open Scope Z_scope.
Ltac Zify.zify_post_hook ::= idtac.

(** Circumstances of one call of the queue's addQueueEntry: the number of compare events
    before the call, between the tests and the change of the write index, and before the
    start of the queue; the time of the start *)
Record vweather := mkVw { x_i0 : nat; x_i1 : nat; x_i2 : nat; x_now : Z }.
(** The driver, the levels of the enable pins, the circumstances of the coming calls (none
    left: no compare event, time 0), the pulses so far. [vq_ok] has no counterpart in the
    source: it is lost, when an event is unfavourable (see [favourable]). *)
Record vq := mkVq { vq_v : avr; vq_p : pins; vq_w : list vweather; vq_log : list pulse; vq_ok : bool }.

Section WithExt.
Variable EXT : bool.
Notation step := (hstep A EXT).

(** Unfavourable: a command arrives in the last period of a running queue (C22), the queue
    is started while empty (C48), or the time of a start is in the past *)
Definition favourable (ev : vevent) (v : avr) : bool :=
  let q := v_q v in
  match ev, v_pc v with
  | VCommit, Prepared _ _ _ => negb (q_running q) || nonempty q
  | VStart now, Committed st => if add_starts st q then nonempty q && (v_next v <=? now) else true
  | VNull start now, Free =>
    if a_started (q_add_null true start q (v_pins v)) then nonempty q && (v_next v <=? now) else true
  | _, _ => true
  end.
Definition veff (ev : vevent) (t : vq) : vq :=
  let r := vstep EXT ev (vq_v t) in
  mkVq (fst r) (vq_p t) (vq_w t) (vq_log t ++ snd r) (vq_ok t && favourable ev (vq_v t)).
Fixpoint visrs (n : nat) (t : vq) : vq :=
  match n with O => t | S k => visrs k (veff VIsr t) end.
Definition vw1 (t : vq) : vweather := match vq_w t with [] => mkVw 0 0 0 0 | x :: _ => x end.
Definition vtl (t : vq) : vq := mkVq (vq_v t) (vq_p t) (tl (vq_w t)) (vq_log t) (vq_ok t).
(** q->addQueueEntry(&c, start): src/StepperISR.cpp:6-110; the AVR device is always ready *)
Definition v_add (c : command) (start : bool) (t : vq) : vq * Z :=
  let x := vw1 t in
  let t0 := visrs (x_i0 x) (vtl t) in
  let t2 := visrs (x_i1 x) (veff (VBegin c start) t0) in
  let t4 := visrs (x_i2 x) (veff VCommit t2) in
  (veff (VStart (x_now x)) t4, add_check A true c (v_q (vq_v t0))).
(** q->addQueueEntry(NULL, start) *)
Definition v_null (start : bool) (t : vq) : vq * Z :=
  let x := vw1 t in
  let t0 := visrs (x_i0 x) (vtl t) in
  (veff (VNull start (x_now x)) t0,
   a_code (q_add_null true start (v_q (vq_v t0)) (v_pins (vq_v t0)))).
Definition v_setq (q : queue) (v : avr) : avr :=
  mkAvr q (v_pins v) (v_pc v) (v_one v) (v_irq v) (v_next v) (v_nomore v).
Definition vacc : access vq := {|
  t_q := fun t => v_q (vq_v t);
  t_pins := vq_p;
  t_setpins := fun p t => mkVq (vq_v t) p (vq_w t) (vq_log t) (vq_ok t);
  t_ignore := fun b t => mkVq (v_setq (set_ignore b (v_q (vq_v t))) (vq_v t)) (vq_p t) (vq_w t) (vq_log t) (vq_ok t);
  t_add := v_add;
  t_null := v_null
|}.

(** ** The driver follows the queue history, event by event *)
Notation in_mode := (in_mode EXT).
Lemma isr_app l1 l2 h : isr A EXT (l1 ++ l2) h = isr A EXT l2 (isr A EXT l1 h).
Proof.
  unfold isr. rewrite filter_app. generalize (filter isr_ev l2) as b. clear l2.
  revert h. induction (filter isr_ev l1) as [|e a IH]; intros h b; cbn [app hrun]; auto.
Qed.
Lemma isr_one ev h : isr_ev ev = true -> isr A EXT [ev] h = step ev h.
Proof. intros E. unfold isr. cbn [filter]. rewrite E. reflexivity. Qed.

Lemma begin_ev m v h c start : in_mode m v h -> cmd_ok c ->
  let v' := fst (vstep EXT (VBegin c start) v) in
  in_mode m v' (step (EBegin c start true) h) /\ pend A (v_q v') = pend A (v_q v) /\ v_next v' = v_next v /\
    q_hcu (v_q v') = q_hcu (v_q v) /\ q_pin (v_q v') = q_pin (v_q v) /\
    snd (vstep EXT (VBegin c start) v) = [] /\ h_acc (step (EBegin c start true) h) = h_acc h.
Proof.
  intros Hm Hc. cbn zeta.
  pose proof (proj1 (begin_mode EXT m v h c start Hm Hc)) as Es.
  destruct Hm as (Hq & Hpi & Hpc & Hi & Hr & Hpl & Hm).
  destruct (hstep_inv EXT h (EBegin c start true) Hi Hr Hc) as [I' R'].
  cbn [vstep] in *.
  destruct (v_pc v) eqn:Epc.
  2,3: cbn [fst snd]; cbn [hstep] in *; rewrite Hpc in *; splits; auto; unfold AvrIsr.in_mode; rewrite Hpc, Epc; splits; auto.
  destruct (Z.eqb_spec (add_check A true c (v_q v)) AQE_OK) as [E|E].
  2:{ cbn [fst snd]. cbn [hstep] in *. rewrite Hpc in *. rewrite Hq in *.
      destruct (Z.eqb_spec (add_check A true c (v_q v)) AQE_OK) as [K|_]; [contradiction|].
      splits; auto. unfold AvrIsr.in_mode. cbn [h_q h_pins h_pc h_started]. splits; auto. }
  cbn [fst snd v_q v_next].
  pose proof E as E0. apply check_ok in E0. destruct E0 as (_ & Hnf & _).
  assert (Hlt : queueEntries (v_q v) < QUEUE_LEN A).
  { rewrite <- Hq in *. destruct (iv_wf A h Hi) as (_ & _ & ?); lia. }
  assert (Ep : pend A (fst (add_prepare A EXT c (v_q v) (v_pins v))) = pend A (v_q v)).
  { transitivity (pend A (set_ent (upd (q_ent (v_q v)) (slot A (q_wr (v_q v))) (new_entry A EXT c (v_q v))) (v_q v))).
    - unfold add_prepare. destruct (direct_dir (v_q v)); reflexivity.
    - apply pend_upd_free; [exact HA|rewrite <- Hq; apply (iv_wf A h Hi)|assumption]. }
  assert (Eh : step (EBegin c start true) h =
    mkH (fst (add_prepare A EXT c (v_q v) (v_pins v))) (snd (add_prepare A EXT c (v_q v) (v_pins v)))
             (Prepared c (next_end c (v_q v)) start) (h_done h) (h_base h) (h_started h) (h_clean h)
             (h_acc h) (h_left h) (h_res h) (h_log h)).
  { cbn [hstep]. rewrite Hpc, Hq, Hpi, E. reflexivity. }
  assert (Eset : exists qe, fst (add_prepare A EXT c (v_q v) (v_pins v)) =
     set_end qe (set_ent (upd (q_ent (v_q v)) (slot A (q_wr (v_q v))) (new_entry A EXT c (v_q v))) (v_q v))).
  { unfold add_prepare. destruct (direct_dir (v_q v)); eexists; [reflexivity|].
    cbn [fst]. instantiate (1 := q_end (v_q v)). destruct (v_q v); reflexivity. }
  destruct Eset as [qe Eset].
  rewrite Eh in *. split.
  - unfold AvrIsr.in_mode. cbn [h_q h_pins h_pc h_started v_q v_pins v_pc v_irq v_nomore v_one].
    split; [reflexivity|]. split; [reflexivity|]. split; [reflexivity|]. split; [exact I'|].
    split; [exact R'|].
    split. { unfold AvrIsr.plain in *. rewrite Hq in Hpl. rewrite Eset. exact Hpl. }
    assert (Erun : q_running (fst (add_prepare A EXT c (v_q v) (v_pins v))) = q_running (v_q v)) by now rewrite Eset.
    assert (Ene : nonempty (fst (add_prepare A EXT c (v_q v) (v_pins v))) = nonempty (v_q v)) by now rewrite Eset.
    rewrite Erun. destruct m.
    + destruct Hm as (M1 & M2 & M3 & M4 & M5 & M6). rewrite Ene. splits; auto. rewrite M6.
      pose proof (pend_pop A HA (v_q v)) as Hpp.
      rewrite Hpp in Ep; [|rewrite <- Hq; apply (iv_wf A h Hi)|now apply nonempty_iff].
      destruct (head_pend _ _ _ (iv_wf A _ I') Ep) as [Hh _]. cbn [h_q] in Hh. now rewrite Hh.
    + destruct Hm as (M1 & M2 & M3 & M4 & M5). rewrite Ene. splits; auto.
    + assumption.
  - rewrite Ep, Eset. splits; reflexivity.
Qed.

Definition tk (v : avr) : list command :=
  match v_pc v with Prepared c _ _ => if q_ignore (v_q v) then [] else [c] | _ => [] end.
Lemma commit_ev m v h : in_mode m v h -> favourable VCommit v = true ->
  let v' := fst (vstep EXT VCommit v) in
  in_mode m v' (step (ECommit true) h) /\ rest (v_q v') = rest (v_q v) ++ tk v /\
    (m = MDrain -> tk v = []) /\
    v_next v' = v_next v /\ q_hcu (v_q v') = q_hcu (v_q v) /\ q_pin (v_q v') = q_pin (v_q v) /\
    snd (vstep EXT VCommit v) = [] /\ h_acc (step (ECommit true) h) = h_acc h ++ tk v.
Proof.
  intros Hm Hf. cbn zeta. unfold favourable in Hf. unfold tk. cbn [vstep hstep].
  destruct Hm as (Hq & Hpi & Hpc & Hi & Hr & Hpl & Hm).
  destruct (hstep_inv EXT h (ECommit true) Hi Hr I) as [I' R'].
  cbn [hstep] in *. rewrite Hpc in *.
  destruct (v_pc v) as [|c ne st|] eqn:Epc; cbn [fst snd].
  1,3: rewrite !app_nil_r; splits; auto; unfold AvrIsr.in_mode; rewrite Hpc, Epc; splits; auto.
  pose proof (iv_prep A h Hi) as Hp. rewrite Hpc, Hq in Hp.
  destruct Hp as (Hc & Hlt & Hne & He). cbn zeta in He. destruct He as (He1 & He2 & He3 & _).
  assert (Hw : wf A (v_q v)) by (rewrite <- Hq; apply (iv_wf A h Hi)).
  rewrite Hq in *. unfold add_commit in *.
  destruct (q_ignore (v_q v)) eqn:Eig; cbn [fst snd v_q v_next] in *; change (AQE_OK =? AQE_OK) with true in *.
  - rewrite !app_nil_r. splits; auto. unfold AvrIsr.in_mode. cbn [h_q h_pins h_pc h_started v_q v_pins v_pc v_irq v_nomore v_one]. splits; auto.
  - assert (Ep : pend A (set_end ne (set_wr (u8 (q_wr (v_q v) + 1)) (v_q v))) =
                 pend A (v_q v) ++ [q_ent (v_q v) (slot A (q_wr (v_q v)))]).
    { apply pend_commit; auto. apply HA. }
    assert (Md : m <> MDrain).
    { intros ->. destruct Hm as (_ & M2 & _ & M4 & _). rewrite M2, M4 in Hf. discriminate. }
    split.
    + unfold AvrIsr.in_mode. cbn [h_q h_pins h_pc h_started v_q v_pins v_pc v_irq v_nomore v_one].
      splits; auto. destruct m; [|contradiction|assumption].
      destruct Hm as (M1 & M2 & M3 & M4 & M5 & M6).
      pose proof (pend_pop A HA (v_q v) Hw (proj1 (nonempty_iff _) M4)) as Hpp.
      pose proof Ep as Ep2. rewrite Hpp in Ep2. cbn [app] in Ep2.
      destruct (head_pend _ _ _ (iv_wf A _ I') Ep2) as [Hh Hne2]. cbn [h_q] in Hh, Hne2.
      splits; auto; now rewrite Hh.
    + unfold rest. rewrite Ep, map_app. cbn [map]. split; [|splits; auto; intros; contradiction].
      f_equal. unfold cmd_of. rewrite He1, He2, He3. destruct c; reflexivity.
Qed.
Definition starts (ev : vevent) (v : avr) : option Z :=
  match ev, v_pc v with
  | VStart now, Committed st => if add_starts st (v_q v) then Some now else None
  | VNull start now, Free =>
    if a_started (q_add_null true start (v_q v) (v_pins v)) then Some now else None
  | _, _ => None
  end.
Definition ev_of (ev : vevent) : event :=
  match ev with VNull start _ => EAddNull start true | _ => EStartQ end.
Lemma started_run v h h' now ev : in_mode MIdle v h -> nonempty (v_q v) = true ->
  ev_ok ev -> h' = step ev h ->
  h' = start_head A (with_pc Free (with_q (set_running true (v_q v)) h)) ->
  in_mode MRun (avr_start now v) h' /\ h_acc h' = h_acc h.
Proof.
  intros (Hq & Hpi & Hpc & Hi & Hr & Hpl & M1 & M2 & M3 & M4 & M5) Hn Hev E E2.
  destruct (hstep_inv EXT h ev Hi Hr Hev) as [I' R']. rewrite <- E in I', R'.
  unfold start_head in E2. cbn [with_pc with_q h_q h_started] in E2.
  change (nonempty (set_running true (v_q v))) with (nonempty (v_q v)) in E2. rewrite Hn, M5 in E2. cbn [andb negb] in E2.
  rewrite E2 in *. clear E E2.
  split; [|reflexivity]. unfold AvrIsr.in_mode, avr_start.
  cbn [h_q h_pins h_pc h_started v_q v_pins v_pc v_irq v_nomore v_one with_pc with_q] in *.
  splits; auto.
  - rewrite Hpi. reflexivity.
  - unfold AvrIsr.plain in *. rewrite Hq in Hpl. exact Hpl.
Qed.
Lemma start_ev ev m v h : in_mode m v h -> match ev with VStart _ | VNull _ _ => True | _ => False end ->
  favourable ev v = true ->
  let v' := fst (vstep EXT ev v) in
  let h' := step (ev_of ev) h in
  snd (vstep EXT ev v) = [] /\ h_acc h' = h_acc h /\
  match starts ev v with
  | Some now => m = MIdle /\ in_mode MRun v' h' /\ nonempty (v_q v) = true /\ v_next v <= now /\ v' = avr_start now v
  | None => in_mode m v' h' /\ v_q v' = v_q v /\ v_next v' = v_next v
  end.
Proof.
  intros Hm He Hf v' h'. unfold v', h'.
  assert (IDLE : q_running (v_q v) = false -> m = MIdle).
  { intros K. destruct Hm as (_ & _ & _ & _ & _ & _ & Hm). destruct m; auto; destruct Hm as (_ & M2 & _); congruence. }
  pose proof Hm as Hm0.
  destruct Hm as (Hq & Hpi & Hpc & Hi & Hr & Hpl & Hm).
  unfold favourable in Hf. unfold starts. cbn [vstep].
  destruct ev as [| |now|start now|]; try contradiction; cbn [vstep ev_of hstep]; rewrite Hpc.
  - destruct (v_pc v) as [|c ne st|st] eqn:Epc; cbn [fst snd].
    1,2: splits; auto.
    rewrite Hq. destruct (add_starts st (v_q v)) eqn:Es; cbn [fst snd].
    + apply andb_true_iff in Hf as [Hn Hnow]. apply Z.leb_le in Hnow.
      assert (m = MIdle).
      { apply IDLE. unfold add_starts in Es. destruct (q_running (v_q v)); [discriminate|reflexivity]. }
      subst m. destruct (started_run v h _ now EStartQ Hm0 Hn I eq_refl) as [H1 H2].
      { cbn [hstep]. rewrite Hpc, Hq, Es. reflexivity. }
      cbn [hstep] in H1, H2. rewrite Hpc, Hq, Es in H1, H2. splits; auto.
    + destruct (hstep_inv EXT h EStartQ Hi Hr I) as [I' R']. cbn [hstep] in I', R'. rewrite Hpc, Hq, Es in I', R'.
      splits; auto. unfold AvrIsr.in_mode. cbn [with_pc h_q h_pins h_pc h_started v_q v_pins v_pc v_irq v_nomore v_one] in *.
      splits; auto.
  - rewrite Hq, Hpi. destruct (v_pc v) as [|c ne st|st] eqn:Epc; cbn [fst snd is_free andb].
    2,3: splits; auto.
    destruct (a_started (q_add_null true start (v_q v) (v_pins v))) eqn:Es; cbn [fst snd].
    + apply andb_true_iff in Hf as [Hn Hnow]. apply Z.leb_le in Hnow.
      assert (m = MIdle).
      { apply IDLE. unfold q_add_null in Es. cbn [negb] in Es.
        destruct (q_running (v_q v)); [|reflexivity]. rewrite andb_false_r in Es. discriminate. }
      subst m. destruct (started_run v h _ now (EAddNull start true) Hm0 Hn I eq_refl) as [H1 H2].
      { cbn [hstep]. rewrite Hpc, Hq, Hpi, Es. cbn [is_free andb]. f_equal. unfold with_pc, with_q.
        cbn [h_q h_pins h_pc h_done h_base h_clean h_acc h_left h_res h_log h_started]. now rewrite Hpc. }
      cbn [hstep] in H1, H2. rewrite Hpc, Hq, Hpi, Es in H1, H2. splits; auto.
    + splits; auto.
Qed.
Lemma ignore_ev m v h b : in_mode m v h ->
  in_mode m (v_setq (set_ignore b (v_q v)) v) (step (EIgnore b) h) /\ h_acc (step (EIgnore b) h) = h_acc h.
Proof.
  intros (Hq & Hpi & Hpc & Hi & Hr & Hpl & Hm).
  destruct (hstep_inv EXT h (EIgnore b) Hi Hr I) as [I' R']. cbn [hstep] in *.
  split; [|reflexivity]. unfold AvrIsr.in_mode, v_setq. cbn [with_q h_q h_pins h_pc h_started v_q v_pins v_pc v_irq v_nomore v_one] in *.
  rewrite Hq in *. splits; auto.
Qed.

(** ** Sessions: the queue is started at a time [t] and carries out commands until it has
    run empty *)
Definition sessions := list (Z * list command).
Section Account.
Variable dir : bool -> option bool.
Variable tb : Z.
Variable a0 : list command.
Definition flat (ss : sessions) : list pulse :=
  concat (map (fun x => pulses (fst x + 10) dir (snd x)) ss).
Definition cmds (ss : sessions) : list command := concat (map snd ss).
Fixpoint last_end (t : Z) (ss : sessions) : Z :=
  match ss with [] => t | (s, cs) :: ss' => last_end (end_time (s + 10) cs) ss' end.
Fixpoint ordered (t : Z) (ss : sessions) : Prop :=
  match ss with [] => True | (s, cs) :: ss' => t <= s /\ ordered (end_time (s + 10) cs) ss' end.
Lemma last_end_app : forall ss t s cs, last_end t (ss ++ [(s, cs)]) = end_time (s + 10) cs.
Proof. induction ss as [|[s1 c1] ss IH]; intros t s cs; cbn [app last_end]; auto. Qed.
Lemma ordered_app : forall ss t s cs, ordered t (ss ++ [(s, cs)]) <-> ordered t ss /\ last_end t ss <= s.
Proof.
  induction ss as [|[s1 c1] ss IH]; intros t s cs; cbn [app last_end ordered]; [tauto|].
  rewrite IH. tauto.
Qed.
Lemma flat_app ss s cs : flat (ss ++ [(s, cs)]) = flat ss ++ pulses (s + 10) dir cs.
Proof. unfold flat. rewrite map_app, concat_app. cbn [map concat fst snd]. now rewrite app_nil_r. Qed.
Lemma cmds_app ss s cs : cmds (ss ++ [(s, cs)]) = cmds ss ++ cs.
Proof. unfold cmds. rewrite map_app, concat_app. cbn [map concat snd]. now rewrite app_nil_r. Qed.

(** [log]: the pulses so far, [acc]: the commands taken into the queue *)
Definition acct (m : mode) (ss : sessions) (v : avr) (log : list pulse) (acc : list command) : Prop :=
  ordered tb ss /\
  match m with
  | MIdle => log = flat ss /\ acc = a0 ++ cmds ss ++ rest (v_q v) /\ v_next v = last_end tb ss
  | _ => log ++ pulses (v_next v) dir (rest (v_q v)) = flat ss /\ acc = a0 ++ cmds ss /\
         end_time (v_next v) (rest (v_q v)) = last_end tb ss /\ ss <> []
  end.
Definition rel_at (m : mode) (ss : sessions) (v : avr) (log : list pulse) (h : hst) : Prop :=
  in_mode m v h /\ acct m ss v log (h_acc h) /\ dir_of (v_q v) = dir /\
    exists w, h_acc h = a0 ++ w /\ Forall cmd_ok w.
Definition rel (v : avr) (log : list pulse) (h : hst) : Prop := exists m ss, rel_at m ss v log h.

Lemma drain_rest v h : in_mode MDrain v h -> rest (v_q v) = [].
Proof.
  intros (_ & _ & _ & _ & _ & _ & _ & _ & _ & M4 & _). unfold rest.
  apply (nonempty_false A) in M4. now rewrite M4.
Qed.
Lemma at_isr m ss v log h : rel_at m ss v log h ->
  exists evs m', rel_at m' ss (fst (vstep EXT VIsr v)) (log ++ snd (vstep EXT VIsr v)) (isr A EXT evs h)
    /\ (m = MIdle \/ m' = MIdle -> rest (v_q (fst (vstep EXT VIsr v))) = rest (v_q v)
        /\ (m = MIdle \/ rest (v_q v) = [])).
Proof.
  intros (Hm & (Ho & Ha) & Hd & Hw). cbn [vstep].
  pose proof Hm as (_ & _ & _ & Hi & _).
  destruct (v_irq v) eqn:Eirq.
  2:{ cbn [fst snd]. rewrite app_nil_r. exists [], m. unfold rel_at. splits; auto. split; assumption.
      intros K. split; [reflexivity|tauto]. }
  destruct m.
  - destruct Ha as (A1 & A2 & A3 & A4).
    destruct (isr_run_ev EXT v h Hm) as (m1 & ev & Hev & K1 & K2 & K3 & K4 & _ & K5 & K6).
    assert (Ei : isr_ev ev = true) by (destruct Hev as [-> | ->]; reflexivity).
    assert (P : m1 <> MIdle) by (destruct K2 as [->|[-> _]]; discriminate).
    exists [ev], m1. rewrite isr_one by exact Ei. split; [|intros [K|K]; [discriminate|contradiction]].
    split; [exact K1|]. rewrite (k_acc _ _ (isr_step_kept A EXT ev h Hi Ei)).
    split; [|split; [rewrite <- Hd; now apply dir_of_ext|exact Hw]].
    split; [exact Ho|].
    assert (Q : (log ++ snd (avr_isr v)) ++ pulses (v_next (fst (avr_isr v))) dir (rest (v_q (fst (avr_isr v)))) = flat ss
       /\ h_acc h = a0 ++ cmds ss /\ end_time (v_next (fst (avr_isr v))) (rest (v_q (fst (avr_isr v)))) = last_end tb ss /\ ss <> []).
    { rewrite <- app_assoc, <- Hd, K3, Hd, K4. splits; auto. }
    destruct m1; [exact Q|exact Q|contradiction].
  - destruct Ha as (A1 & A2 & A3 & A4).
    pose proof (drain_rest _ _ Hm) as Er.
    destruct (isr_drain_ev EXT v h Hm) as (E0 & K1 & K2 & K3 & K4 & K5).
    exists [EStop], MIdle. rewrite isr_one by reflexivity.
    assert (E2 : rest (v_q (fst (avr_isr v))) = rest (v_q v)) by (unfold rest; now rewrite K3).
    split; [|intros _; auto].
    split; [exact K1|]. rewrite (k_acc _ _ (isr_step_kept A EXT EStop h Hi eq_refl)).
    split; [|split; [rewrite <- Hd; now apply dir_of_ext|exact Hw]].
    split; [exact Ho|]. rewrite Er in A1, A3. cbn [pulses end_time] in A1, A3. rewrite app_nil_r in A1.
    rewrite E0, app_nil_r, K2, E2, Er, app_nil_r. splits; auto.
  - exfalso. destruct Hm as (_ & _ & _ & _ & _ & _ & M1 & _). congruence.
Qed.
Lemma rel_isr v log h : rel v log h ->
  exists evs, rel (fst (vstep EXT VIsr v)) (log ++ snd (vstep EXT VIsr v)) (isr A EXT evs h).
Proof. intros (m & ss & H). destruct (at_isr _ _ _ _ _ H) as (evs & m' & H' & _). exists evs, m', ss. exact H'. Qed.
Lemma at_begin m ss v log h c start : rel_at m ss v log h -> cmd_ok c ->
  rel_at m ss (fst (vstep EXT (VBegin c start) v)) (log ++ snd (vstep EXT (VBegin c start) v)) (step (EBegin c start true) h).
Proof.
  intros (Hm & (Ho & Ha) & Hd & Hw) Hc.
  destruct (begin_ev m v h c start Hm Hc) as (K1 & K2 & K3 & K4 & K5 & K6 & K7).
  rewrite K6, app_nil_r. split; [exact K1|]. rewrite K7. split; [|split; [rewrite <- Hd; now apply dir_of_ext|exact Hw]].
  split; [exact Ho|]. unfold rest. rewrite K2, K3. exact Ha.
Qed.
Lemma rel_begin v log h c start : rel v log h -> cmd_ok c ->
  rel (fst (vstep EXT (VBegin c start) v)) (log ++ snd (vstep EXT (VBegin c start) v)) (step (EBegin c start true) h).
Proof. intros (m & ss & H) Hc. exists m, ss. now apply at_begin. Qed.
Lemma at_commit m ss v log h : rel_at m ss v log h -> favourable VCommit v = true ->
  exists ss', rel_at m ss' (fst (vstep EXT VCommit v)) (log ++ snd (vstep EXT VCommit v)) (step (ECommit true) h)
    /\ (m = MIdle -> ss' = ss)
    /\ (m = MRun -> forall ss0 s cs, ss = ss0 ++ [(s, cs)] -> ss' = ss0 ++ [(s, cs ++ tk v)]).
Proof.
  intros (Hm & (Ho & Ha) & Hd & Hw) Hf.
  destruct (commit_ev m v h Hm Hf) as (K1 & K2 & K8 & K3 & K4 & K5 & K6 & K7).
  rewrite K6, app_nil_r. 
  assert (D : dir_of (v_q (fst (vstep EXT VCommit v))) = dir /\
    exists w, h_acc (step (ECommit true) h) = a0 ++ w /\ Forall cmd_ok w).
  { split; [rewrite <- Hd; now apply dir_of_ext|]. destruct Hw as (w & W1 & W2).
    exists (w ++ tk v). rewrite K7, W1, app_assoc. split; [reflexivity|]. apply Forall_app. split; [exact W2|].
    unfold tk. destruct Hm as (_ & _ & Hpc & Hi & _). pose proof (iv_prep A h Hi) as Hp. rewrite Hpc in Hp.
    destruct (v_pc v); [constructor| |constructor]. destruct (q_ignore _); [constructor|]. constructor; [apply Hp|constructor]. }
  destruct m.
  - destruct Ha as (A1 & A2 & A3 & A4). destruct (exists_last A4) as (ss0 & [s cs] & ->).
    exists (ss0 ++ [(s, cs ++ tk v)]). split; [|split; [discriminate|]].
    2:{ intros _ ss1 s1 cs1 E. apply app_inj_tail in E as [-> E]. injection E as -> ->. reflexivity. }
    split; [exact K1|]. split; [|exact D].
    rewrite flat_app in A1. rewrite cmds_app in A2. rewrite last_end_app in A3. rewrite ordered_app in Ho.
    split; [now apply ordered_app|]. rewrite flat_app, cmds_app, last_end_app, K2, K3, K7.
    rewrite !pulses_app, !end_time_app, A3. splits.
    + rewrite app_assoc, A1, app_assoc. reflexivity.
    + rewrite A2, !app_assoc. reflexivity.
    + reflexivity.
    + now destruct ss0.
  - exists ss. split; [|split; intros; [reflexivity|discriminate]]. split; [exact K1|]. split; [|exact D]. split; [exact Ho|].
    rewrite (K8 eq_refl), app_nil_r in *. rewrite K2, K3, K7. exact Ha.
  - destruct Ha as (A1 & A2 & A3). exists ss. split; [|split; intros; [reflexivity|discriminate]].
    split; [exact K1|]. split; [|exact D]. split; [exact Ho|].
    rewrite K2, K3, K7, A2, !app_assoc. splits; auto.
Qed.
Lemma rel_commit v log h : rel v log h -> favourable VCommit v = true ->
  rel (fst (vstep EXT VCommit v)) (log ++ snd (vstep EXT VCommit v)) (step (ECommit true) h).
Proof. intros (m & ss & H) Hf. destruct (at_commit _ _ _ _ _ H Hf) as (ss' & H' & _). exists m, ss'. exact H'. Qed.
Lemma at_start ev m ss v log h : rel_at m ss v log h -> match ev with VStart _ | VNull _ _ => True | _ => False end ->
  favourable ev v = true ->
  let H' m' ss' := rel_at m' ss' (fst (vstep EXT ev v)) (log ++ snd (vstep EXT ev v)) (step (ev_of ev) h) in
  match starts ev v with
  | Some now => m = MIdle /\ H' MRun (ss ++ [(now, rest (v_q v))])
  | None => H' m ss
  end.
Proof.
  intros (Hm & (Ho & Ha) & Hd & Hw) He Hf. cbv zeta.
  destruct (start_ev ev m v h Hm He Hf) as (K1 & K2 & K3). rewrite K1, app_nil_r.
  destruct (starts ev v) as [now|].
  - destruct K3 as (-> & K3 & K4 & K5 & K6). destruct Ha as (A1 & A2 & A3).
    split; [reflexivity|]. split; [exact K3|].
    rewrite K6, K2. split; [|split; [exact Hd|exact Hw]]. split; [apply ordered_app; split; [exact Ho|lia]|].
    rewrite flat_app, cmds_app, last_end_app.
    change (rest (v_q (avr_start now v))) with (rest (v_q v)). cbn [avr_start v_next].
    splits; auto; [now rewrite A1|now destruct ss].
  - destruct K3 as (K3 & K4 & K5). split; [exact K3|]. rewrite K4, K2. split; [|split; [exact Hd|exact Hw]].
    split; [exact Ho|]. rewrite K4, K5. exact Ha.
Qed.
Lemma rel_start ev v log h : rel v log h -> match ev with VStart _ | VNull _ _ => True | _ => False end ->
  favourable ev v = true ->
  rel (fst (vstep EXT ev v)) (log ++ snd (vstep EXT ev v)) (step (ev_of ev) h).
Proof.
  intros (m & ss & H) He Hf. pose proof (at_start _ _ _ _ _ _ H He Hf) as K. cbv zeta in K.
  destruct (starts ev v); [destruct K as [_ K]|]; eexists _, _; exact K.
Qed.
Lemma at_ignore b m ss v log h : rel_at m ss v log h ->
  rel_at m ss (v_setq (set_ignore b (v_q v)) v) log (step (EIgnore b) h).
Proof.
  intros (Hm & (Ho & Ha) & Hd & Hw). destruct (ignore_ev m v h b Hm) as [K1 K2].
  split; [exact K1|]. rewrite K2. split; [|split; [exact Hd|exact Hw]]. split; [exact Ho|exact Ha].
Qed.
Lemma rel_ignore b v log h : rel v log h ->
  rel (v_setq (set_ignore b (v_q v)) v) log (step (EIgnore b) h).
Proof. intros (m & ss & H). exists m, ss. now apply at_ignore. Qed.

(** ** The two queues *)
Notation X := (hacc A EXT).
Definition Rel (tv : vq) (th : hq) : Prop :=
  vq_ok tv = true /\ rel (vq_v tv) (vq_log tv) (hq_h th) /\ v_pc (vq_v tv) = Free /\ vq_p tv = hq_p th.
Lemma rel_fields v log h : rel v log h ->
  h_q h = v_q v /\ h_pins h = v_pins v /\ h_pc h = v_pc v /\ inv A h.
Proof. intros (m & ss & (H1 & H2 & H3 & H4 & _) & _). auto. Qed.
Lemma Rel_fields tv th : Rel tv th -> v_q (vq_v tv) = tqueue th /\ good A th /\ vq_p tv = hq_p th.
Proof.
  intros (_ & H & Hpc & Hp). destruct (rel_fields _ _ _ H) as (H1 & H2 & H3 & H4).
  split; [symmetry; exact H1|]. split; [|exact Hp]. split; [exact H4|congruence].
Qed.
Lemma Rel_seen tv th : Rel tv th -> seen (v_q (vq_v tv)) (tqueue th) /\ good A th /\ vq_p tv = hq_p th.
Proof. intros H. destruct (Rel_fields _ _ H) as (H1 & H2). split; [now apply seen_eq|exact H2]. Qed.

Lemma ok_veff ev t : vq_ok (veff ev t) = true -> vq_ok t = true /\ favourable ev (vq_v t) = true.
Proof. cbn. apply andb_true_iff. Qed.
Lemma ok_visrs : forall n t, vq_ok (visrs n t) = vq_ok t.
Proof. induction n as [|n IH]; intros t; cbn [visrs]; [reflexivity|]. rewrite IH. cbn. apply andb_true_r. Qed.
Lemma p_visrs : forall n t, vq_p (visrs n t) = vq_p t.
Proof. induction n as [|n IH]; intros t; cbn [visrs]; [reflexivity|]. now rewrite IH. Qed.
Lemma w_visrs : forall n t, vq_w (visrs n t) = vq_w t.
Proof. induction n as [|n IH]; intros t; cbn [visrs]; [reflexivity|]. now rewrite IH. Qed.
Lemma rel_visrs : forall n t h, rel (vq_v t) (vq_log t) h ->
  exists evs, rel (vq_v (visrs n t)) (vq_log (visrs n t)) (isr A EXT evs h).
Proof.
  induction n as [|n IH]; intros t h H; cbn [visrs].
  - exists []. exact H.
  - destruct (rel_isr _ _ _ H) as [e1 H1]. destruct (IH (veff VIsr t) _ H1) as [e2 H2].
    exists (e1 ++ e2). rewrite isr_app. exact H2.
Qed.
Lemma startq_res h : h_res (step EStartQ h) = h_res h.
Proof.
  cbn [hstep]. destruct (h_pc h); auto. destruct (add_starts _ _); [|reflexivity].
  unfold start_head. destruct (_ && _); reflexivity.
Qed.
Lemma call_code e0 e1 e2 c start h : inv A h -> cmd_ok c -> h_pc h = Free ->
  last_code (hcall A EXT (mkWeather true true e0 e1 e2 []) c start h) = add_check A true c (h_q (isr A EXT e0 h)).
Proof.
  intros HI Hc Hpc. unfold hcall. cbn [w_i0 w_i1 w_i2 w_r1 w_r2].
  destruct (isr_kept A EXT HA e0 h HI) as [I0 K0]. set (h0 := isr A EXT e0 h) in *. clearbody h0.
  assert (P0 : h_pc h0 = Free) by (rewrite (k_pc _ _ K0); exact Hpc).
  assert (I1 : inv A (step (EBegin c start true) h0)) by (apply inv_step; auto; apply HA).
  destruct (isr_kept A EXT HA e1 _ I1) as [I2 K2].
  set (h1 := step (EBegin c start true) h0) in *. set (h2 := isr A EXT e1 h1) in *.
  assert (I3 : inv A (step (ECommit true) h2)) by (apply inv_step; auto; [apply HA|exact I]).
  destruct (isr_kept A EXT HA e2 _ I3) as [I4 K4].
  set (h3 := step (ECommit true) h2) in *. set (h4 := isr A EXT e2 h3) in *.
  unfold last_code. rewrite startq_res, (k_res _ _ K4).
  assert (E : (add_check A true c (h_q h0) = AQE_OK /\ h_pc h1 = Prepared c (next_end c (h_q h0)) start) \/
     (add_check A true c (h_q h0) <> AQE_OK /\ h_pc h1 = Free /\ h_res h1 = h_res h0 ++ [(c, add_check A true c (h_q h0))])).
  { unfold h1. cbn [hstep]. rewrite P0. destruct (Z.eqb_spec (add_check A true c (h_q h0)) AQE_OK) as [E|E]; cbn; auto. }
  destruct E as [[E1 E2]|(E1 & E2 & E3)].
  - unfold h3. cbn [hstep]. rewrite (k_pc _ _ K2), E2. cbn [h_res]. rewrite last_snoc. cbn [snd].
    rewrite E1. unfold add_commit. destruct (q_ignore _); reflexivity.
  - unfold h3. cbn [hstep]. rewrite (k_pc _ _ K2), E2, (k_res _ _ K2), E3, last_snoc. reflexivity.
Qed.

Lemma ok_add c start t : vq_ok (fst (v_add c start t)) = true -> vq_ok t = true.
Proof.
  unfold v_add. cbn [fst]. intros H. apply ok_veff in H as [H _]. rewrite ok_visrs in H.
  apply ok_veff in H as [H _]. rewrite ok_visrs in H. apply ok_veff in H as [H _]. rewrite ok_visrs in H. exact H.
Qed.
Lemma ok_null start t : vq_ok (fst (v_null start t)) = true -> vq_ok t = true.
Proof. unfold v_null. cbn [fst]. intros H. apply ok_veff in H as [H _]. rewrite ok_visrs in H. exact H. Qed.

Lemma sim_add c start tv th : Rel tv th -> cmd_ok c -> vq_ok (fst (v_add c start tv)) = true ->
  exists ws th', Rel (fst (v_add c start tv)) th' /\ Forall ready ws /\
    forall ws2, h_add A EXT c start (set_w (ws ++ ws2) th) = (set_w ws2 th', snd (v_add c start tv)).
Proof.
  intros (_ & H & Hpc & Hp) Hc Hok. destruct (rel_fields _ _ _ H) as (Q1 & Q2 & Q3 & Q4).
  pose proof Hok as HOK. unfold v_add in *. cbn [fst snd] in *. set (x := vw1 tv) in *.
  set (t0 := visrs (x_i0 x) (vtl tv)) in *.
  set (t1 := veff (VBegin c start) t0) in *.
  set (t2 := visrs (x_i1 x) t1) in *.
  set (t3 := veff VCommit t2) in *.
  set (t4 := visrs (x_i2 x) t3) in *.
  apply ok_veff in Hok as [Hok F5]. unfold t4 in Hok. rewrite ok_visrs in Hok.
  apply ok_veff in Hok as [_ F3].
  destruct (rel_visrs (x_i0 x) (vtl tv) (hq_h th) H) as [e0 H0]. fold t0 in H0.
  pose proof (rel_begin _ _ _ c start H0 Hc) as H1.
  destruct (rel_visrs (x_i1 x) t1 _ H1) as [e1 H2]. fold t2 in H2.
  pose proof (rel_commit _ _ _ H2 F3) as H3.
  destruct (rel_visrs (x_i2 x) t3 _ H3) as [e2 H4]. fold t4 in H4.
  pose proof (rel_start (VStart (x_now x)) _ _ _ H4 I F5) as H5. cbn [ev_of] in H5.
  set (w := mkWeather true true e0 e1 e2 []).
  exists [w], (mkHq (hcall A EXT w c start (hq_h th)) (hq_p th) []).
  split.
  - split; [exact HOK|]. split; [exact H5|]. destruct (rel_fields _ _ _ H5) as (_ & _ & R3 & _).
    split.
    + cbn [veff vq_v]. rewrite <- R3.
      apply (cs_pc A c (hq_h th) _ _ (proj1 (hcall_spec A EXT HA w c start (hq_h th) Q4 Hc ltac:(congruence)))).
    + cbn [veff vq_p hq_p]. unfold t4, t3, t2, t1, t0. rewrite p_visrs. cbn [veff vq_p]. rewrite p_visrs.
      cbn [veff vq_p]. rewrite p_visrs. exact Hp.
  - split; [repeat constructor|]. intros ws2. unfold h_add, set_w, weather1. cbn [app hq_w hq_h hq_p tl]. f_equal.
    unfold w. rewrite call_code by (auto; congruence). f_equal. destruct (rel_fields _ _ _ H0) as (R1 & _). exact R1.
Qed.
Lemma sim_null start tv th : Rel tv th -> vq_ok (fst (v_null start tv)) = true ->
  exists ws th', Rel (fst (v_null start tv)) th' /\ Forall ready ws /\
    forall ws2, h_null A EXT start (set_w (ws ++ ws2) th) = (set_w ws2 th', snd (v_null start tv)).
Proof.
  intros (_ & H & Hpc & Hp) Hok. destruct (rel_fields _ _ _ H) as (Q1 & Q2 & Q3 & Q4).
  pose proof Hok as HOK. unfold v_null in *. cbn [fst snd] in *. set (x := vw1 tv) in *.
  set (t0 := visrs (x_i0 x) (vtl tv)) in *.
  apply ok_veff in Hok as [_ F].
  destruct (rel_visrs (x_i0 x) (vtl tv) (hq_h th) H) as [e0 H0]. fold t0 in H0.
  pose proof (rel_start (VNull start (x_now x)) _ _ _ H0 I F) as H1. cbn [ev_of] in H1.
  set (w := mkWeather true true e0 [] [] []).
  destruct (rel_fields _ _ _ H0) as (R1 & R2 & R3 & R4).
  exists [w], (mkHq (step (EAddNull start true) (isr A EXT e0 (hq_h th))) (hq_p th) []).
  split.
  - split; [exact HOK|]. split; [exact H1|]. destruct (rel_fields _ _ _ H1) as (_ & _ & S3 & _).
    split.
    + cbn [veff vq_v]. rewrite <- S3.
      destruct (isr_kept A EXT HA e0 (hq_h th) Q4) as [_ K]. pose proof (k_pc _ _ K) as Kp.
      cbn [hstep]. destruct (_ && _); [|congruence]. unfold start_head. destruct (_ && _); cbn; congruence.
    + cbn [veff vq_p hq_p]. unfold t0. rewrite p_visrs. exact Hp.
  - split; [repeat constructor|]. intros ws2. unfold h_null, set_w, weather1. cbn [app hq_w hq_h hq_p tl w_i0 w_r1 w]. rewrite R1, R2. reflexivity.
Qed.
Lemma Rel_w ws tv th : Rel tv th -> Rel tv (set_w ws th).
Proof. exact (fun H => H). Qed.
Lemma Rel_p p tv th : Rel tv th -> Rel (t_setpins vq vacc p tv) (t_setpins hq X p th).
Proof. intros (H1 & H2 & H3 & _). unfold Rel. cbn. auto. Qed.

(** ** addQueueEntry of the front end *)
Lemma ok_sadd ext busy c start s t : vq_ok (snd (fst (s_add A vq vacc ext busy c start s t))) = true -> vq_ok t = true.
Proof.
  exact (AccessSim.ok_sadd A vq vacc (fun t => vq_ok t = true) ok_add ok_null (fun _ _ H => H) ext busy c start s t).
Qed.
Lemma sim_sadd ext busy c start s tv th : Rel tv th -> conf_ok s -> cmd_ok c ->
  let r := s_add A vq vacc ext busy c start s tv in
  vq_ok (snd (fst r)) = true ->
  exists ws th', Rel (snd (fst r)) th' /\
    forall ws2, s_add A hq X ext busy c start s (set_w (ws ++ ws2) th) = (fst (fst r), set_w ws2 th', snd r).
Proof.
  intros HR Hs Hc. cbv zeta. intros Hok.
  edestruct (AccessSim.sim_sadd A EXT vq vacc Rel (fun t => vq_ok t = true) cmd_ok True ready Rel_seen Rel_p
    (fun c0 st0 t0 th0 R0 C0 _ H0 => sim_add c0 st0 t0 th0 R0 C0 H0) (fun st0 t0 th0 R0 _ H0 => sim_null st0 t0 th0 R0 H0)
    ok_add ok_null (fun _ _ H => H) ext busy c start s tv th HR) as (ws & th' & H1 & _ & H3);
    [|exact Hc|auto|exact Hok|exists ws, th'; auto].
  split; [|split].
  - intros th0 H. destruct (pieces_range A EXT s c th0 Hs H) as [_ HP]. cbv zeta in *.
    eapply Forall_impl; [|exact HP]. cbn. intros d Hd. split; cbn; lia.
  - intros _. destruct Hs as [Hs _]. split; cbn; lia.
  - intros _. apply ext_pause_ok.
Qed.

(** ** fill_queue *)
Lemma next_cmd_ok qe old g g' nc : rg_getNextCommand A qe old g = Some (g', nc) ->
  c_ticks (n_cmd nc) <> 0 -> cmd_ok (n_cmd nc).
Proof.
  assert (U : forall a b up, cmd_ok (mkCommand (u16 a) (u8 b) up)).
  { intros a b up. split; cbn [c_ticks c_steps]; [apply Z.mod_pos_bound|apply Z.mod_pos_bound]; lia. }
  unfold rg_getNextCommand. cbv zeta. destruct (ro_force_immediate _).
  { intros E. injection E as _ <-. cbn. congruence. }
  intros H Hn.
  match type of H with context [getNextCommand_ A ?a ?b ?c ?d] => destruct (getNextCommand_ A a b c d) as [n|] eqn:E end; [|discriminate].
  injection H as _ <-. revert E Hn. unfold getNextCommand_. cbv zeta.
  unfold gnc_pause. destruct (_ >? 0).
  { intros E _. injection E as <-. apply (U _ 0). }
  destruct (gnc_delta _ _) as [[need_up R]|]; [|discriminate].
  destruct ((R =? 0) && _); [intros E; injection E as <-; cbn; congruence|].
  destruct (gnc_planning _ _) as [orig|]; [|discriminate].
  destruct (gnc_choose _ _ _ _ _ _) as [[s1 R1] pl1].
  destruct (R1 =? 0); [intros E; injection E as <-; cbn; congruence|].
  destruct (gnc_new_ticks _ _ _ _ _ _ _ _) as [d1 pl2].
  destruct (gnc_min_cmd _ _ _ _ _ _) as [[[s2 d2] pl3]|]; [|discriminate].
  destruct (gnc_split _ _ _) as [[st nx] pz].
  destruct (gnc_prus _ _ _ _ _ _) as [P' nx'].
  intros E _. injection E as <-. apply U.
Qed.
Lemma sadd_conf ext busy c start s tv : conf_ok s -> conf_ok (fst (fst (s_add A vq vacc ext busy c start s tv))).
Proof.
  intros H. unfold s_add, add_second, add_last. cbv zeta.
  repeat (match goal with |- context [if ?b then _ else _] => destruct b end; cbn [fst snd]); exact H.
Qed.
Lemma ok_loop ext busy delayed : forall fuel old prepared need s t s' t' need',
  fill_loop A vq vacc ext busy delayed fuel old prepared need s t = Some (s', t', need') ->
  vq_ok t' = true -> vq_ok t = true.
Proof.
  induction fuel as [|n IH]; intros old prepared need s t s' t' need'; cbn [fill_loop].
  { intros E. injection E as <- <- <-. auto. }
  destruct (fill_more _ _ _ _); [|intros E; injection E as <- <- <-; auto].
  destruct (rg_getNextCommand _ _ _ _) as [[g nc]|]; [|discriminate]. cbv zeta.
  destruct (c_ticks (n_cmd nc) =? 0); [intros E; injection E as <- <- <-; auto|].
  destruct (s_add A vq vacc ext (busy n) (n_cmd nc) (negb delayed) (st_rg g s) t) as [[s1 t1] code] eqn:Es.
  pose proof (ok_sadd ext (busy n) (n_cmd nc) (negb delayed) (st_rg g s) t) as Hs. rewrite Es in Hs. cbn [fst snd] in Hs.
  destruct (code =? AQE_OK).
  { intros E Hok. apply Hs. eapply IH; eassumption. }
  destruct (code >? 0); intros E; injection E as <- <- <-; auto.
Qed.
Lemma sim_loop ext busy delayed : forall fuel old prepared need s tv th s' tv' need', Rel tv th -> conf_ok s ->
  fill_loop A vq vacc ext busy delayed fuel old prepared need s tv = Some (s', tv', need') -> vq_ok tv' = true ->
  exists ws th', Rel tv' th' /\ conf_ok s' /\
    forall ws2, fill_loop A hq X ext busy delayed fuel old prepared need s (set_w (ws ++ ws2) th) = Some (s', set_w ws2 th', need').
Proof.
  induction fuel as [|n IH]; intros old prepared need s tv th s' tv' need' HR Hs; cbn [fill_loop].
  { intros E _. injection E as <- <- <-. exists [], th. splits; auto. }
  destruct (Rel_fields _ _ HR) as (Eq & Hg & Ep).
  change (t_q vq vacc tv) with (v_q (vq_v tv)). rewrite Eq.
  destruct (fill_more A s (tqueue th) prepared) eqn:C1.
  2:{ intros E _. injection E as <- <- <-. exists [], th. splits; auto. intros ws2.
      change (t_q hq X (set_w ([] ++ ws2) th)) with (tqueue th). rewrite C1. reflexivity. }
  destruct (rg_getNextCommand A (q_end (tqueue th)) old (s_rg s)) as [[g nc]|] eqn:Eg; [|discriminate]. cbv zeta.
  destruct (c_ticks (n_cmd nc) =? 0) eqn:C2.
  { intros E _. injection E as <- <- <-. exists [], th. splits; auto. intros ws2.
    change (t_q hq X (set_w ([] ++ ws2) th)) with (tqueue th). rewrite C1, Eg. cbv zeta. rewrite C2. reflexivity. }
  assert (Hc : cmd_ok (n_cmd nc)) by (apply (next_cmd_ok _ _ _ _ _ Eg); apply Z.eqb_neq; exact C2).
  assert (Hs1 : conf_ok (st_rg g s)) by exact Hs.
  pose proof (sim_sadd ext (busy n) (n_cmd nc) (negb delayed) (st_rg g s) tv th HR Hs1 Hc) as SIM. cbv zeta in SIM.
  pose proof (sadd_conf ext (busy n) (n_cmd nc) (negb delayed) (st_rg g s) tv Hs1) as CF.
  destruct (s_add A vq vacc ext (busy n) (n_cmd nc) (negb delayed) (st_rg g s) tv) as [[s1 tv1] code] eqn:Es.
  cbn [fst snd] in SIM, CF.
  destruct (code =? AQE_OK) eqn:C3.
  - intros E Hok. destruct (SIM (ok_loop _ _ _ _ _ _ _ _ _ _ _ _ E Hok)) as (w1 & th1 & R1 & E1).
    destruct (IH _ _ _ _ _ th1 _ _ _ R1 (CF : conf_ok (st_rg _ s1)) E Hok) as (w2 & th2 & R2 & F2 & E2).
    exists (w1 ++ w2), th2. splits; auto. intros ws2. rewrite <- app_assoc.
    match goal with |- context [set_w ?w th] => change (t_q hq X (set_w w th)) with (tqueue th) end.
    rewrite C1, Eg. cbv zeta. rewrite C2, E1, C3. apply E2.
  - destruct (code >? 0) eqn:C4; intros E Hok; injection E as <- <- <-;
      destruct (SIM Hok) as (w1 & th1 & R1 & E1); exists w1, th1; splits; auto; intros ws2;
      match goal with |- context [set_w ?w th] => change (t_q hq X (set_w w th)) with (tqueue th) end;
      rewrite C1, Eg; cbv zeta; rewrite C2, E1, C3, C4; reflexivity.
Qed.
Lemma ok_fill ext busy fuel old s t s' t' : fill_queue A vq vacc ext busy fuel old s t = Some (s', t') ->
  vq_ok t' = true -> vq_ok t = true.
Proof.
  unfold fill_queue. destruct (negb _); [intros E; injection E as <- <-; auto|].
  destruct (negb _); [intros E; injection E as <- <-; auto|]. cbv zeta.
  destruct (fill_loop _ _ _ _ _ _ _ _ _ _ _ _) as [[[s1 t1] need]|] eqn:El; [|discriminate].
  intros E Hok. injection E as <- <-.
  assert (O1 : vq_ok t1 = true) by (destruct need; [apply (ok_null true); exact Hok|exact Hok]).
  exact (ok_loop _ _ _ _ _ _ _ _ _ _ _ _ El O1).
Qed.
Lemma sim_fill ext busy fuel old s tv th s' tv' : Rel tv th -> conf_ok s ->
  fill_queue A vq vacc ext busy fuel old s tv = Some (s', tv') -> vq_ok tv' = true ->
  exists ws th', Rel tv' th' /\ conf_ok s' /\
    fill_queue A hq X ext busy fuel old s (set_w ws th) = Some (s', th').
Proof.
  intros HR Hs. unfold fill_queue.
  destruct (negb (isRampGeneratorActive (s_rg s))); [intros E _; injection E as <- <-; exists [], (set_w [] th); auto|].
  destruct (negb (checkValidConfig (rg_params (s_rg s)) =? MOVE_OK)); [intros E _; injection E as <- <-; exists [], (set_w [] th); auto|].
  cbv zeta.
  set (tv1 := t_ignore vq vacc false tv). set (th1 := t_ignore hq X false th).
  assert (HR1 : Rel tv1 th1).
  { destruct HR as (H1 & H2 & H3 & H4). split; [exact H1|]. split; [|split; [exact H3|exact H4]].
    exact (rel_ignore false _ _ _ H2). }
  destruct (Rel_fields _ _ HR1) as (Eq & _ & _).
  change (t_q vq vacc tv1) with (v_q (vq_v tv1)). rewrite Eq.
  destruct (fill_loop A vq vacc ext busy (negb (q_running (tqueue th1))) fuel old (ticksInQueue A (tqueue th1)) false s tv1)
    as [[[s1 tv2] need]|] eqn:El; [|discriminate].
  intros E Hok. injection E as <- <-.
  assert (O1 : vq_ok tv2 = true) by (destruct need; [apply (ok_null true); exact Hok|exact Hok]).
  destruct (sim_loop _ _ _ _ _ _ _ _ _ th1 _ _ _ HR1 Hs El O1) as (w1 & th2 & R2 & F2 & E2).
  destruct need.
  - destruct (sim_null true tv2 th2 R2 Hok) as (w2 & th3 & R3 & _ & E3).
    exists (w1 ++ w2 ++ []), (set_w [] th3). splits; [exact R3|exact F2|].
    change (t_ignore hq X false (set_w (w1 ++ w2 ++ []) th)) with (set_w (w1 ++ w2 ++ []) th1).
    change (t_q hq X (set_w (w1 ++ w2 ++ []) th1)) with (tqueue th1).
    rewrite E2. change (t_null hq X) with (h_null A EXT). rewrite E3. reflexivity.
  - exists (w1 ++ []), (set_w [] th2). splits; [exact R2|exact F2|].
    change (t_ignore hq X false (set_w (w1 ++ []) th)) with (set_w (w1 ++ []) th1).
    change (t_q hq X (set_w (w1 ++ []) th1)) with (tqueue th1).
    rewrite E2. reflexivity.
Qed.

(** ** Background task and compare events *)
(** as in FrontTask.v, on the AVR driver *)
Inductive vtask :=
| VFill (ext : extcall) (busy : nat -> bool) (fuel : nat) (old : next_command) (ws : list vweather)
| VIsrs (n : nat)
| VTick (ext : extcall).
Definition vset_w (ws : list vweather) (t : vq) : vq := mkVq (vq_v t) (vq_p t) ws (vq_log t) (vq_ok t).
Definition vtstep (e : vtask) (x : stepper * vq) : option (stepper * vq) :=
  let '(s, t) := x in
  match e with
  | VFill ext busy fuel old ws => fill_queue A vq vacc ext busy fuel old s (vset_w ws t)
  | VIsrs n => Some (s, visrs n t)
  | VTick ext =>
    let r := tick ext s (v_q (vq_v t)) (vq_p t) in Some (fst r, t_setpins vq vacc (snd r) t)
  end.
Fixpoint vtrun (l : list vtask) (x : stepper * vq) : option (stepper * vq) :=
  match l with
  | [] => Some x
  | e :: l' => match vtstep e x with None => None | Some y => vtrun l' y end
  end.
Lemma ok_task e x y : vtstep e x = Some y -> vq_ok (snd y) = true -> vq_ok (snd x) = true.
Proof.
  destruct x as [s t], y as [s' t']. destruct e; cbn [vtstep snd].
  - intros E Hok. exact (ok_fill _ _ _ _ _ _ _ _ E Hok).
  - intros E. injection E as <- <-. now rewrite ok_visrs.
  - intros E. injection E as <- <-. auto.
Qed.
Lemma ok_tasks : forall l x y, vtrun l x = Some y -> vq_ok (snd y) = true -> vq_ok (snd x) = true.
Proof.
  induction l as [|e l IH]; intros x y; cbn [vtrun]; [intros E; injection E as <-; auto|].
  destruct (vtstep e x) as [z|] eqn:E1; [|discriminate]. intros E Hok.
  eapply ok_task; [exact E1|]. eapply IH; eassumption.
Qed.
Lemma sim_task e s tv th y : Rel tv th -> conf_ok s -> vtstep e (s, tv) = Some y -> vq_ok (snd y) = true ->
  exists e' th', tstep A EXT e' (s, th) = Some (fst y, th') /\ Rel (snd y) th' /\ conf_ok (fst y).
Proof.
  intros HR Hs. destruct y as [s' tv']. cbn [fst snd]. destruct e as [ext busy fuel old ws|n|ext]; cbn [vtstep].
  - intros E Hok. destruct (sim_fill _ _ _ _ _ _ th _ _ (HR : Rel (vset_w ws tv) th) Hs E Hok) as (w & th' & R & F & E').
    exists (TFill ext busy fuel old w), th'. splits; auto.
  - intros E Hok. injection E as <- <-. destruct HR as (H1 & H2 & H3 & H4).
    destruct (rel_visrs n tv _ H2) as [evs H5].
    exists (TIsr evs), (set_h (isr A EXT evs (hq_h th)) th). splits; auto.
    split; [exact Hok|]. split; [exact H5|]. split.
    + destruct (rel_fields _ _ _ H5) as (_ & _ & P & _). destruct (rel_fields _ _ _ H2) as (_ & _ & P2 & I2).
      destruct (isr_kept A EXT HA evs (hq_h th) I2) as [_ K]. rewrite <- P, (k_pc _ _ K). congruence.
    + rewrite p_visrs. exact H4.
  - intros E Hok. injection E as <- <-. destruct (Rel_fields _ _ HR) as (Eq & _ & Ep). rewrite Eq, Ep in *.
    exists (TTick ext), (t_setpins hq X (snd (tick ext s (tqueue th) (hq_p th))) th). splits; auto.
    + apply Rel_p. exact HR.
    + change (conf_ok (fst (tick ext s (tqueue th) (hq_p th)))).
      destruct (tick_conf ext s (tqueue th) (hq_p th)) as [D|[n D]]; cbv zeta in D; rewrite D; exact Hs.
Qed.
Lemma sim_tasks : forall l s tv th y, Rel tv th -> conf_ok s -> vtrun l (s, tv) = Some y -> vq_ok (snd y) = true ->
  exists l' th', trun A EXT l' (s, th) = Some (fst y, th') /\ Rel (snd y) th'.
Proof.
  induction l as [|e l IH]; intros s tv th y HR Hs; cbn [vtrun].
  - intros E _. injection E as <-. exists [], th. auto.
  - destruct (vtstep e (s, tv)) as [z|] eqn:E1; [|discriminate]. intros E Hok.
    pose proof (ok_tasks _ _ _ E Hok) as Hz.
    destruct (sim_task e s tv th z HR Hs E1 Hz) as (e' & th1 & T1 & R1 & F1).
    destruct z as [s1 tv1]. cbn [fst snd] in *.
    destruct (IH s1 tv1 th1 y R1 F1 E Hok) as (l' & th2 & T2 & R2).
    exists (e' :: l'), th2. split; [|exact R2]. cbn [trun]. rewrite T1. exact T2.
Qed.
End Account.

(** ** The pulses of a move *)
(** consecutive pulses are at least [M] ticks apart *)
Fixpoint spaced (M : Z) (l : list pulse) : Prop :=
  match l with
  | [] => True
  | p :: l' => match l' with [] => True | p2 :: _ => fst p + M <= fst p2 end /\ spaced M l'
  end.
Definition first_at (t : Z) (l : list pulse) : Prop := match l with [] => True | p :: _ => t <= fst p end.
Lemma first_le t t' l : first_at t l -> t' <= t -> first_at t' l.
Proof. destruct l; cbn; lia || auto. Qed.
Lemma spaced_app M : forall l1 l2, spaced M (l1 ++ l2) -> spaced M l1.
Proof.
  induction l1 as [|p l1 IH]; intros l2 H; cbn [app spaced] in *; [exact I|].
  destruct H as [H1 H2]. split; [|eapply IH; exact H2]. destruct l1; [exact I|exact H1].
Qed.
Lemma spaced_from M t : 0 <= M -> forall l, spaced M l -> first_at t l -> Forall (fun p => t <= fst p) l.
Proof.
  intros HM l. revert t. induction l as [|p l IH]; intros t H1 H2; constructor; [exact H2|].
  destruct H1 as [H3 H4]. apply IH; [exact H4|]. destruct l; [exact I|]. cbn in *. lia.
Qed.
Lemma train_spaced M d p L P : forall n t, (1 <= n)%nat -> ((2 <= n)%nat -> M <= p) -> M <= p + P -> spaced M L ->
  first_at (t + p * Z.of_nat n + P) L -> spaced M (train n t p d ++ L) /\ first_at t (train n t p d ++ L).
Proof.
  induction n as [|n IH]; intros t H1 H2 H3 H4 H5; [lia|].
  cbn [train app]. split; [|cbn; lia]. cbn [spaced]. destruct n as [|n].
  - cbn [train app]. split; [|exact H4]. destruct L; [exact I|]. cbn in *. lia.
  - destruct (IH (t + p)) as [K1 K2]; [lia|intros; apply H2; lia|exact H3|exact H4| |].
    { destruct L; [exact I|]. cbn [first_at] in *. lia. }
    split; [|exact K1]. cbn [train app fst]. specialize (H2 ltac:(lia)). lia.
Qed.
Lemma pauses_nonneg l : Forall cmd_ok l -> 0 <= RampSafe.pauses l.
Proof. induction 1 as [|c l [H _] _ IH]; cbn [RampSafe.pauses]; [lia|]. destruct (_ =? 0); lia. Qed.
Lemma pulses_spaced M dir L cs2 : forall cs t, Forall cmd_ok (cs ++ cs2) -> speed_ok M (cs ++ cs2) -> spaced M L ->
  first_at (end_time t cs + RampSafe.pauses cs2) L ->
  spaced M (pulses t dir cs ++ L) /\ first_at (t + RampSafe.pauses (cs ++ cs2)) (pulses t dir cs ++ L).
Proof.
  induction cs as [|c cs IH]; intros t Hc Hs HL Hf; cbn [pulses app end_time] in *; [auto|].
  inversion Hc as [|? ? [C1 C2] Hc']; subst. cbn [speed_ok] in Hs. destruct Hs as (S1 & S2 & S3).
  destruct (IH _ Hc' S3 HL Hf) as [K1 K2]. rewrite <- app_assoc. cbn [RampSafe.pauses].
  destruct (Z.eqb_spec (c_steps c) 0) as [E|E].
  - rewrite E. cbn [Z.to_nat train app]. rewrite E in K1, K2. change (Z.max 1 0) with 1 in *. rewrite Z.mul_1_r in *.
    split; [exact K1|]. eapply first_le; [exact K2|lia].
  - replace (Z.max 1 (c_steps c)) with (c_steps c) in * by lia.
    destruct (train_spaced M (dir (c_up c)) (c_ticks c) (pulses (t + c_ticks c * c_steps c) dir cs ++ L)
      (RampSafe.pauses (cs ++ cs2)) (Z.to_nat (c_steps c)) t) as [J1 J2]; auto; [lia|intros; apply S2; lia| |].
    { replace (Z.of_nat (Z.to_nat (c_steps c))) with (c_steps c) by lia. exact K2. }
    split; [exact J1|]. eapply first_le; [exact J2|lia].
Qed.
Lemma flat_spaced M dir ext : forall ss t, Forall cmd_ok (cmds ss ++ ext) -> speed_ok M (cmds ss ++ ext) ->
  ordered t ss -> spaced M (flat dir ss) /\ first_at (t + RampSafe.pauses (cmds ss ++ ext)) (flat dir ss).
Proof.
  induction ss as [|[s cs] ss IH]; intros t Hc Hs Ho; [cbn; auto|].
  change (flat dir ((s, cs) :: ss)) with (pulses (s + 10) dir cs ++ flat dir ss).
  change (cmds ((s, cs) :: ss)) with (cs ++ cmds ss) in *. rewrite <- app_assoc in *.
  destruct Ho as [O1 O2].
  assert (Hs2 : speed_ok M (cmds ss ++ ext)).
  { clear - Hs. induction cs as [|c cs IH]; [exact Hs|]. apply IH. apply Hs. }
  destruct (IH _ (proj2 (proj1 (Forall_app _ _ _) Hc)) Hs2 O2) as [K1 K2].
  destruct (pulses_spaced M dir (flat dir ss) (cmds ss ++ ext) cs (s + 10) Hc Hs K1 K2) as [J1 J2].
  split; [exact J1|]. eapply first_le; [exact J2|lia].
Qed.
Lemma woven_speed M a w : woven a w -> Forall cmd_ok w -> speed_ok M a ->
  speed_ok M w /\ RampSafe.pauses a <= RampSafe.pauses w.
Proof.
  induction 1 as [|c cs w Hz Hw IH|c cs w Hw IH]; intros Hc Hs.
  - cbn. auto with zarith.
  - inversion Hc as [|? ? [C1 C2] Hc']; subst. destruct (IH Hc' Hs) as [K1 K2].
    cbn [speed_ok RampSafe.pauses]. rewrite Hz. change (0 =? 0) with true. cbv iota. splits; auto; lia.
  - inversion Hc as [|? ? [C1 C2] Hc']; subst. cbn [speed_ok] in Hs. destruct Hs as (S1 & S2 & S3).
    destruct (IH Hc' S3) as [K1 K2]. cbn [speed_ok RampSafe.pauses].
    splits; auto; [intros Hn; specialize (S1 Hn); lia|destruct (_ =? 0); lia].
Qed.
Lemma woven_refl l : woven l l.
Proof. induction l; [apply woven_nil|apply woven_cmd; auto]. Qed.
Lemma woven_moves up a w : woven a w -> Forall (moves_only up) a -> Forall (moves_only up) w.
Proof.
  induction 1 as [|c cs w Hz Hw IH|c cs w Hw IH]; intros H; [constructor|constructor; [intros ?; contradiction|auto]|].
  inversion H; subst. constructor; auto.
Qed.
Lemma woven_total a w : woven a w -> total_steps w = total_steps a.
Proof. induction 1 as [|c cs w Hz Hw IH|c cs w Hw IH]; cbn [total_steps]; lia. Qed.
Lemma total_app a b : total_steps (a ++ b) = total_steps a + total_steps b.
Proof. induction a as [|c a IH]; cbn [app total_steps]; lia. Qed.
Lemma total_pos l : Forall cmd_ok l -> 0 <= total_steps l.
Proof. induction 1 as [|c l [_ H] _ IH]; cbn [total_steps]; lia. Qed.
Lemma train_length d p : forall n t, length (train n t p d) = n.
Proof. induction n as [|n IH]; intros t; cbn [train length]; auto. Qed.
Lemma train_level d p : forall n t, Forall (fun x : pulse => snd x = d) (train n t p d).
Proof. induction n as [|n IH]; intros t; cbn [train]; constructor; auto. Qed.
Lemma pulses_length dir : forall cs t, Forall cmd_ok cs -> Z.of_nat (length (pulses t dir cs)) = total_steps cs.
Proof.
  induction cs as [|c cs IH]; intros t H; cbn [pulses total_steps]; [reflexivity|].
  inversion H as [|? ? [_ C] H']; subst. rewrite app_length, train_length, Nat2Z.inj_add, IH by exact H'. lia.
Qed.
Lemma pulses_level dir up : forall cs t, Forall (moves_only up) cs -> Forall (fun x => snd x = dir up) (pulses t dir cs).
Proof.
  induction cs as [|c cs IH]; intros t H; cbn [pulses]; [constructor|].
  inversion H as [|? ? H1 H']; subst. apply Forall_app. split; [|now apply IH].
  destruct (Z.eq_dec (c_steps c) 0) as [E|E]; [rewrite E; constructor|]. rewrite (H1 E). apply train_level.
Qed.
Lemma flat_length dir : forall ss, Forall cmd_ok (cmds ss) -> Z.of_nat (length (flat dir ss)) = total_steps (cmds ss).
Proof.
  induction ss as [|[s cs] ss IH]; intros H; [reflexivity|].
  change (flat dir ((s, cs) :: ss)) with (pulses (s + 10) dir cs ++ flat dir ss).
  change (cmds ((s, cs) :: ss)) with (cs ++ cmds ss) in *. apply Forall_app in H as [H1 H2].
  rewrite app_length, Nat2Z.inj_add, pulses_length, IH, total_app by assumption. reflexivity.
Qed.
Lemma flat_level dir up : forall ss, Forall (moves_only up) (cmds ss) -> Forall (fun x => snd x = dir up) (flat dir ss).
Proof.
  induction ss as [|[s cs] ss IH]; intros H; [constructor|].
  change (flat dir ((s, cs) :: ss)) with (pulses (s + 10) dir cs ++ flat dir ss).
  change (cmds ((s, cs) :: ss)) with (cs ++ cmds ss) in *. apply Forall_app in H as [H1 H2].
  apply Forall_app. split; [now apply pulses_level|now apply IH].
Qed.

(** the driver at time [t], stopped, with the queue of [th] *)
Definition v_begin (t : Z) (th : hq) : vq :=
  mkVq (mkAvr (tqueue th) (h_pins (hq_h th)) Free false false t false) (hq_p th) [] [] true.
Lemma begin_at t th : good A th -> AvrIsr.plain EXT (tqueue th) -> q_running (tqueue th) = false -> pend A (tqueue th) = [] ->
  rel_at (dir_of (tqueue th)) t (h_acc (hq_h th)) MIdle [] (vq_v (v_begin t th)) [] (hq_h th).
Proof.
  intros [Hi Hpc] Hpl Hr Hp. unfold rel_at. cbn [v_begin vq_v vq_log]. splits.
  - unfold AvrIsr.in_mode. cbn [v_q v_pins v_pc v_irq v_nomore v_one]. splits; auto.
    + intros _. rewrite Hpc. split; [|exact I]. unfold tqueue in Hp. rewrite Hp. constructor.
    + apply (iv_started A _ Hi). exact Hp.
  - split; [exact I|]. cbn [flat cmds map concat last_end v_q v_next]. unfold rest. rewrite Hp. cbn [map].
    rewrite !app_nil_r. auto.
  - reflexivity.
  - exists []. rewrite app_nil_r. auto.
Qed.
Lemma begin_Rel t th : good A th -> AvrIsr.plain EXT (tqueue th) -> q_running (tqueue th) = false -> pend A (tqueue th) = [] ->
  Rel (dir_of (tqueue th)) t (h_acc (hq_h th)) (v_begin t th) th.
Proof.
  intros Hg Hpl Hr Hp. split; [reflexivity|]. split; [|split; reflexivity].
  exists MIdle, []. now apply begin_at.
Qed.

(** [n]: the number of pulses of the complete move; [lv]: the level of the direction pin *)
Definition on_the_pin (lv : option bool) (M t n : Z) (log : list pulse) : Prop :=
  Forall (fun x => snd x = lv /\ t <= fst x) log /\ spaced M log /\ Z.of_nat (length log) <= n.
(** every command of the move [cs] is in one of the sessions [ss] or waits *)
Definition in_sessions (dir : bool -> option bool) (t : Z) (cs : list command) (log : list pulse) : Prop :=
  exists ss coming waiting done rest, ordered t ss /\ log ++ coming = flat dir ss
    /\ cs = done ++ rest /\ woven done (cmds ss ++ waiting).

Lemma stack_end up cs pos M s1 th t l' s' th' m ss v log : 0 <= M ->
  Forall (valid_cmd A) cs -> Forall (moves_only up) cs -> speed_ok M cs -> carries A EXT up cs pos (s1, th) ->
  trun A EXT l' (s1, th) = Some (s', th') -> rel_at (dir_of (tqueue th)) t (h_acc (hq_h th)) m ss v log (hq_h th') ->
  on_the_pin (dir_of (tqueue th) up) M t (total_steps cs) log
  /\ (exists coming waiting done rest, ordered t ss /\ log ++ coming = flat (dir_of (tqueue th)) ss
      /\ cs = done ++ rest /\ woven done (cmds ss ++ waiting))
  /\ (isRampGeneratorActive (s_rg s') = false -> v_irq v = false -> pend A (v_q v) = [] ->
      Z.of_nat (length log) = total_steps cs /\ forall done_p, getCurrentPosition A done_p (v_q v) = pos).
Proof.
  intros HM Hv Hm Hsp Hc T (Hmode & (Ho & Ha) & Hd & (w' & W1 & W2)).
  destruct (Hc l') as (y' & done & rest' & w & T' & Ecs & Hw & Hacc & Hpos & Hend).
  rewrite T in T'. injection T' as <-.
  unfold accepted_cmds in Hacc. cbn [snd] in Hacc. rewrite W1 in Hacc. apply app_inv_head in Hacc. subst w'.
  assert (Vc : Forall cmd_ok cs).
  { eapply Forall_impl; [|exact Hv]. intros c (V1 & V2 & _). change (MIN_CMD_TICKS A) with 640 in V1. split; lia. }
  assert (HW : exists waiting coming, w = cmds ss ++ waiting /\ log ++ coming = flat (dir_of (tqueue th)) ss
     /\ (v_irq v = false -> pend A (v_q v) = [] -> waiting = [] /\ coming = [])).
  { pose proof Hmode as (_ & _ & _ & _ & _ & _ & M1). destruct m.
    - destruct Ha as (A1 & A2 & _). rewrite W1 in A2. apply app_inv_head in A2. destruct M1 as [M1 _].
      exists []. eexists. rewrite app_nil_r. split; [exact A2|]. split; [exact A1|]. congruence.
    - destruct Ha as (A1 & A2 & _). rewrite W1 in A2. apply app_inv_head in A2. destruct M1 as [M1 _].
      exists []. eexists. rewrite app_nil_r. split; [exact A2|]. split; [exact A1|]. congruence.
    - destruct Ha as (A1 & A2 & _). rewrite W1 in A2. apply app_inv_head in A2.
      exists (rest (v_q v)), []. rewrite app_nil_r. split; [exact A2|]. split; [exact A1|].
      intros _ Hn. unfold rest. rewrite Hn. auto. }
  destruct HW as (waiting & coming & -> & B2 & B3).
  assert (C1 : Forall cmd_ok (cmds ss ++ waiting ++ rest')).
  { rewrite app_assoc. apply Forall_app. split; [exact W2|]. rewrite Ecs in Vc. apply Forall_app in Vc. apply Vc. }
  assert (W3 : woven cs (cmds ss ++ waiting ++ rest')).
  { rewrite Ecs, app_assoc. apply woven_app; [exact Hw|apply woven_refl]. }
  destruct (woven_speed M _ _ W3 C1 Hsp) as [S1 _].
  destruct (flat_spaced M (dir_of (tqueue th)) (waiting ++ rest') ss t C1 S1 Ho) as [F1 F2].
  assert (L1 : Forall (moves_only up) (cmds ss)).
  { pose proof (woven_moves up _ _ W3 Hm) as K. apply Forall_app in K. apply K. }
  assert (L2 : Forall cmd_ok (cmds ss)) by (apply Forall_app in C1; apply C1).
  assert (Tot : total_steps cs = total_steps (cmds ss) + total_steps (waiting ++ rest')).
  { rewrite <- total_app. symmetry. now apply woven_total. }
  assert (Tp : 0 <= total_steps (waiting ++ rest')) by (apply total_pos; apply Forall_app in C1; apply C1).
  pose proof (flat_length (dir_of (tqueue th)) ss L2) as Len.
  unfold on_the_pin. splits.
  - pose proof (flat_level (dir_of (tqueue th)) up ss L1) as K.
    assert (F3 : Forall (fun x => t <= fst x) (flat (dir_of (tqueue th)) ss)).
    { apply (spaced_from M); [exact HM|exact F1|]. pose proof (pauses_nonneg _ C1).
      destruct (flat (dir_of (tqueue th)) ss); [exact I|]. cbn in *. lia. }
    rewrite <- B2 in K, F3. apply Forall_app in K as [K _]. apply Forall_app in F3 as [F3 _].
    rewrite Forall_forall in *. intros x Hx. auto.
  - rewrite <- B2 in F1. eapply spaced_app. exact F1.
  - rewrite <- B2, app_length in Len. lia.
  - exists coming, waiting, done, rest'. auto.
  - intros Hidle Hirq Hn. destruct (B3 Hirq Hn) as [-> ->]. destruct (Hend Hidle) as (-> & _ & Hpos2).
    rewrite app_nil_r in B2. rewrite B2, Len. cbn [app total_steps] in Tot. split; [lia|].
    intros done_p. destruct Hmode as (Hq & _). unfold fqueue in Hpos2. cbn [snd] in Hpos2. rewrite Hq in Hpos2.
    destruct (Hpos2 Hn) as [Hpos3 _]. apply Hpos3.
Qed.
Lemma stack_move up cs pos M s1 th t : good A th -> conf_ok s1 -> AvrIsr.plain EXT (tqueue th) ->
  q_running (tqueue th) = false -> pend A (tqueue th) = [] -> 0 <= M ->
  Forall (valid_cmd A) cs -> Forall (moves_only up) cs -> speed_ok M cs -> carries A EXT up cs pos (s1, th) ->
  forall tasks y, vtrun tasks (s1, v_begin t th) = Some y -> vq_ok (snd y) = true ->
  let v := vq_v (snd y) in let log := vq_log (snd y) in
  on_the_pin (dir_of (tqueue th) up) M t (total_steps cs) log
  /\ in_sessions (dir_of (tqueue th)) t cs log
  /\ (isRampGeneratorActive (s_rg (fst y)) = false -> v_irq v = false -> pend A (v_q v) = [] ->
      Z.of_nat (length log) = total_steps cs /\ forall done_p, getCurrentPosition A done_p (v_q v) = pos).
Proof.
  intros Hg Hs Hpl Hr Hp HM Hv Hm Hsp Hc tasks y E Hok v log.
  pose proof (begin_Rel t th Hg Hpl Hr Hp) as HR.
  destruct (sim_tasks _ _ _ tasks s1 _ th y HR Hs E Hok) as (l' & th' & T & R).
  destruct R as (_ & (m & ss & HR1) & _ & _).
  destruct (stack_end up cs pos M s1 th t l' (fst y) th' m ss v log HM Hv Hm Hsp Hc T HR1) as (K1 & (co & wa & d & r & K2) & K3).
  splits; auto. exists ss, co, wa, d, r. exact K2.
Qed.

(** ** moveTo and move *)
Lemma moveTo_conf pos s q s1 r : s_moveTo pos s q = (s1, r) -> conf_ok s -> conf_ok s1.
Proof. unfold s_moveTo. destruct (rg_moveTo _ _ _). intros E H. injection E as <- _. exact H. Qed.
Lemma move_conf d s s1 r : s_move d s = (s1, r) -> conf_ok s -> conf_ok s1.
Proof.
  unfold s_move. destruct (_ && _); [intros E H; injection E as <- _; exact H|].
  destruct (rg_move _ _). intros E H. injection E as <- _. exact H.
Qed.
(** A stepper with its direction pin: setDirectionPin() tells the pin to the queue,
    src/FastAccelStepper.cpp:529-542 (see C60) *)
Definition dinit (garbage : Z -> entry) (p ep : pins) (m : Z) (s : stepper) : stepper * hq :=
  let t := snd (finit A garbage p ep m s) in
  (s, mkHq (step (ESetDir (s_dirpin s) (s_hcu s)) (hq_h t)) (hq_p t) (hq_w t)).
Lemma dinit_good garbage p ep m s0 evs : conf_ok s0 -> Forall fev_ok evs ->
  fgood A (frun A EXT evs (dinit garbage p ep m s0)).
Proof.
  intros H1 H2.
  destruct (frun_ind A EXT HA (fun _ => True) (fun _ => True)) with (l := evs) (x := dinit garbage p ep m s0)
    as (H & _); auto.
  - destruct (finit_good A HA garbage p ep m s0 H1) as [[Hi Hp] Hc]. split; [|exact Hc]. split; [|reflexivity].
    unfold dinit. cbn [snd hq_h]. apply inv_step; [exact HA|exact Hi|exact I].
  - apply Forall_forall. auto.
Qed.
Lemma moveTo_pin garbage p ep m s0 evs a M pos : conf_ok s0 -> Forall fev_ok evs -> -2147483648 <= pos < 2147483648 ->
  let x := frun A EXT evs (dinit garbage p ep m s0) in
  let q := fqueue x in
  let d := i32 (pos - qe_pos (q_end q)) in
  AvrIsr.plain EXT q -> q_running q = false -> pend A q = [] -> ready_to_move A (fst x) q a M d ->
  exists s1 cs, s_moveTo pos (fst x) q = (s1, MOVE_OK) /\ total_steps cs = Z.abs d /\
  forall t tasks y, vtrun tasks (s1, v_begin t (snd x)) = Some y -> vq_ok (snd y) = true ->
  let v := vq_v (snd y) in let log := vq_log (snd y) in
  on_the_pin (dir_of q (0 <? d)) M t (Z.abs d) log
  /\ in_sessions (dir_of q) t cs log
  /\ (isRampGeneratorActive (s_rg (fst y)) = false -> v_irq v = false -> pend A (v_q v) = [] ->
      Z.of_nat (length log) = Z.abs d /\ forall done_p, getCurrentPosition A done_p (v_q v) = pos).
Proof.
  intros Hc He Hpos x q d Hpl Hr Hp Hrd.
  destruct (dinit_good garbage p ep m s0 evs Hc He) as [Hg Hcf]. fold x in Hg, Hcf.
  destruct (moveTo_carried A EXT HA _ _ a M Hg pos Hpos Hrd) as (s1 & cs & n & H1 & H2 & H3 & H4 & H5 & H6 & _).
  exists s1, cs. split; [exact H1|]. split; [exact H2|]. intros t tasks y E Hok v log.
  pose proof (rm_M _ _ _ _ _ _ Hrd) as RM. change (MIN_CMD_TICKS A) with 640 in RM.
  change (fqueue x) with (tqueue (snd x)) in *.
  pose proof (stack_move (0 <? d) cs pos M s1 (snd x) t Hg (moveTo_conf _ _ _ _ _ H1 Hcf) Hpl Hr Hp ltac:(lia) H3 H4 H5 H6
    tasks y E Hok) as K. cbv zeta in K. rewrite H2 in K. exact K.
Qed.
Lemma move_pin garbage p ep m s0 evs a M delta : conf_ok s0 -> Forall fev_ok evs ->
  -2147483648 <= delta < 2147483648 -> delta <> 0 ->
  let x := frun A EXT evs (dinit garbage p ep m s0) in
  let q := fqueue x in
  let g := s_rg (fst x) in
  let target := i32 (base_target g (q_end q) + pending_move g + delta) in
  let d := i32 (target - qe_pos (q_end q)) in
  AvrIsr.plain EXT q -> q_running q = false -> pend A q = [] -> ready_to_move A (fst x) q a M d ->
  (s_dirpin (fst x) = PIN_UNDEFINED -> 0 <= delta) ->
  exists s1 cs, s_move delta (fst x) = (s1, MOVE_OK) /\ total_steps cs = Z.abs d /\
  forall t tasks y, vtrun tasks (s1, v_begin t (snd x)) = Some y -> vq_ok (snd y) = true ->
  let v := vq_v (snd y) in let log := vq_log (snd y) in
  on_the_pin (dir_of q (0 <? d)) M t (Z.abs d) log
  /\ in_sessions (dir_of q) t cs log
  /\ (isRampGeneratorActive (s_rg (fst y)) = false -> v_irq v = false -> pend A (v_q v) = [] ->
      Z.of_nat (length log) = Z.abs d /\ forall done_p, getCurrentPosition A done_p (v_q v) = target).
Proof.
  intros Hc He Hpos H0 x q g target d Hpl Hr Hp Hrd Hdir.
  destruct (dinit_good garbage p ep m s0 evs Hc He) as [Hg Hcf]. fold x in Hg, Hcf.
  destruct (move_carried A EXT HA _ _ a M Hg delta Hpos H0 Hrd Hdir) as (s1 & cs & n & H1 & H2 & H3 & H4 & H5 & H6 & _).
  exists s1, cs. split; [exact H1|]. split; [exact H2|]. intros t tasks y E Hok v log.
  pose proof (rm_M _ _ _ _ _ _ Hrd) as RM. change (MIN_CMD_TICKS A) with 640 in RM.
  change (fqueue x) with (tqueue (snd x)) in *.
  pose proof (stack_move (0 <? d) cs target M s1 (snd x) t Hg (move_conf _ _ _ _ H1 Hcf) Hpl Hr Hp ltac:(lia) H3 H4 H5 H6
    tasks y E Hok) as K. cbv zeta in K. rewrite H2 in K. exact K.
Qed.
End WithExt.

(** * FrontPause: the exact list of commands a move puts into the queue *)
From Coq Require Import ZArith Bool List Lia.
From Verif Require Import Base RampCalc RampGen RampRun RampMove RampSafe RampAcc RampUser RampPlan
  Queue QueueFacts QueueHist Stepper StepperHist FrontHist FrontProp FrontFill FrontTask FrontStart FrontMove.
Import ListNotations.
Open Scope Z_scope.
Ltac Zify.zify_post_hook ::= idtac.

(** The commands [cs] with a pause of [dd] ticks before each step in another direction than
    the command before; [u]: the direction before. This is what the documentation of
    setDirectionPin(.., dir_change_delay_us) says, src/FastAccelStepper.h:277-290 *)
Fixpoint with_pauses (dd : Z) (u : bool) (cs : list command) : list command :=
  match cs with
  | [] => []
  | c :: cs' =>
    (if Bool.eqb u (c_up c) then [] else if dd =? 0 then [] else if c_steps c =? 0 then [] else [mkCommand dd 0 (c_up c)])
    ++ c :: with_pauses dd (c_up c) cs'
  end.

Section WithArch.
Variable A : arch.
Variable EXT : bool.
Notation X := (hacc A EXT).
Hypothesis HA : In A all_archs.

Lemma pre_with c s up cs : is_external (s_dirpin s) = false ->
  pre_pauses A c s up ++ c :: with_pauses (s_dirdelay s) (c_up c) cs = with_pauses (s_dirdelay s) up (c :: cs).
Proof.
  intros He. cbn [with_pauses]. unfold pre_pauses. rewrite He. destruct (Bool.eqb up (c_up c)); [reflexivity|].
  destruct (s_dirdelay s =? 0); cbn [negb andb]; [reflexivity|]. destruct (c_steps c =? 0); reflexivity.
Qed.
Lemma with_same dd c cs : with_pauses dd (c_up c) (c :: cs) = c :: with_pauses dd (c_up c) cs.
Proof. cbn [with_pauses]. rewrite Bool.eqb_reflx. reflexivity. Qed.
Lemma pre_one c s up : is_external (s_dirpin s) = false ->
  pre_pauses A c s up = [] \/ exists p, pre_pauses A c s up = [p] /\ c_up p = c_up c.
Proof.
  intros He. unfold pre_pauses. rewrite He. destruct (Bool.eqb up (c_up c)); [now left|].
  destruct (_ && _); [|now left]. right. eexists. split; reflexivity.
Qed.

(** one call of addQueueEntry *)
Definition exactly (s : stepper) (t : hq) (c : command) (r : stepper * hq * Z) : Prop :=
  exists new, moved A new t (snd (fst r)) /\ forall cs,
    new ++ (if snd r =? AQE_OK then with_pauses (s_dirdelay s) (up_of (snd (fst r))) cs
            else with_pauses (s_dirdelay s) (up_of (snd (fst r))) (c :: cs)) = with_pauses (s_dirdelay s) (up_of t) (c :: cs).
Lemma second_exact c start s t : good A t -> q_ignore (tqueue t) = false -> delays_ok A s ->
  cmd_ok c -> long_cmd A c -> is_external (s_dirpin s) = false ->
  exactly s t c (add_second A hq X c start s t).
Proof.
  intros Hg Hi Hd Hc Hl He. rewrite add_second_eq.
  assert (NR : no_room A c s t = false) by (unfold no_room; rewrite He, andb_false_r; reflexivity).
  rewrite NR. cbv zeta. unfold exactly. cbn [fst snd].
  pose proof (pre_ok A c s (up_of t) Hc (proj1 Hd)) as F1.
  assert (F2 : Forall (long_cmd A) (pre_pauses A c s (up_of t) ++ [c])).
  { apply Forall_app. split; [now apply FrontFill.pre_long|constructor; auto]. }
  destruct (adds_moved A EXT HA start _ t Hg F1 F2 Hi) as (P & l1 & l2 & B1 & B2 & B3).
  set (r := adds A EXT start (pre_pauses A c s (up_of t) ++ [c]) t) in *.
  exists l1. split; [exact B2|]. intros cs.
  destruct (Z.eqb_spec (snd r) AQE_OK) as [E|E].
  - apply B3 in E. subst l2. rewrite app_nil_r in B1.
    rewrite (mv_up _ _ _ _ B2), <- B1, end_up_app. cbn [end_up]. rewrite <- app_assoc. cbn [app]. now apply pre_with.
  - assert (N2 : l2 <> []) by (intros K; apply E, B3, K).
    destruct (exists_last N2) as (l2' & x & ->). rewrite app_assoc in B1. apply app_inj_tail in B1 as [B1 <-].
    rewrite (mv_up _ _ _ _ B2). destruct (pre_one c s (up_of t) He) as [Ep|(p & Ep & Eu)].
    + rewrite Ep in B1. symmetry in B1. apply app_eq_nil in B1 as [-> _]. reflexivity.
    + rewrite Ep in B1. destruct l1 as [|y l1]; [reflexivity|]. cbn [app] in B1. injection B1 as Ey B1.
      symmetry in B1. apply app_eq_nil in B1 as [-> _]. rewrite <- Ey. unfold end_up. cbn [fold_left app]. rewrite Eu, with_same.
      pose proof (pre_with c s (up_of t) cs He) as K. rewrite Ep in K. exact K.
Qed.
Lemma add_exact ext busy c start s t : good A t -> q_ignore (tqueue t) = false -> delays_ok A s ->
  fits A s (q_max (tqueue t)) c -> fed s -> is_external (s_dirpin s) = false ->
  exactly s t c (s_add A hq X ext busy c start s t).
Proof.
  intros Hg Hi Hd (Hc & Hl & Hm & Hp) Hf He. unfold s_add.
  assert (STOP : forall t1 code, code <> AQE_OK -> moved A [] t t1 -> exactly s t c (s, t1, code)).
  { intros t1 code H1 H2. exists []. cbn [fst snd]. split; [exact H2|]. intros cs. cbn [app].
    rewrite (mv_up _ _ _ _ H2). cbn [end_up]. destruct (Z.eqb_spec code AQE_OK); [contradiction|reflexivity]. }
  assert (SEC : forall t1, moved A [] t t1 -> exactly s t c (add_second A hq X c start s t1)).
  { intros t1 M. destruct (second_exact c start s t1) as (new & N1 & N2); auto.
    - apply M.
    - rewrite (sc_ign _ _ (mv_same _ _ _ _ M)). exact Hi.
    - exists new. split; [exact (moved_trans _ [] new _ _ _ M N1)|]. intros cs. rewrite N2, (mv_up _ _ _ _ M). reflexivity. }
  unfold add_first. change (t_q hq X t) with (tqueue t).
  destruct (Z.ltb_spec (c_ticks c) (q_max (tqueue t))); [lia|].
  destruct (negb (s_dirpin s =? PIN_UNDEFINED) && (negb (q_running (tqueue t)) && busy)).
  { cbn [fst snd]. replace (negb (AQE_DIR_PIN_IS_BUSY =? AQE_OK)) with true by reflexivity.
    apply STOP; [discriminate|now apply moved_refl]. }
  destruct ((s_dirpin s =? PIN_UNDEFINED) && negb (c_up c)) eqn:ED.
  { exfalso. apply andb_true_iff in ED as [E1 E2]. apply Z.eqb_eq in E1. rewrite (Hp E1) in E2. discriminate. }
  assert (OKc : negb (AQE_OK =? AQE_OK) = false) by reflexivity.
  destruct (s_auto s && (s_cnt s =? 0)) eqn:EN.
  2:{ cbn [fst snd]. rewrite OKc. apply SEC. now apply moved_refl. }
  set (en := enableOutputs ext s (t_pins hq X t)).
  set (t1 := t_setpins hq X (fst en) t).
  assert (M1 : moved A [] t t1) by now apply setpins_moved.
  destruct (negb (snd en)).
  { cbn [fst snd]. replace (negb (AQE_WAIT_FOR_ENABLE_PIN_ACTIVE =? AQE_OK)) with true by reflexivity.
    apply STOP; [discriminate|exact M1]. }
  destruct (Z.gtb_spec (s_ondelay s) 0) as [Ho|Ho].
  2:{ cbn [fst snd]. rewrite OKc. now apply SEC. }
  exfalso. apply andb_true_iff in EN as [E1 E2]. apply Z.eqb_eq in E2.
  destruct Hf as [K|[K|[K _]]]; [congruence|lia|contradiction].
Qed.

(** a pass *)
Lemma loop_exact ext busy delayed : forall fuel old prepared need s t k rest,
  good A t -> q_ignore (tqueue t) = false -> delays_ok A s -> is_external (s_dirpin s) = false ->
  plan A k (s_rg s) (pos_of t) (up_of t) rest -> Forall (fits A s (q_max (tqueue t))) rest ->
  fed s -> (delayed = true -> q_running (tqueue t) = false) ->
  exists s' t' need' k' rest' w,
    fill_loop A hq X ext busy delayed fuel old prepared need s t = Some (s', t', need') /\
    moved A w t t' /\ plan A k' (s_rg s') (pos_of t') (up_of t') rest' /\ Forall (fits A s' (q_max (tqueue t'))) rest' /\
    like s s' /\ fed s' /\
    w ++ with_pauses (s_dirdelay s') (up_of t') rest' = with_pauses (s_dirdelay s) (up_of t) rest.
Proof.
  induction fuel as [|fuel IH]; intros old prepared need s t k rest Hg Hi Hd He Hp Hf Hfed Hrun;
    cbn [fill_loop]; change (t_q hq X t) with (tqueue t).
  { exists s, t, need, k, rest, []. splits; auto; [now apply moved_refl|apply like_refl]. }
  destruct (fill_more A s (tqueue t) prepared) eqn:Em.
  2:{ exists s, t, need, k, rest, []. splits; auto; [now apply moved_refl|apply like_refl]. }
  assert (Ha : isRampGeneratorActive (s_rg s) = true).
  { unfold fill_more in Em. apply andb_true_iff in Em. tauto. }
  rewrite (q_end_eta t). set (pin := qe_dir _).
  destruct (rg_getNextCommand A (mkQueueEnd (pos_of t) (up_of t) pin) old (s_rg s)) as [[g1 n]|] eqn:Eg.
  2:{ exfalso. eapply plan_some; eassumption. }
  cbv zeta.
  pose proof (getNext_valid A _ _ _ _ _ Eg) as Ev.
  destruct (Z.eqb_spec (c_ticks (n_cmd n)) 0) as [E0|E0].
  - destruct (plan_end A _ _ _ _ _ _ _ _ _ Hp Ha Eg E0) as (k1 & -> & Hp').
    assert (LK : like s (st_rg (rg_afterCommandEnqueued n (s_rg (st_rg g1 s))) (st_rg g1 s))).
    { apply (like_trans _ (st_rg g1 s)); apply like_rg; [exact Ev|reflexivity]. }
    eexists _, t, delayed, k1, rest, []. split; [reflexivity|]. splits; auto.
    now apply moved_refl.
  - destruct (plan_again A _ _ _ _ _ _ _ _ _ (up_of t) Hp Ha Eg E0 (or_introl eq_refl)) as (k1 & cs & -> & -> & _ & _ & Hafter).
    inversion Hf as [|? ? Hfit Hf']; subst.
    set (c := n_cmd n) in *.
    destruct (s_add_moved A EXT HA ext (busy fuel) c (negb delayed) (st_rg g1 s) t Hg Hi) as (Hcode & new & Hnew & Hcase).
    { exact Hd. }
    { exact Hfit. }
    { intros _. exact Hfed. }
    assert (Hidle : delayed = true -> q_running (tqueue (snd (fst
       (s_add A hq X ext (busy fuel) c (negb delayed) (st_rg g1 s) t)))) = false).
    { intros ->. cbn [negb]. apply s_add_idle; auto; [apply Hfit|apply Hd]. }
    destruct (add_exact ext (busy fuel) c (negb delayed) (st_rg g1 s) t Hg Hi Hd Hfit Hfed He) as (new2 & M2 & Hex).
    destruct (s_add A hq X ext (busy fuel) c (negb delayed) (st_rg g1 s) t) as [[s1 t1] code].
    cbn [fst snd] in *. change (s_dirdelay (st_rg g1 s)) with (s_dirdelay s) in Hex.
    assert (Hsteps : Forall (fun x => c_steps x = 0) new) by (eapply Forall_impl; [|exact Hnew]; cbn; tauto).
    assert (Hups : Forall (fun x => c_up x = c_up c) new) by (eapply Forall_impl; [|exact Hnew]; cbn; tauto).
    destruct Hcase as [(Eok & Es & M)|(Eok & Es & M)].
    + subst code. replace (AQE_OK =? AQE_OK) with true by reflexivity.
      assert (Ep : pos_of t1 = after_pos c (pos_of t)).
      { rewrite (mv_pos _ _ _ _ M). unfold end_pos. rewrite fold_left_app. cbn [fold_left].
        f_equal. apply (end_pos_pauses new _ Hsteps). now apply (pos_range A). }
      assert (Eu : up_of t1 = c_up c) by (rewrite (mv_up _ _ _ _ M), end_up_app; reflexivity).
      assert (Erg : s_rg s1 = g1).
      { subst s1. unfold after_add. destruct (_ && _); reflexivity. }
      rewrite Erg.
      set (s2 := st_rg (rg_afterCommandEnqueued n g1) s1).
      assert (LK : like s s2).
      { unfold s2. subst s1. eapply like_trans; [apply like_rg; exact Ev|].
        eapply like_trans; [apply (like_after AQE_OK)|apply like_rg].
        rewrite Erg. reflexivity. }
      assert (FD : fed s2).
      { unfold s2. subst s1. change (fed (after_add AQE_OK (st_rg g1 s))). apply fed_after. left. exact Hfed. }
      destruct (IH n (u32 (prepared + cmd_ticks c)) delayed s2 t1 k1 cs) as
        (s' & t' & need' & k' & rest' & w & R1 & R2 & R3 & R4 & R5 & R6 & R7); auto.
      * apply M.
      * rewrite (sc_ign _ _ (mv_same _ _ _ _ M)). exact Hi.
      * eapply like_delays; eassumption.
      * rewrite (lk_dirpin _ _ LK). exact He.
      * rewrite Ep, Eu. exact Hafter.
      * rewrite (sc_max _ _ (mv_same _ _ _ _ M)). eapply Forall_impl; [|exact Hf'].
        intros a. now apply like_fits.
      * exists s', t', need', k', rest', (new2 ++ w). splits; auto.
        -- eapply moved_trans; eassumption.
        -- eapply like_trans; eassumption.
        -- rewrite <- app_assoc, R7, (lk_dirdelay _ _ LK). exact (Hex cs).
    + destruct (Z.eqb_spec code AQE_OK); [contradiction|].
      destruct (Z.gtb_spec code 0) as [Hpos|Hpos].
      2:{ exfalso. apply Eok. unfold AQE_OK. lia. }
      assert (Ep : pos_of t1 = pos_of t).
      { rewrite (mv_pos _ _ _ _ M). apply end_pos_pauses; [exact Hsteps|now apply (pos_range A)]. }
      assert (Eu : up_of t1 = up_of t \/ up_of t1 = c_up c).
      { rewrite (mv_up _ _ _ _ M). now apply end_up_same. }
      destruct (plan_again A _ _ _ _ _ _ _ _ _ (up_of t1) Hp Ha Eg E0 Eu) as (k2 & cs2 & _ & E2 & Hp1 & Hr1 & _).
      subst s1. exists (st_rg g1 s), t1, need, (S k1), (c :: cs), new2. splits; auto.
      * rewrite Ep. exact Hp1.
      * rewrite (sc_max _ _ (mv_same _ _ _ _ M)). exact Hf.
      * apply like_rg. exact Ev.
Qed.
Definition xinv (m : Z) (k : nat) (rest : list command) (x : stepper * hq) : Prop :=
  tinv A m k rest x /\ (isRampGeneratorActive (s_rg (fst x)) = true -> fed (fst x)) /\ is_external (s_dirpin (fst x)) = false.
Definition coming (x : stepper * hq) (rest : list command) : list command :=
  with_pauses (s_dirdelay (fst x)) (up_of (snd x)) rest.
Lemma plan_done k g p u rest : plan A k g p u rest -> isRampGeneratorActive g = false -> rest = [].
Proof. intros H E. inversion H; subst; auto; congruence. Qed.
Lemma fill_exact ext busy fuel old m k rest s t : xinv m k rest (s, t) ->
  exists y k' rest' w, fill_queue A hq X ext busy fuel old s t = Some y /\ xinv m k' rest' y /\ like s (fst y) /\
    acc_of (snd y) = acc_of t ++ w /\ w ++ coming y rest' = coming (s, t) rest.
Proof.
  intros (HI & Hf & He). destruct (fill_ok A EXT HA ext busy fuel old m k rest s t HI) as (y & k0 & d0 & r0 & w0 & E & T & _).
  destruct (isRampGeneratorActive (s_rg s)) eqn:Ea.
  2:{ unfold fill_queue in E |- *. rewrite Ea in *. cbn [negb] in *. injection E as <-.
    exists (s, t), k, rest, []. splits; auto; [split; auto|apply like_refl|now rewrite app_nil_r]. }
  specialize (Hf Ea). cbn [fst snd] in *.
  pose proof E as E2. unfold fill_queue in E2. rewrite Ea in E2. cbn [negb] in E2.
  destruct (Z.eqb_spec (checkValidConfig (rg_params (s_rg s))) MOVE_OK) as [Ev|Ev]; cbn [negb] in E2.
  2:{ injection E2 as <-. exists (s, t), k, rest, []. splits; auto; [split; auto|apply like_refl|now rewrite app_nil_r]. }
  cbv zeta in E2. set (t0 := t_ignore hq X false t) in *. change (t_q hq X t0) with (tqueue t0) in E2.
  pose proof HI as (Hg & Hd & Hm & Hp & Hfit & _). cbn [fst snd] in *.
  destruct (loop_exact ext busy (negb (q_running (tqueue t0))) fuel old (ticksInQueue A (tqueue t0)) false s t0 k rest)
    as (s' & t' & need & k' & rest' & w & R1 & R2 & R3 & R4 & R5 & R6 & R7); auto.
  - now apply ignore_good.
  - rewrite <- Hm in Hfit. exact Hfit.
  - intros K. now apply negb_true_iff in K.
  - rewrite R1 in E2. injection E2 as <-. set (t2 := if need then fst (t_null hq X true t') else t') in *.
    assert (M : moved A [] t' t2).
    { unfold t2. destruct need; [apply null_moved; auto; apply R2|apply moved_refl; apply R2]. }
    pose proof (mv_up _ _ _ _ M) as U. pose proof (mv_pos _ _ _ _ M) as P. cbn [end_up end_pos fold_left] in U, P.
    unfold end_up in U. unfold end_pos in P. cbn [fold_left] in U, P.
    exists (s', t2), k', rest', w. cbn [fst snd]. split; [exact E|]. split; [|splits; auto].
    + destruct (tn_inv _ _ _ _ _ _ _ _ _ _ T) as (I1 & I2 & I3 & _). cbn [fst snd] in *.
      split; [|cbn [fst]; split; [auto|rewrite (lk_dirpin _ _ R5); exact He]].
      split; [exact I1|]. split; [exact I2|]. split; [exact I3|]. cbn [fst snd]. rewrite U, P. split; [exact R3|]. split; [|auto].
      assert (EM : m = q_max (tqueue t')) by (rewrite <- (sc_max _ _ (mv_same _ _ _ _ M)); symmetry; exact I3).
      rewrite EM. exact R4.
    + rewrite (mv_acc _ _ _ _ M), app_nil_r, (mv_acc _ _ _ _ R2). reflexivity.
    + unfold coming. cbn [fst snd]. rewrite U. exact R7.
Qed.
Lemma tstep_exact e m k rest x : xinv m k rest x ->
  exists y k' rest' w, tstep A EXT e x = Some y /\ xinv m k' rest' y /\ like (fst x) (fst y) /\
    acc_of (snd y) = acc_of (snd x) ++ w /\ w ++ coming y rest' = coming x rest.
Proof.
  intros (HI & Hf & He). destruct x as [s t]. destruct e as [ext busy fuel old ws|evs|ext].
  - exact (fill_exact ext busy fuel old m k rest s (set_w ws t) (conj HI (conj Hf He))).
  - destruct (tstep_ok A EXT HA (TIsr evs) m k rest (s, t) HI) as (y & k' & d & r & w & Y1 & Y2).
    injection Y1 as <-. destruct (tn_inv _ _ _ _ _ _ _ _ _ _ Y2) as (I1 & I2 & I3 & _ & _ & I6).
    pose proof HI as (Hg & _ & _ & Hp & Hfit & _). cbn [fst snd] in *.
    destruct (isr_kept A EXT HA evs (hq_h t) (proj1 Hg)) as [_ K]. set (t' := set_h (isr A EXT evs (hq_h t)) t) in *.
    assert (E : pos_of t' = pos_of t /\ up_of t' = up_of t).
    { unfold pos_of, up_of, tqueue. cbn [t' set_h hq_h]. rewrite (k_end _ _ K). auto. }
    destruct E as [E1 E2]. exists (s, t'), k, rest, []. split; [reflexivity|]. splits; auto; [|apply like_refl| |].
    + split; [|auto]. split; [exact I1|]. split; [exact I2|]. split; [exact I3|]. cbn [fst snd]. rewrite E1, E2. splits; auto.
    + rewrite app_nil_r. exact (k_acc _ _ K).
    + unfold coming. cbn [fst snd]. rewrite E2. reflexivity.
  - destruct (tstep_ok A EXT HA (TTick ext) m k rest (s, t) HI) as (y & k' & d & r & w & Y1 & Y2).
    injection Y1 as <-. destruct (tn_inv _ _ _ _ _ _ _ _ _ _ Y2) as (I1 & I2 & I3 & _ & _ & I6).
    pose proof HI as (Hg & _ & _ & Hp & Hfit & _). cbn [fst snd] in *.
    set (z := tick ext s (h_q (hq_h t)) (hq_p t)) in *.
    assert (LK : like s (fst z)).
    { destruct (tick_conf ext s (h_q (hq_h t)) (hq_p t)) as [D|[n D]]; fold z in D; rewrite D; [apply like_refl|apply like_cnt]. }
    assert (RG : s_rg (fst z) = s_rg s).
    { destruct (tick_conf ext s (h_q (hq_h t)) (hq_p t)) as [D|[n D]]; fold z in D; rewrite D; reflexivity. }
    exists (fst z, t_setpins hq X (snd z) t), k, rest, []. split; [reflexivity|]. splits; auto.
    + split; [|cbn [fst]; split; [|rewrite (lk_dirpin _ _ LK); exact He]].
      * split; [exact I1|]. split; [exact I2|]. split; [exact I3|]. cbn [fst snd]. rewrite RG. splits; auto.
        -- eapply Forall_impl; [|exact Hfit]. intros c. now apply like_fits.
        -- rewrite <- RG. exact I6.
      * rewrite RG. intros Ha. unfold z. rewrite tick_active by exact Ha. auto.
    + now rewrite app_nil_r.
    + unfold coming. cbn [fst snd]. rewrite (lk_dirdelay _ _ LK). reflexivity.
Qed.
Lemma trun_exact m : forall l k rest x, xinv m k rest x ->
  exists y k' rest' w, trun A EXT l x = Some y /\ xinv m k' rest' y /\
    acc_of (snd y) = acc_of (snd x) ++ w /\ w ++ coming y rest' = coming x rest.
Proof.
  induction l as [|e l IH]; intros k rest x HI; cbn [trun].
  - exists x, k, rest, []. splits; auto. now rewrite app_nil_r.
  - destruct (tstep_exact e m k rest x HI) as (y & k1 & r1 & w1 & E1 & I1 & _ & A1 & C1). rewrite E1.
    destruct (IH k1 r1 y I1) as (z & k2 & r2 & w2 & E2 & I2 & A2 & C2).
    exists z, k2, r2, (w1 ++ w2). splits; auto.
    + rewrite A2, A1, app_assoc. reflexivity.
    + rewrite <- app_assoc, C2. exact C1.
Qed.
(** The commands accepted so far are the first ones of the list with its pauses, at the end
    all of it *)
Definition exact_carries (cs : list command) (x : stepper * hq) : Prop :=
  forall tasks, exists y w rest, trun A EXT tasks x = Some y /\ acc_of (snd y) = acc_of (snd x) ++ w /\
    with_pauses (s_dirdelay (fst x)) (up_of (snd x)) cs = w ++ rest /\
    (isRampGeneratorActive (s_rg (fst y)) = false -> rest = []).
Lemma inv_exact m n cs x : tinv A m n cs x -> fed (fst x) -> is_external (s_dirpin (fst x)) = false -> exact_carries cs x.
Proof.
  intros HI Hf He tasks. destruct (trun_exact m tasks n cs x) as (y & k & r & w & E & I & Ha & Hc); [split; auto|].
  exists y, w, (coming y r). splits; auto. intros Hi. destruct I as ((_ & _ & _ & Hp & _) & _).
  rewrite (plan_done _ _ _ _ _ Hp Hi). reflexivity.
Qed.
End WithArch.

(** ** After any history *)
Section History.
Variable A : arch.
Variable EXT : bool.
Hypothesis HA : In A all_archs.
Lemma moveTo_keeps pos s q s1 r : s_moveTo pos s q = (s1, r) -> exists g, s1 = st_rg g s.
Proof. unfold s_moveTo. destruct (rg_moveTo _ _ _) as [g1 z]. intros H. injection H as <- _. eauto. Qed.
Lemma move_keeps delta s s1 r : s_move delta s = (s1, r) -> exists g, s1 = st_rg g s.
Proof.
  unfold s_move. destruct (_ && _).
  - intros H. injection H as <- _. exists (s_rg s). destruct s; reflexivity.
  - destruct (rg_move _ _) as [g1 z]. intros H. injection H as <- _. eauto.
Qed.
Lemma moveTo_exact garbage p ep m s0 evs a M pos : conf_ok s0 -> Forall fev_ok evs -> -2147483648 <= pos < 2147483648 ->
  let x := frun A EXT evs (finit A garbage p ep m s0) in
  let d := i32 (pos - qe_pos (q_end (fqueue x))) in
  ready_to_move A (fst x) (fqueue x) a M d -> fed (fst x) -> is_external (s_dirpin (fst x)) = false ->
  exists s1 cs, s_moveTo pos (fst x) (fqueue x) = (s1, MOVE_OK)
    /\ total_steps cs = Z.abs d /\ Forall (valid_cmd A) cs /\ Forall (moves_only (0 <? d)) cs /\ speed_ok M cs
    /\ carries A EXT (0 <? d) cs pos (s1, snd x) /\ exact_carries A EXT cs (s1, snd x).
Proof.
  intros Hc He Hp x d Hr Hf Hx. pose proof (proj1 (history_good A EXT HA garbage p ep m s0 evs Hc He)) as Hg. fold x in Hg.
  destruct (moveTo_planned A EXT HA _ _ a M Hg pos Hp Hr) as (s1 & cs & n & H1 & H2 & H3 & H4 & H5 & (H6 & _) & H7 & _).
  exists s1, cs. splits; auto. destruct (moveTo_keeps _ _ _ _ _ H1) as (g & Eg).
  eapply inv_exact; eauto; cbn [fst]; rewrite Eg; assumption.
Qed.
Lemma move_exact garbage p ep m s0 evs a M delta : conf_ok s0 -> Forall fev_ok evs ->
  -2147483648 <= delta < 2147483648 -> delta <> 0 ->
  let x := frun A EXT evs (finit A garbage p ep m s0) in
  let g := s_rg (fst x) in
  let target := i32 (base_target g (q_end (fqueue x)) + pending_move g + delta) in
  let d := i32 (target - qe_pos (q_end (fqueue x))) in
  ready_to_move A (fst x) (fqueue x) a M d -> (s_dirpin (fst x) = PIN_UNDEFINED -> 0 <= delta) ->
  fed (fst x) -> is_external (s_dirpin (fst x)) = false ->
  exists s1 cs, s_move delta (fst x) = (s1, MOVE_OK)
    /\ total_steps cs = Z.abs d /\ Forall (valid_cmd A) cs /\ Forall (moves_only (0 <? d)) cs /\ speed_ok M cs
    /\ carries A EXT (0 <? d) cs target (s1, snd x) /\ exact_carries A EXT cs (s1, snd x).
Proof.
  intros Hc He Hp H0 x g target d Hr Hd Hf Hx. pose proof (proj1 (history_good A EXT HA garbage p ep m s0 evs Hc He)) as Hg. fold x in Hg.
  destruct (move_planned A EXT HA _ _ a M Hg delta Hp H0 Hr Hd) as (s1 & cs & n & H1 & H2 & H3 & H4 & H5 & (H6 & _) & H7 & _).
  exists s1, cs. splits; auto. destruct (move_keeps _ _ _ _ H1) as (g1 & Eg).
  eapply inv_exact; eauto; cbn [fst]; rewrite Eg; assumption.
Qed.
(** two schedules of the same move *)
Lemma exact_same cs x l1 l2 y1 y2 : exact_carries A EXT cs x -> trun A EXT l1 x = Some y1 -> trun A EXT l2 x = Some y2 ->
  (exists r, acc_of (snd y1) = acc_of (snd y2) ++ r \/ acc_of (snd y2) = acc_of (snd y1) ++ r) /\
  (isRampGeneratorActive (s_rg (fst y1)) = false -> isRampGeneratorActive (s_rg (fst y2)) = false ->
   acc_of (snd y1) = acc_of (snd y2)).
Proof.
  intros H E1 E2. destruct (H l1) as (z1 & w1 & r1 & A1 & A2 & A3 & A4). destruct (H l2) as (z2 & w2 & r2 & B1 & B2 & B3 & B4).
  rewrite E1 in A1. injection A1 as <-. rewrite E2 in B1. injection B1 as <-. rewrite A2, B2. split.
  - assert (K : w1 ++ r1 = w2 ++ r2) by congruence. clear - K. revert w2 K.
    enough (G : forall w1 w2 : list command, w1 ++ r1 = w2 ++ r2 -> exists r, w1 = w2 ++ r \/ w2 = w1 ++ r).
    { intros w2 K. destruct (G w1 w2 K) as (r & [-> | ->]); exists r; [left|right]; apply app_assoc. }
    clear w1. induction w1 as [|c w1 IH]; intros w2 K; [exists w2; now right|].
    destruct w2 as [|c2 w2]; [exists (c :: w1); now left|].
    cbn [app] in K. injection K as -> K. destruct (IH w2 K) as (r & [-> | ->]); exists r; [left|right]; reflexivity.
  - intros I1 I2. rewrite (A4 I1), app_nil_r in A3. rewrite (B4 I2), app_nil_r in B3. congruence.
Qed.
Lemma moveTo_two garbage p ep m s0 evs a M pos l1 l2 : conf_ok s0 -> Forall fev_ok evs -> -2147483648 <= pos < 2147483648 ->
  let x := frun A EXT evs (finit A garbage p ep m s0) in
  ready_to_move A (fst x) (fqueue x) a M (i32 (pos - qe_pos (q_end (fqueue x)))) -> fed (fst x) ->
  is_external (s_dirpin (fst x)) = false ->
  exists y1 y2, let s1 := fst (s_moveTo pos (fst x) (fqueue x)) in
    trun A EXT l1 (s1, snd x) = Some y1 /\ trun A EXT l2 (s1, snd x) = Some y2 /\
    (exists r, accepted_cmds y1 = accepted_cmds y2 ++ r \/ accepted_cmds y2 = accepted_cmds y1 ++ r) /\
    (isRampGeneratorActive (s_rg (fst y1)) = false -> isRampGeneratorActive (s_rg (fst y2)) = false ->
     accepted_cmds y1 = accepted_cmds y2).
Proof.
  intros Hc He Hp x Hr Hf Hx.
  destruct (moveTo_exact garbage p ep m s0 evs a M pos Hc He Hp Hr Hf Hx) as (s1 & cs & H1 & _ & _ & _ & _ & _ & H2). fold x in H1, H2.
  destruct (H2 l1) as (y1 & _ & _ & E1 & _). destruct (H2 l2) as (y2 & _ & _ & E2 & _).
  exists y1, y2. cbv zeta. rewrite H1. cbn [fst]. split; [exact E1|]. split; [exact E2|].
  exact (exact_same cs (s1, snd x) l1 l2 y1 y2 H2 E1 E2).
Qed.
End History.

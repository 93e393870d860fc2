(** * MoveTimedProp: moveTimed on the queue *)
From Coq Require Import ZArith Bool List Lia ZifyBool.
From Verif Require Import Base RampCalc RampGen Queue QueueFacts QueueHist Stepper StepperHist FrontHist FrontProp
  MoveTimed MoveTimedFacts.
Import ListNotations.
Open Scope Z_scope.
Ltac Zify.zify_post_hook ::= idtac.

Section WithArch.
Variable A : arch.
Variable EXT : bool.
Notation L := (QUEUE_LEN A).
Notation X := (hacc A EXT).

(** moveTimed() of a stepper: stepper, queue, and the results of isDirPinBusy() during the
    coming calls ([false] at the end of the list). The interrupts and the readiness of the
    device during the calls of the queue's addQueueEntry are the weather in [hq]. *)
Definition mtw : Type := stepper * hq * list bool.
Definition mt_add (ext : extcall) (start : bool) (c : command) (w : mtw) : mtw * Z :=
  let '(s, t, bs) := w in
  let r := s_add A hq X ext (hd false bs) c start s t in
  ((fst (fst r), snd (fst r), tl bs), snd r).
Definition mt_null (w : mtw) : mtw :=
  let '(s, t, bs) := w in (s, fst (t_null hq X true t), bs).
Definition mt_entries (w : mtw) : Z := let '(s, t, bs) := w in n_of t.
Definition s_moveTimed (ext : extcall) (steps duration : Z) (start : bool) (w : mtw) : mtw * Z * option Z :=
  moveTimed A mtw (mt_add ext start) mt_null mt_entries steps duration start w.
Definition mt_acc (w : mtw) : list command := acc_of (snd (fst w)).

Hypothesis HA : In A all_archs.

(** ** One command *)
Definition wgood (w : mtw) : Prop := good A (snd (fst w)) /\ conf_ok (fst (fst w)).
Definition wignore (w : mtw) : bool := q_ignore (tqueue (snd (fst w))).
(** a pause inserted by addQueueEntry *)
Definition pause_of (up : bool) (c : command) : Prop := c_steps c = 0 /\ c_up c = up.

Lemma s_add_success ext busy c start s t : good A t -> cmd_ok c -> conf_ok s ->
  q_ignore (tqueue t) = false ->
  let r := s_add A hq X ext busy c start s t in
  snd r = AQE_OK ->
  long_cmd A c /\ up_of (snd (fst r)) = c_up c /\
  exists ps, acc_of (snd (fst r)) = acc_of t ++ ps ++ [c] /\ Forall (pause_of (c_up c)) ps.
Proof.
  intros Hg Hc Hs Hi. cbv zeta. unfold s_add.
  destruct (add_first_cases A EXT ext busy c start s t) as [(H1 & H2 & H3)|[Hp H]].
  { destruct (Z.eqb_spec (snd (add_first hq X ext busy c start s t)) AQE_OK); [contradiction|].
    cbn [negb fst snd]. congruence. }
  assert (SEC : forall t1 new0, good A t1 -> same_conf t t1 -> acc_of t1 = acc_of t ++ new0 ->
     Forall (pause_of (c_up c)) new0 ->
     let r := add_second A hq X c start s t1 in
     snd r = AQE_OK ->
     long_cmd A c /\ up_of (snd (fst r)) = c_up c /\
     exists ps, acc_of (snd (fst r)) = acc_of t ++ ps ++ [c] /\ Forall (pause_of (c_up c)) ps).
  { intros t1 new0 G1 S1 E1 F1. rewrite add_second_eq.
    destruct (no_room A c s t1); [discriminate|].
    cbv zeta. cbn [fst snd]. intros E.
    destruct (adds_ok A EXT HA start _ t1 G1 (pre_ok A c s (up_of t1) Hc Hs)).
    destruct ad_acc as (l1 & l2 & B1 & B2 & B3 & B4 & B5); [rewrite (sc_ign _ _ S1); exact Hi|].
    rewrite (B5 E), app_nil_r in B1. rewrite <- B1 in *.
    splits.
    - apply Forall_app in B4 as [_ B4]. now inversion B4.
    - rewrite B3, end_up_app. reflexivity.
    - exists (new0 ++ pre_pauses A c s (up_of t1)). rewrite B2, E1, !app_assoc. split; [reflexivity|].
      apply Forall_app. split; [exact F1|]. apply pre_pause. }
  destruct H as [[He H]|[He H]].
  - rewrite H. cbn [fst snd]. replace (negb (AQE_OK =? AQE_OK)) with false by reflexivity.
    apply (SEC t []); auto; [apply same_refl|rewrite app_nil_r; reflexivity].
  - cbv zeta in H. set (en := enableOutputs ext s (hq_p t)) in *.
    set (t1 := t_setpins hq X (fst en) t) in *.
    assert (G1 : good A t1) by exact Hg.
    assert (S1 : same_conf t t1) by (constructor; reflexivity).
    destruct H as [[E1 H]|[(E1 & E2 & H)|(E1 & E2 & H)]]; rewrite H.
    + cbn [fst snd]. replace (negb (AQE_WAIT_FOR_ENABLE_PIN_ACTIVE =? AQE_OK)) with true by reflexivity.
      cbn [fst snd]. discriminate.
    + cbn [fst snd]. replace (negb (AQE_OK =? AQE_OK)) with false by reflexivity.
      apply (SEC t1 []); auto. rewrite app_nil_r. reflexivity.
    + destruct (pieces_range A EXT s c t Hs E2) as [_ HR]. cbv zeta in HR.
      set (ps := on_pieces (on_fuel (on_delay hq X c s t)) (on_delay hq X c s t)) in *.
      destruct (pauses_grow A EXT HA (c_up c) ps t1 G1 HR) as (G2 & S2 & P2 & l' & B1 & B2 & B3).
      set (t2 := add_pauses hq X (c_up c) ps t1) in *.
      destruct (null_ok A EXT HA start t2 G2).
      set (t3 := fst (t_null hq X start t2)) in *.
      assert (F : Forall (pause_of (c_up c)) (map (fun d => mkCommand d 0 (c_up c)) l')).
      { apply Forall_forall. intros x Hx. apply in_map_iff in Hx as (d & <- & _). split; reflexivity. }
      assert (S3 : same_conf t t3) by (eapply same_trans; [exact S1|eapply same_trans; eassumption]).
      destruct (Z.eqb_spec (snd (t_null hq X start t2)) AQE_OK) as [E|E]; cbn [negb].
      * apply (SEC t3 (map (fun d => mkCommand d 0 (c_up c)) l')); auto.
        rewrite ns_acc, B1. reflexivity.
      * cbn [fst snd]. intros K. contradiction.
Qed.

(** ** All commands *)
(** [new] consists of the commands [l] in the given order, and pauses *)
Inductive woven (up : bool) : list command -> list command -> Prop :=
| wo_nil : woven up [] []
| wo_pause p new l : pause_of up p -> woven up new l -> woven up (p :: new) l
| wo_cmd c new l : woven up new l -> woven up (c :: new) (c :: l).
Lemma woven_pauses up ps new l : Forall (pause_of up) ps -> woven up new l -> woven up (ps ++ new) l.
Proof. induction 1; cbn [app]; auto. intros. apply wo_pause; auto. Qed.
Lemma woven_steps up new l : woven up new l -> n_steps new = n_steps l.
Proof. induction 1 as [|p new l [P1 P2] H IH|c new l H IH]; rewrite ?n_steps_cons; lia. Qed.
Lemma woven_up up new l : woven up new l -> Forall (fun c => c_up c = up) l -> Forall (fun c => c_up c = up) new.
Proof.
  induction 1 as [|p new l [P1 P2] H IH|c new l H IH]; intros F; auto. inversion F; auto.
Qed.
Lemma woven_le up new l : woven up new l -> Forall cmd_ok new -> n_ticks l <= n_ticks new.
Proof.
  induction 1 as [|p new l [P1 P2] H IH|c new l H IH]; intros F; rewrite ?n_ticks_cons; inversion F; subst.
  - lia.
  - pose proof (cdur_pos p). specialize (IH H3). lia.
  - specialize (IH H3). lia.
Qed.

Lemma send_success ext start up : forall l w act, wgood w -> typed up (cmds l) -> wignore w = false ->
  let r := send mtw (mt_add ext start) l w act in
  snd (fst r) = AQE_OK ->
  wgood (fst (fst r)) /\ Forall (long_cmd A) (cmds l) /\ (0 <= act < 4294967296 -> snd r = u32 (act + n_act l)) /\
  exists new, mt_acc (fst (fst r)) = mt_acc w ++ new /\ woven up new (cmds l).
Proof.
  induction l as [|[c d] l IH]; intros [[s t] bs] act [Hg Hs] Ht Hi; cbn [fst snd] in *.
  { cbn [send fst snd]. intros _. splits; auto.
    - split; assumption.
    - constructor.
    - intros R. change (n_act []) with 0. rewrite Z.add_0_r. unfold u32. symmetry. now apply Z.mod_small.
    - exists []. rewrite app_nil_r. split; [reflexivity|constructor]. }
  cbv zeta. rewrite cmds_cons in *. inversion Ht as [|? ? [Hc Hu] Ht']; subst.
  set (r := s_add A hq X ext (hd false bs) c start s t).
  assert (ES : send mtw (mt_add ext start) ((c, d) :: l) (s, t, bs) act
     = if snd r =? AQE_OK then send mtw (mt_add ext start) l (fst (fst r), snd (fst r), tl bs) (u32 (act + d))
       else ((fst (fst r), snd (fst r), tl bs), snd r, act)) by reflexivity.
  rewrite ES. clear ES.
  destruct (Z.eqb_spec (snd r) AQE_OK) as [E|E]; [|cbn [fst snd]; intros K; now elim E].
  destruct (s_add_ok A EXT HA ext (hd false bs) c start s t Hg Hc Hs).
  destruct (s_add_success ext (hd false bs) c start s t Hg Hc Hs Hi E) as (B1 & B2 & ps & B3 & B4).
  fold r in sa_good, sa_same, sa_s, B2, B3.
  assert (Hs' : conf_ok (fst (fst r))) by (destruct sa_s as [K|K]; rewrite K; exact Hs).
  assert (Hi' : wignore (fst (fst r), snd (fst r), tl bs) = false).
  { unfold wignore. cbn [fst snd]. rewrite (sc_ign _ _ sa_same). exact Hi. }
  specialize (IH (fst (fst r), snd (fst r), tl bs) (u32 (act + d)) (conj sa_good Hs') Ht' Hi').
  cbv zeta in IH.
  intros E2. destruct (IH E2) as (C1 & C2 & C3 & new & C4 & C5).
  split; [exact C1|]. split; [constructor; assumption|]. split.
  - intros R. rewrite C3 by (unfold u32; apply Z.mod_pos_bound; lia). rewrite n_act_cons.
    unfold u32. rewrite Zplus_mod_idemp_l. f_equal. lia.
  - exists (ps ++ c :: new). split.
    + rewrite C4. unfold mt_acc. cbn [fst snd]. rewrite B3, <- !app_assoc. reflexivity.
    + apply woven_pauses; [assumption|]. now apply wo_cmd.
Qed.
Lemma long_positive l : Forall (long_cmd A) l -> Forall cmd_ok l -> positive l.
Proof.
  assert (Hm : 0 < MIN_CMD_TICKS A) by (clear - HA; revert A HA; apply arch_cases; cbn; lia).
  intros F O. unfold positive. revert O F. induction l as [|c l IH]; intros O F; [constructor|].
  inversion O as [|? ? Oc]; inversion F as [|? ? Fc]; subst. constructor; auto.
  unfold long_cmd in Fc. rewrite rate_cdur in Fc by assumption. unfold cdur in Fc.
  destruct Oc as [O1 O2].  nia.
Qed.

(** success of moveTimed *)
Definition mt_success (code : Z) : Prop := code = MOVE_TIMED_OK \/ code = MOVE_TIMED_EMPTY.
(** the return codes of addQueueEntry: src/FastAccelStepper.h *)
Definition aqe (code : Z) : Prop := -3 <= code <= 4.
Ltac code := cbn [fst snd a_code]; unfold aqe, AQE_OK, AQE_QUEUE_FULL, AQE_DIR_PIN_IS_BUSY, AQE_WAIT_FOR_ENABLE_PIN_ACTIVE,
  AQE_DEVICE_NOT_READY, AQE_ERROR_TICKS_TOO_LOW, AQE_ERROR_EMPTY_QUEUE_TO_START, AQE_ERROR_NO_DIR_PIN_TO_TOGGLE in *; lia.
Lemma check_code r c q : aqe (add_check A r c q).
Proof.
  unfold add_check. destruct (negb r); [code|]. destruct (isQueueFull A q); [code|].
  destruct (_ <? _); code.
Qed.
Lemma hcall_code w c start h : inv A h -> cmd_ok c -> h_pc h = Free -> aqe (last_code (hcall A EXT w c start h)).
Proof.
  intros HI Hc Hpc. unfold hcall.
  destruct (isr_kept A EXT HA (w_i0 w) h HI) as [I0 K0]. set (h0 := isr A EXT (w_i0 w) h) in *. clearbody h0.
  assert (P0 : h_pc h0 = Free) by (rewrite (k_pc _ _ K0); assumption).
  assert (ST : forall h, last_code (hstep A EXT EStartQ h) = last_code h).
  { intros u. cbn [hstep]. destruct (h_pc u); auto. destruct (add_starts _ _); [|reflexivity].
    unfold start_head. destruct (_ && _); reflexivity. }
  assert (LK : forall u v, kept u v -> last_code v = last_code u).
  { intros u v K. unfold last_code. rewrite (k_res _ _ K). reflexivity. }
  assert (I1 : inv A (hstep A EXT (EBegin c start (w_r1 w)) h0)) by (apply inv_step; auto).
  assert (BE : (exists ne, h_pc (hstep A EXT (EBegin c start (w_r1 w)) h0) = Prepared c ne start)
     \/ h_pc (hstep A EXT (EBegin c start (w_r1 w)) h0) = Free
        /\ aqe (last_code (hstep A EXT (EBegin c start (w_r1 w)) h0))).
  { cbn [hstep]. rewrite P0. destruct (add_check A (w_r1 w) c (h_q h0) =? AQE_OK); [left; eexists; reflexivity|right].
    split; [reflexivity|]. unfold last_code. cbn [h_res]. rewrite last_snoc. apply check_code. }
  set (h1 := hstep A EXT (EBegin c start (w_r1 w)) h0) in *. clearbody h1.
  destruct (isr_kept A EXT HA (w_i1 w) h1 I1) as [I2 K2]. set (h2 := isr A EXT (w_i1 w) h1) in *. clearbody h2.
  assert (I3 : inv A (hstep A EXT (ECommit (w_r2 w)) h2)) by (apply inv_step; auto; exact I).
  destruct (isr_kept A EXT HA (w_i2 w) _ I3) as [_ K4].
  rewrite ST, (LK _ _ K4). cbn [hstep]. rewrite (k_pc _ _ K2).
  destruct BE as [[ne E]|[E F]]; rewrite E.
  - unfold last_code. cbn [h_res]. rewrite last_snoc. cbn [snd]. unfold add_commit.
    destruct (q_ignore (h_q h2)); [|destruct (w_r2 w)]; code.
  - rewrite (LK _ _ K2). exact F.
Qed.
Lemma null_code start t : aqe (snd (t_null hq X start t)).
Proof.
  cbn [t_null hacc h_null snd]. unfold q_add_null. destruct (negb _); [code|].
  destruct (_ && _); [|code]. destruct (_ =? _); code.
Qed.
Lemma adds_code start : forall l t, good A t -> Forall cmd_ok l -> aqe (snd (adds A EXT start l t)).
Proof.
  induction l as [|c l IH]; intros t Hg Hl; cbn [adds]; [code|].
  inversion Hl; subst. destruct (_ =? _).
  - apply IH; auto. now apply add_ok.
  - destruct Hg. now apply hcall_code.
Qed.
Lemma s_add_code ext busy c start s t : good A t -> cmd_ok c -> conf_ok s ->
  aqe (snd (s_add A hq X ext busy c start s t)).
Proof.
  intros Hg Hc Hs. unfold s_add.
  assert (SEC : forall t1, good A t1 -> aqe (snd (add_second A hq X c start s t1))).
  { intros t1 G1. rewrite add_second_eq. destruct (no_room A c s t1); [code|].
    cbv zeta. cbn [snd]. apply adds_code; auto. now apply pre_ok. }
  destruct (Z.eqb_spec (snd (add_first hq X ext busy c start s t)) AQE_OK) as [E|E]; cbn [negb].
  - apply SEC. 
    destruct (add_first_cases A EXT ext busy c start s t) as [(H1 & H2 & H3)|[Hp H]]; [contradiction|].
    destruct H as [[He H]|[He H]]; [rewrite H; exact Hg|]. cbv zeta in H.
    destruct H as [[E1 H]|[(E1 & E2 & H)|(E1 & E2 & H)]]; rewrite H; try exact Hg.
    apply null_ok; auto. destruct (pieces_range A EXT s c t Hs E2) as [_ HR].
    apply pauses_grow; auto.
  - cbn [fst snd]. unfold add_first. destruct (_ <? _); [code|].
    destruct (_ && _); [code|].
    destruct (_ && _); [code|].
    destruct (_ && _); [|code]. cbv zeta.
    destruct (negb _); [code|].
    destruct (_ >? _); [|code]. apply null_code.
Qed.
Lemma wgood_add ext start c w : wgood w -> cmd_ok c ->
  wgood (fst (mt_add ext start c w)) /\ wignore (fst (mt_add ext start c w)) = wignore w
  /\ aqe (snd (mt_add ext start c w)).
Proof.
  destruct w as [[s t] bs]. intros [Hg Hs] Hc. cbn [fst snd] in *.
  destruct (s_add_ok A EXT HA ext (hd false bs) c start s t Hg Hc Hs).
  unfold mt_add, wgood, wignore. cbn [fst snd]. splits.
  - exact sa_good.
  - destruct sa_s as [K|K]; rewrite K; exact Hs.
  - now rewrite (sc_ign _ _ sa_same).
  - now apply s_add_code.
Qed.
Lemma send_code ext start up : forall l w act, wgood w -> typed up (cmds l) ->
  aqe (snd (fst (send mtw (mt_add ext start) l w act))).
Proof.
  induction l as [|[c d] l IH]; intros w act Hw Ht; cbn [send]; [code|].
  rewrite cmds_cons in Ht. inversion Ht as [|? ? [Hc Hu] Ht']; subst.
  destruct (wgood_add ext start c w Hw Hc) as (B1 & B2 & B3). cbv zeta.
  destruct (_ =? _); [now apply IH|exact B3].
Qed.

(** ** C28 and C29 *)
Lemma i_u8 n : wgood n -> u8 (L - mt_entries n) = L - mt_entries n /\ 0 <= mt_entries n <= L.
Proof.
  destruct n as [[s t] bs]. intros [[HI _] _]. cbn [fst snd] in *. unfold mt_entries, n_of.
  destruct (iv_wf A _ HI) as (_ & _ & W). pose proof (entries_range (h_q (hq_h t))).
  assert (FL : L <= 32) by (clear - HA; revert A HA; apply arch_cases; cbn; lia).
  unfold tqueue. split; [unfold u8; apply Z.mod_small; lia|lia].
Qed.
Lemma moveTimed_success ext steps duration start w : wgood w -> wignore w = false -> mt_args steps duration ->
  let r := s_moveTimed ext steps duration start w in
  mt_success (snd (fst r)) ->
  exists l new act, mt_plan A steps duration (L - mt_entries w) = inr l
    /\ mt_acc (fst (fst r)) = mt_acc w ++ new /\ woven (up_steps steps) new (cmds l)
    /\ positive (cmds l) /\ snd r = Some act /\ act = u32 (n_act l).
Proof.
  intros Hw Hi Ha. cbv zeta. unfold s_moveTimed, moveTimed. destruct (i_u8 w Hw) as [Eu _]. rewrite Eu.
  assert (Z0 : (steps =? 0) && (duration =? 0) = false) by (destruct Ha as (_ & _ & H); lia).
  rewrite Z0. cbv zeta. destruct (mt_plan A steps duration (L - mt_entries w)) as [code|l] eqn:E.
  - cbn [fst snd]. intros [K|K]; exfalso; subst code; revert E; clear; unfold mt_plan; cbv zeta;
      repeat match goal with |- context [if ?b then _ else _] => destruct b end; discriminate.
  - destruct (plan_ok A steps duration _ l Ha E). cbn [fst snd].
    pose proof (send_success ext start (up_steps steps) l w 0 Hw pl_typed Hi) as S. cbv zeta in S.
    pose proof (send_code ext start (up_steps steps) l w 0 Hw pl_typed) as C.
    set (r := send mtw (mt_add ext start) l w 0) in *. unfold aqe in C.
    destruct (Z.eqb_spec (snd (fst r)) AQE_OK) as [E0|E0].
    + intros _. destruct (S E0) as (S1 & S2 & S3 & new & S4 & S5).
      exists l, new, (snd r). splits; auto.
      * apply long_positive; auto. eapply Forall_impl; [|exact pl_typed]. intros a [H _]. exact H.
      * rewrite S3 by lia. f_equal.
    + intros [K|K]; [contradiction|]. rewrite K in C. unfold MOVE_TIMED_EMPTY in C. lia.
Qed.

(** ** Quiet: addQueueEntry inserts no pauses *)
Definition quiet (c : command) (s : stepper) (t : hq) : Prop :=
  enabling s = false /\ (s_auto s = true -> s_off s <> 0)
  /\ (up_of t = c_up c \/ is_external (s_dirpin s) = false /\ (s_dirdelay s = 0 \/ c_steps c = 0)).
Lemma quiet_pre c s t : quiet c s t -> pre_pauses A c s (up_of t) = [] /\ no_room A c s t = false.
Proof.
  intros (_ & _ & H). unfold pre_pauses, no_room.
  destruct H as [E|[E1 E2]].
  - rewrite E, Bool.eqb_reflx. auto.
  - rewrite E1. rewrite andb_false_r. split; [|reflexivity]. destruct (Bool.eqb _ _); [reflexivity|].
    destruct (Z.eqb_spec (s_dirdelay s) 0); [reflexivity|]. destruct (Z.eqb_spec (c_steps c) 0); [reflexivity|lia].
Qed.
Lemma s_add_quiet ext busy c start s t : quiet c s t ->
  ~ pass busy c s t /\ (exists code, s_add A hq X ext busy c start s t = (s, t, code) /\ code <> AQE_OK)
  \/ pass busy c s t /\ s_add A hq X ext busy c start s t
       = (after_add (snd (t_add hq X c start t)) s, fst (t_add hq X c start t), snd (t_add hq X c start t)).
Proof.
  intros Q. destruct (quiet_pre c s t Q) as [Q1 Q2]. unfold s_add.
  destruct (add_first_cases A EXT ext busy c start s t) as [(H1 & H2 & H3)|[Hp H]].
  - left. split; [exact H3|]. eexists. split; [|exact H1].
    destruct (Z.eqb_spec (snd (add_first hq X ext busy c start s t)) AQE_OK); [contradiction|].
    cbn [negb]. rewrite H2. reflexivity.
  - right. split; [exact Hp|]. destruct H as [[He H]|[He H]]; [|destruct Q; congruence].
    rewrite H. cbn [fst snd]. replace (negb (AQE_OK =? AQE_OK)) with false by reflexivity.
    rewrite add_second_eq, Q1, Q2. cbn [app adds]. cbv zeta.
    destruct (Z.eqb_spec (snd (t_add hq X c start t)) AQE_OK) as [E|E]; cbn [fst snd]; [rewrite E|]; reflexivity.
Qed.
Lemma quiet_next c c' s t code : quiet c s t -> up_of t = c_up c' -> quiet c' (after_add code s) t.
Proof.
  intros (Q1 & Q2 & Q3) E. unfold quiet, after_add.
  destruct (s_auto s) eqn:Ea; cbn [andb]; [|splits; auto; congruence].
  destruct (code =? AQE_OK); [|splits; auto].
  unfold enabling. cbn [st_cnt s_auto s_cnt s_off]. splits; auto.
  specialize (Q2 eq_refl). rewrite Ea. cbn [andb]. lia.
Qed.

(** a command is accepted *)
Definition fits (c : command) (t : hq) : Prop := q_max (tqueue t) <= c_ticks c /\ long_cmd A c.
Lemma pass_bits busy c s t : busy = false -> q_max (tqueue t) <= c_ticks c ->
  (s_dirpin s = PIN_UNDEFINED -> c_up c = true) -> pass busy c s t.
Proof. intros. unfold pass. splits; auto. Qed.

Lemma send_all ext start up : forall l s t bs act, good A t -> conf_ok s -> q_ignore (tqueue t) = false ->
  typed up (cmds l) -> (forall c, In c (cmds l) -> quiet c s t) -> all_ready t -> Forall (fun b => b = false) bs ->
  (s_dirpin s = PIN_UNDEFINED -> up = true) ->
  n_of t + count l <= L -> Forall (fun c => q_max (tqueue t) <= c_ticks c /\ long_cmd A c) (cmds l) ->
  let r := send mtw (mt_add ext start) l (s, t, bs) act in
  snd (fst r) = AQE_OK /\ mt_acc (fst (fst r)) = acc_of t ++ cmds l.
Proof.
  induction l as [|[c d] l IH]; intros s t bs act Hg Hs Hi Ht Hq Hw Hb Hd Hn Hf; cbv zeta.
  { cbn [send fst snd cmds map]. rewrite app_nil_r. auto. }
  rewrite cmds_cons in *. inversion Ht as [|? ? [Hc Hu] Ht']; inversion Hf as [|? ? [F1 F2] Hf']; subst.
  rewrite count_cons in Hn.
  assert (Qc : quiet c s t) by (apply Hq; now left).
  assert (Hb1 : hd false bs = false) by (destruct Hb; auto).
  assert (Pc : pass (hd false bs) c s t) by (now apply pass_bits).
  destruct (s_add_quiet ext (hd false bs) c start s t Qc) as [[N _]|[_ E]]; [contradiction|].
  set (a := t_add hq X c start t) in *.
  assert (ES : send mtw (mt_add ext start) ((c, d) :: l) (s, t, bs) act
     = if snd a =? AQE_OK then send mtw (mt_add ext start) l (after_add (snd a) s, fst a, tl bs) (u32 (act + d))
       else ((after_add (snd a) s, fst a, tl bs), snd a, act)).
  { cbn [send]. unfold mt_add at 1 2 3 4 5. rewrite E. reflexivity. }
  rewrite ES. clear ES E.
  destruct (add_ok A EXT HA c start t Hg Hc). fold a in as_good, as_same, as_w, as_ok, as_no, as_n, as_ready.
  assert (Hok : snd a = AQE_OK).
  { apply as_ready; auto. - now apply all_ready1. - unfold count in Hn. lia. }
  destruct (as_ok Hok Hi) as (B1 & B2 & B3 & B4).
  rewrite Hok. change (AQE_OK =? AQE_OK) with true. cbv iota.
  destruct (IH (after_add AQE_OK s) (fst a) (tl bs) (u32 (act + d))) as [C1 C2]; auto.
  - unfold after_add. destruct (_ && _); exact Hs.
  - rewrite (sc_ign _ _ as_same). exact Hi.
  - intros c' Hin. apply (quiet_next c); [|].
    + destruct (Hq c) as (Q1 & Q2 & Q3); [now left|]. unfold quiet. splits; auto.
    + rewrite B2. unfold typed in Ht'. rewrite Forall_forall in Ht'. symmetry. now apply Ht'.
  - unfold all_ready. rewrite as_w. now apply tl_Forall.
  - now apply tl_Forall.
  - unfold after_add. destruct (_ && _); exact Hd.
  - lia.
  - rewrite (sc_max _ _ as_same). exact Hf'.
  - split; [exact C1|]. rewrite C2, B1, <- app_assoc. reflexivity.
Qed.

Lemma send_quiet ext start up : forall l s t bs act, good A t -> conf_ok s -> q_ignore (tqueue t) = false ->
  typed up (cmds l) -> (forall c, In c (cmds l) -> quiet c s t) ->
  let r := send mtw (mt_add ext start) l (s, t, bs) act in
  exists l1 l2, l = l1 ++ l2 /\ mt_acc (fst (fst r)) = acc_of t ++ cmds l1
    /\ (snd (fst r) = AQE_OK -> l2 = []).
Proof.
  induction l as [|[c d] l IH]; intros s t bs act Hg Hs Hi Ht Hq; cbv zeta.
  { exists [], []. cbn [send fst snd cmds map]. rewrite !app_nil_r. splits; auto. }
  rewrite cmds_cons in *. inversion Ht as [|? ? [Hc Hu] Ht']; subst.
  assert (Qc : quiet c s t) by (apply Hq; now left).
  destruct (s_add_quiet ext (hd false bs) c start s t Qc) as [[N (code & E & K)]|[_ E]].
  { exists [], ((c, d) :: l). 
    assert (ES : send mtw (mt_add ext start) ((c, d) :: l) (s, t, bs) act = ((s, t, tl bs), code, act)).
    { cbn [send]. unfold mt_add at 1 2 3 4 5. rewrite E. cbn [fst snd].
      destruct (Z.eqb_spec code AQE_OK); [contradiction|reflexivity]. }
    rewrite ES. cbn [fst snd cmds map]. rewrite app_nil_r. splits; auto. contradiction. }
  set (a := t_add hq X c start t) in *.
  assert (ES : send mtw (mt_add ext start) ((c, d) :: l) (s, t, bs) act
     = if snd a =? AQE_OK then send mtw (mt_add ext start) l (after_add (snd a) s, fst a, tl bs) (u32 (act + d))
       else ((after_add (snd a) s, fst a, tl bs), snd a, act)).
  { cbn [send]. unfold mt_add at 1 2 3 4 5. rewrite E. reflexivity. }
  rewrite ES. clear ES E.
  destruct (add_ok A EXT HA c start t Hg Hc). fold a in as_good, as_same, as_w, as_ok, as_no, as_n, as_ready.
  destruct (Z.eqb_spec (snd a) AQE_OK) as [Hok|Hok].
  - destruct (as_ok Hok Hi) as (B1 & B2 & B3 & B4).
    destruct (IH (after_add (snd a) s) (fst a) (tl bs) (u32 (act + d))) as (l1 & l2 & C1 & C2 & C3); auto.
    + unfold after_add. destruct (_ && _); exact Hs.
    + rewrite (sc_ign _ _ as_same). exact Hi.
    + intros c' Hin. apply (quiet_next c); [|].
      * destruct (Hq c) as (Q1 & Q2 & Q3); [now left|]. unfold quiet. splits; auto.
      * rewrite B2. unfold typed in Ht'. rewrite Forall_forall in Ht'. symmetry. now apply Ht'.
    + exists ((c, d) :: l1), l2. splits; auto.
      * rewrite C1. reflexivity.
      * rewrite C2, B1, cmds_cons, <- app_assoc. reflexivity.
  - exists [], ((c, d) :: l). cbn [fst snd cmds map]. unfold mt_acc. cbn [fst snd].
    destruct as_no as (B1 & _); [now left|]. rewrite B1, app_nil_r. splits; auto. congruence.
Qed.

(** ** C30 *)
(** The arguments for which the estimate of the needed commands is right: the pieces of a
    pause or of a slow step have at most 65535 ticks, not 65536; a remainder of 131072
    ticks is halved to 65536, which is no uint16_t; a period of 65535 ticks cannot be
    increased by one. *)
Definition regular (steps duration free : Z) : Prop :=
  let rate := duration / Z.abs steps in
  if steps =? 0 then duration <= 65535 * free
  else if rate >? 65535 then
    Z.abs steps * ((rate + 65534) / 65535) <= free /\ (rate mod 65535 = 2 -> rate < 131072)
  else rate < 65535 \/ Z.abs steps <= 255 \/ duration mod Z.abs steps = 0.

(** The same without the room in the queue: the number of pieces of at most 65535 ticks is
    the one computed with 65536, and the number of commands is a uint8_t. *)
Definition estimate_right (steps duration : Z) : Prop :=
  let rate := duration / Z.abs steps in
  if steps =? 0 then (duration + 65534) / 65535 <= duration / 65536 + 1
  else if rate >? 65535 then
    (rate + 65534) / 65535 <= rate / 65536 + 1 /\ Z.abs steps * (rate / 65536 + 1) < 256
    /\ (rate mod 65535 = 2 -> rate < 131072)
  else rate < 65535 \/ Z.abs steps <= 255 \/ duration mod Z.abs steps = 0.
Lemma estimate_regular steps duration free l : mt_args steps duration -> 0 <= free <= L ->
  mt_plan A steps duration free = inr l -> estimate_right steps duration -> regular steps duration free.
Proof.
  intros (Hs & Hd & Hn) Hf Hp He. revert Hp. unfold estimate_right in He. unfold regular, mt_plan. cbv zeta in *.
  rewrite Z.shiftr_div_pow2 in * by lia. change (2 ^ 16) with 65536.
  destruct (Z.eqb_spec steps 0) as [->|H0].
  { destruct (_ >=? L); [discriminate|]. destruct (Z.geb_spec (duration / 65536) free); [discriminate|]. intros _.
    pose proof (Z.mul_succ_div_gt (duration + 65534) 65535 ltac:(lia)). lia. }
  set (k := if steps <? 0 then i16 (- steps) else steps).
  assert (Ek : k = Z.abs steps /\ 0 < k < 32768).
  { unfold k. destruct (Z.ltb_spec steps 0); [|lia]. unfold i16. rewrite Z.mod_small by lia. lia. }
  destruct Ek as [Ek Hk]. clearbody k.
  assert (Eu : u32 k = k) by (unfold u32; apply Z.mod_small; lia). rewrite Eu, <- Ek in *.
  set (rate := duration / k) in *.
  assert (Hr : 0 <= rate < 4294967296).
  { unfold rate. split; [apply Z.div_pos; lia|]. apply Z.div_lt_upper_bound; [lia|]. nia. }
  clearbody rate. destruct (rate >? 65535); [|intros _; exact He].
  rewrite Z.shiftr_div_pow2 by lia. change (2 ^ 16) with 65536.
  destruct He as (E1 & E2 & E3).
  assert (P : 0 <= rate / 65536 < 65536) by (split; [apply Z.div_pos; lia|apply Z.div_lt_upper_bound; lia]).
  set (n := rate / 65536) in *. clearbody n.
  assert (Eu2 : u16 (n + 1) = n + 1) by (unfold u16; apply Z.mod_small; nia). rewrite Eu2.
  assert (Eu3 : u8 (k * (n + 1)) = k * (n + 1)) by (unfold u8; apply Z.mod_small; nia). rewrite Eu3.
  destruct (_ >=? L); [discriminate|]. destruct (k >=? L); [discriminate|]. destruct (_ >=? L); [discriminate|].
  destruct (Z.gtb_spec (k * (n + 1)) free); [discriminate|]. intros _. split; [|exact E3]. nia.
Qed.

Lemma slow_regular up : forall fuel k d, 0 <= d < 4294967296 -> (d mod 65535 = 2 -> d < 131072) ->
  positive (cmds (slow_cmds fuel up k d)).
Proof.
  induction fuel as [|fuel IH]; intros k d Hd Hm; cbn [slow_cmds]; [constructor|].
  destruct (Z.eqb_spec d 0) as [E|E]; cbn [negb]; [constructor|].
  rewrite cmds_cons.
  assert (HP : 0 < slow_piece d <= d /\ ((d - slow_piece d) mod 65535 = 2 -> d - slow_piece d < 131072)).
  { unfold slow_piece. destruct (Z.gtb_spec d 131072).
    - split; [lia|]. replace (d - 65535) with (d + (-1) * 65535) by lia. rewrite Z.mod_add by lia. lia.
    - destruct (Z.eq_dec d 131072) as [->|K]; [specialize (Hm eq_refl); lia|].
      destruct (Z.gtb_spec d 65535).
      + assert (Eu : u16 (d / 2) = d / 2).
        { unfold u16. apply Z.mod_small. pose proof (Z.div_mod d 2). pose proof (Z.mod_pos_bound d 2). lia. }
        rewrite Eu. pose proof (Z.div_mod d 2). pose proof (Z.mod_pos_bound d 2). lia.
      + assert (Eu : u16 d = d) by (unfold u16; apply Z.mod_small; lia). rewrite Eu. lia. }
  destruct HP as [P1 P2]. constructor; [cbn; lia|].
  assert (Eu : u32 (d - slow_piece d) = d - slow_piece d) by (unfold u32; apply Z.mod_small; lia).
  rewrite Eu. apply IH; [lia|exact P2].
Qed.
Lemma fast_regular up : forall fuel steps ticks missing, 0 < ticks <= 65535 ->
  (ticks < 65535 \/ missing <= 0) ->
  Forall (fun c => ticks <= c_ticks c) (cmds (fast_cmds fuel up steps ticks missing)).
Proof.
  induction fuel as [|fuel IH]; intros steps ticks missing Ht Hm; cbn [fast_cmds]; [constructor|].
  destruct (Z.gtb_spec steps 0); [|constructor]. rewrite cmds_cons.
  destruct (Z.leb_spec steps missing).
  - assert (E : u16 (ticks + 1) = ticks + 1) by (unfold u16; apply Z.mod_small; lia). rewrite E.
    constructor; [cbn; lia|]. eapply Forall_impl; [|apply IH; lia]. cbv beta. intros. lia.
  - constructor; [cbn; lia|]. apply IH; lia.
Qed.

Lemma tl_in {Y} (x : Y) l : In x (tl l) -> In x l.
Proof. destruct l; cbn; auto. Qed.
Lemma rest_ok steps duration free l qm : mt_args steps duration -> 0 <= free <= L ->
  mt_plan A steps duration free = inr l -> regular steps duration free ->
  0 < qm <= 32768 -> MIN_CMD_TICKS A <= 128 * qm ->
  count l <= free
  /\ (forall c, hd_error (cmds l) = Some c -> qm <= c_ticks c ->
       Forall (fun c => qm <= c_ticks c /\ long_cmd A c) (tl (cmds l))).
Proof.
  intros (Hs & Hd & Hn) Hf Hp Hr Hq Hm. revert Hp.
  assert (FA : MIN_CMD_TICKS A <= 32768 /\ L <= 32) by (clear - HA; revert A HA; apply arch_cases; cbn; lia).
  destruct FA as [FM FL].
  unfold mt_plan. unfold regular in Hr. cbv zeta in Hr.
  destruct (Z.eqb_spec steps 0) as [->|H0].
  { destruct (_ >=? _); [discriminate|]. destruct (_ >=? _); [discriminate|]. intros E. injection E as <-.
    destruct (pause_facts (piece_fuel duration) duration) as (I1 & I2 & I3 & I4 & I5 & I6 & I7); [lia| |].
    { right. apply fuel_nat; lia. }
    cbv zeta in *. split.
    - assert ((duration + 65534) / 65535 < free + 1) by (apply Z.div_lt_upper_bound; lia). lia.
    - intros c _ _. destruct (Z.le_gt_cases duration 65535).
      + rewrite I6 by lia. constructor.
      + specialize (I7 ltac:(lia)). rewrite Forall_forall in *. intros x Hx. apply tl_in in Hx.
        specialize (I7 x Hx). unfold long_cmd. unfold typed in I1. rewrite Forall_forall in I1.
        rewrite rate_cdur by (now apply I1). unfold cdur. destruct I7 as [I7 ->]. change (Z.max 1 0) with 1. lia. }
  cbv zeta.
  set (k := if steps <? 0 then i16 (- steps) else steps).
  assert (Ek : k = Z.abs steps /\ 0 < k < 32768).
  { unfold k. destruct (Z.ltb_spec steps 0); [|lia]. unfold i16.
    rewrite Z.mod_small by lia. lia. }
  destruct Ek as [Ek Rk]. rewrite <- Ek in Hr. clearbody k.
  assert (Eu : u32 k = k) by (unfold u32; apply Z.mod_small; lia). rewrite Eu.
  pose proof (Z.div_mod duration k). pose proof (Z.mod_pos_bound duration k). 
  assert (Rr : 0 <= duration / k <= duration).
  { split; [apply Z.div_pos; lia|]. apply Z.div_le_upper_bound; nia. }
  set (rate := duration / k) in *. fold (up_steps steps).
  destruct (Z.gtb_spec rate 65535) as [Hr0|Hr0].
  - repeat (destruct (_ >=? _); [discriminate|]). destruct (_ >? _); [discriminate|]. intros E. injection E as <-.
    destruct (slow_facts (up_steps steps) (piece_fuel rate) 1 rate) as (I1 & I2 & I3); [lia|lia| |].
    { right. apply fuel_nat; lia. }
    pose proof (slow_regular (up_steps steps) (piece_fuel rate) 1 rate ltac:(lia) (proj2 Hr)) as HP.
    set (l := slow_cmds (piece_fuel rate) (up_steps steps) 1 rate) in *.
    destruct (repeat_facts (up_steps steps) l (Z.to_nat k) I1) as (J1 & J2 & J3 & J4 & J5 & J6 & J7).
    destruct (I3 HP) as (K1 & K2 & K3 & K4 & K5).
    rewrite Z2Nat.id in * by lia.
    split.
    + rewrite J5. destruct Hr as [Hr _]. nia.
    + intros c _ _. assert (B : Forall (fun c => 32768 <= c_ticks c) (cmds (repeat_cmds (Z.to_nat k) l))) by (apply J6, K5; lia).
      rewrite Forall_forall in *. intros x Hx. apply tl_in in Hx.
      specialize (B x Hx). unfold long_cmd. unfold typed in J1. rewrite Forall_forall in J1.
      rewrite rate_cdur by (now apply J1). unfold cdur. cbv beta in B.
      assert (32768 * 1 <= c_ticks x * Z.max 1 (c_steps x)) by (apply Z.mul_le_mono_nonneg; lia). lia.
  - destruct (_ >? _); [discriminate|].
    destruct (Z.gtb_spec k (free * 255)); [discriminate|]. intros E. injection E as <-.
    assert (Em : i16 (duration - u32 (rate * k)) = duration mod k).
    { assert (E1 : u32 (rate * k) = rate * k) by (unfold u32; apply Z.mod_small; nia).
      rewrite E1. replace (duration - rate * k) with (duration mod k) by lia.
      unfold i16. rewrite Z.mod_small by lia. lia. }
    rewrite Em. set (m := duration mod k) in *.
    destruct (fast_facts (up_steps steps) (fast_fuel k) k rate m) as (I1 & I2 & I3 & I4 & I5 & I6); [lia|lia|lia| |].
    { right. apply fuel_nat; lia. }
    assert (HD : forall c, hd_error (cmds (fast_cmds (fast_fuel k) (up_steps steps) k rate m)) = Some c -> c_ticks c = rate).
    { unfold fast_fuel. replace (Z.to_nat (k / 128 + 1)) with (S (Z.to_nat (k / 128))).
      2:{ pose proof (Z.div_pos k 128). lia. }
      cbn [fast_cmds]. destruct (Z.gtb_spec k 0); [|lia]. destruct (Z.leb_spec k m); [lia|].
      intros c. rewrite cmds_cons. cbn [hd_error]. intros E. injection E as <-. reflexivity. }
    pose proof (fast_regular (up_steps steps) (fast_fuel k) k rate m) as FR.
    set (l := fast_cmds (fast_fuel k) (up_steps steps) k rate m) in *.
    split.
    + assert ((k + 254) / 255 < free + 1) by (apply Z.div_lt_upper_bound; lia). lia.
    + intros c Hc Hqc. rewrite (HD c Hc) in Hqc.
      destruct (Z.le_gt_cases k 255) as [K|K].
      * destruct I5 as [I5|I5]; [lia|lia|]. rewrite I5. constructor.
      * specialize (FR ltac:(lia) ltac:(lia)). specialize (I6 ltac:(lia)).
        unfold typed in I1. rewrite Forall_forall in *. intros x Hx. apply tl_in in Hx.
        specialize (FR x Hx). specialize (I6 x Hx). specialize (I1 x Hx). cbv beta in *.
        unfold long_cmd. rewrite rate_cdur by tauto. unfold cdur. split; [lia|].
        assert (qm * 128 <= c_ticks x * Z.max 1 (c_steps x)) by (apply Z.mul_le_mono_nonneg; lia). lia.
Qed.

(** the first command does not pass, or all commands are queued *)
Lemma all_or_nothing ext steps duration start s t bs : good A t -> conf_ok s -> q_ignore (tqueue t) = false ->
  mt_args steps duration -> regular steps duration (L - n_of t) ->
  (forall c, c_up c = up_steps steps -> (steps = 0 -> c_steps c = 0) -> quiet c s t) ->
  all_ready t -> Forall (fun b => b = false) bs ->
  0 < q_max (tqueue t) <= 32768 -> MIN_CMD_TICKS A <= 128 * q_max (tqueue t) ->
  let r := s_moveTimed ext steps duration start (s, t, bs) in
  mt_success (snd (fst r)) \/ mt_acc (fst (fst r)) = acc_of t.
Proof.
  intros Hg Hs Hi Ha Hr Hq Hw Hb Hm1 Hm2. cbv zeta. unfold s_moveTimed, moveTimed.
  destruct (i_u8 (s, t, bs) (conj Hg Hs)) as [Eu En]. rewrite Eu. cbn [mt_entries] in *.
  assert (Z0 : (steps =? 0) && (duration =? 0) = false) by (destruct Ha as (_ & _ & H); lia).
  rewrite Z0. cbv zeta. destruct (mt_plan A steps duration (L - n_of t)) as [code|l] eqn:E.
  { right. reflexivity. }
  cbn [fst snd]. destruct (plan_ok A steps duration _ l Ha E).
  destruct (rest_ok steps duration (L - n_of t) l (q_max (tqueue t)) Ha ltac:(lia) E Hr Hm1 Hm2) as [R1 R2].
  destruct l as [|[c d] l]; [contradiction|]. rewrite cmds_cons in *. cbn [hd_error tl] in R2.
  assert (Hall : forall x, In x (c :: cmds l) -> quiet x s t).
  { intros x Hx. unfold typed in pl_typed. rewrite Forall_forall in pl_typed. destruct (pl_typed x Hx) as [_ Hu].
    apply Hq; auto. intros ->. 
    assert (NN : forall k, Forall (fun c => cmd_ok c /\ c_up c = up_steps 0) k -> 0 <= n_steps k
              /\ (n_steps k = 0 -> forall y, In y k -> c_steps y = 0)).
    { clear. induction k as [|y k IH]; intros F; [split; [cbn; lia|intros _ y []]|].
      inversion F as [|? ? [[O1 O2] _] F']; subst. destruct (IH F') as [I1 I2]. rewrite n_steps_cons.
      split; [lia|]. intros Z z [<-|Hz]; [lia|]. apply I2; [lia|exact Hz]. }
    rewrite <- Forall_forall in pl_typed. destruct (NN _ pl_typed) as [_ N2]. apply N2; auto. }
  assert (Hc : cmd_ok c) by (inversion pl_typed as [|? ? [H _]]; exact H).
  assert (Hu : c_up c = up_steps steps) by (inversion pl_typed as [|? ? [_ H]]; exact H).
  destruct (Z_le_gt_dec (q_max (tqueue t)) (c_ticks c)) as [Q1|Q1];
  [destruct (Z_le_gt_dec (MIN_CMD_TICKS A) (command_rate_ticks c)) as [Q2|Q2];
  [destruct (Bool.bool_dec (negb (s_dirpin s =? PIN_UNDEFINED) || up_steps steps) true) as [Q3|Q3]|]|].
  - left. destruct (send_all ext start (up_steps steps) ((c, d) :: l) s t bs 0) as [B1 B2]; auto.
    + intros Ep. destruct (Z.eqb_spec (s_dirpin s) PIN_UNDEFINED); [exact Q3|contradiction].
    + lia.
    + rewrite cmds_cons. constructor; [split; assumption|]. now apply (R2 c).
    + rewrite B1. change (AQE_OK =? AQE_OK) with true. cbv iota.
      destruct (n_of t =? 0); [now right|now left].
  - right. assert (Qc : quiet c s t) by (apply Hall; now left).
    assert (NP : ~ pass (hd false bs) c s t).
    { intros (_ & P2 & _). apply Q3. apply orb_true_iff. destruct (Z.eqb_spec (s_dirpin s) PIN_UNDEFINED); [right|now left].
      rewrite <- Hu. now apply P2. }
    destruct (s_add_quiet ext (hd false bs) c start s t Qc) as [[_ (code & E1 & K)]|[P _]]; [|contradiction].
    assert (ES : send mtw (mt_add ext start) ((c, d) :: l) (s, t, bs) 0 = ((s, t, tl bs), code, 0)).
    { cbn [send]. unfold mt_add at 1 2 3 4 5. rewrite E1. cbn [fst snd].
      destruct (Z.eqb_spec code AQE_OK); [contradiction|reflexivity]. }
    rewrite ES. reflexivity.
  - right. assert (Qc : quiet c s t) by (apply Hall; now left).
    destruct (s_add_quiet ext (hd false bs) c start s t Qc) as [[_ (code & E1 & K)]|[P E1]].
    + assert (ES : send mtw (mt_add ext start) ((c, d) :: l) (s, t, bs) 0 = ((s, t, tl bs), code, 0)).
      { cbn [send]. unfold mt_add at 1 2 3 4 5. rewrite E1. cbn [fst snd].
        destruct (Z.eqb_spec code AQE_OK); [contradiction|reflexivity]. }
      rewrite ES. reflexivity.
    + destruct (add_ok A EXT HA c start t Hg Hc). set (a := t_add hq X c start t) in *.
      assert (NK : snd a <> AQE_OK).
      { intros K. destruct (as_ok K Hi) as (_ & _ & LC & _). unfold long_cmd in LC. lia. }
      assert (ES : send mtw (mt_add ext start) ((c, d) :: l) (s, t, bs) 0
         = ((after_add (snd a) s, fst a, tl bs), snd a, 0)).
      { cbn [send]. unfold mt_add at 1 2 3 4 5. rewrite E1. cbn [fst snd].
        destruct (Z.eqb_spec (snd a) AQE_OK); [contradiction|reflexivity]. }
      rewrite ES. unfold mt_acc. cbn [fst snd]. apply as_no. now left.
  - right. assert (Qc : quiet c s t) by (apply Hall; now left).
    assert (NP : ~ pass (hd false bs) c s t) by (intros (P & _); lia).
    destruct (s_add_quiet ext (hd false bs) c start s t Qc) as [[_ (code & E1 & K)]|[P _]]; [|contradiction].
    assert (ES : send mtw (mt_add ext start) ((c, d) :: l) (s, t, bs) 0 = ((s, t, tl bs), code, 0)).
    { cbn [send]. unfold mt_add at 1 2 3 4 5. rewrite E1. cbn [fst snd].
      destruct (Z.eqb_spec code AQE_OK); [contradiction|reflexivity]. }
    rewrite ES. reflexivity.
Qed.
Lemma all_or_nothing_estimate ext steps duration start s t bs : good A t -> conf_ok s -> q_ignore (tqueue t) = false ->
  mt_args steps duration -> estimate_right steps duration ->
  (forall c, c_up c = up_steps steps -> (steps = 0 -> c_steps c = 0) -> quiet c s t) ->
  all_ready t -> Forall (fun b => b = false) bs ->
  0 < q_max (tqueue t) <= 32768 -> MIN_CMD_TICKS A <= 128 * q_max (tqueue t) ->
  let r := s_moveTimed ext steps duration start (s, t, bs) in
  mt_success (snd (fst r)) \/ mt_acc (fst (fst r)) = acc_of t.
Proof.
  intros Hg Hs Hi Ha He Hq Hw Hb Hm1 Hm2.
  destruct (i_u8 (s, t, bs) (conj Hg Hs)) as [Eu En].
  destruct (mt_plan A steps duration (L - n_of t)) as [code|l] eqn:E.
  - right. unfold s_moveTimed, moveTimed. rewrite Eu. cbn [mt_entries].
    assert (Z0 : (steps =? 0) && (duration =? 0) = false) by (destruct Ha as (_ & _ & H); lia).
    rewrite Z0. cbv zeta. rewrite E. reflexivity.
  - apply all_or_nothing; auto. cbn [mt_entries] in En. refine (estimate_regular steps duration (L - n_of t) l Ha _ E He). lia.
Qed.


(** ** After any history *)
Definition mt_state (x : stepper * hq) (ws : list weather) (bs : list bool) : mtw := (fst x, set_w ws (snd x), bs).
Lemma reach_good garbage p ep m s evs : conf_ok s -> Forall fev_ok evs ->
  fgood A (frun A EXT evs (finit A garbage p ep m s)).
Proof.
  intros Hs He. destruct (frun_ind A EXT HA (fun _ => True) (fun _ => True)) with (l := evs) (x := finit A garbage p ep m s) as (B & _ & _); auto.
  - now apply finit_good.
  - apply Forall_forall. auto.
Qed.

Lemma timed_steps garbage p ep m s evs ext steps duration start ws bs : conf_ok s -> Forall fev_ok evs ->
  mt_args steps duration ->
  let x := frun A EXT evs (finit A garbage p ep m s) in
  let r := s_moveTimed ext steps duration start (mt_state x ws bs) in
  q_ignore (fqueue x) = false -> mt_success (snd (fst r)) ->
  exists new, mt_acc (fst (fst r)) = accepted_cmds x ++ new
    /\ n_steps new = Z.abs steps /\ Forall (fun c => c_up c = (0 <=? steps)) new.
Proof.
  intros Hs He Ha x r Hi Hok. destruct (reach_good garbage p ep m s evs Hs He) as [G1 G2]. fold x in G1, G2.
  destruct (moveTimed_success ext steps duration start (mt_state x ws bs) (conj G1 G2) Hi Ha Hok)
    as (l & new & act & E1 & E2 & E3 & E4 & E5 & E6).
  destruct (plan_ok A steps duration _ l Ha E1).
  exists new. splits; auto.
  - rewrite (woven_steps _ _ _ E3). exact pl_steps.
  - replace (0 <=? steps) with (up_steps steps) by (unfold up_steps; lia).
    apply (woven_up _ _ _ E3). eapply Forall_impl; [|exact pl_typed]. intros a [_ H]. exact H.
Qed.

(** the difference between the commands of moveTimed and all new commands: pauses *)
Lemma timed_duration garbage p ep m s evs ext steps duration start ws bs : conf_ok s -> Forall fev_ok evs ->
  mt_args steps duration -> (duration < 65536 * Z.abs steps -> Z.abs steps <= 255) ->
  let x := frun A EXT evs (finit A garbage p ep m s) in
  let r := s_moveTimed ext steps duration start (mt_state x ws bs) in
  q_ignore (fqueue x) = false -> mt_success (snd (fst r)) ->
  exists new l act, mt_acc (fst (fst r)) = accepted_cmds x ++ new /\ woven (0 <=? steps) new l
    /\ snd r = Some act /\ act = n_ticks l
    /\ act <= duration /\ (duration - Z.abs steps < act \/ steps = 0 /\ act = duration)
    /\ ((forall c, c_up c = (0 <=? steps) -> (steps = 0 -> c_steps c = 0) -> quiet c (fst x) (snd x)) -> new = l).
Proof.
  intros Hs He Ha Hd x r Hi Hok. destruct (reach_good garbage p ep m s evs Hs He) as [G1 G2]. fold x in G1, G2.
  destruct (moveTimed_success ext steps duration start (mt_state x ws bs) (conj G1 G2) Hi Ha Hok)
    as (l & new & act & E1 & E2 & E3 & E4 & E5 & E6).
  destruct (plan_ok A steps duration _ l Ha E1).
  assert (EU : (0 <=? steps) = up_steps steps) by (unfold up_steps; lia). rewrite EU.
  assert (R : 0 <= n_ticks (cmds l)).
  { assert (NN : forall k, Forall (fun c => cmd_ok c /\ c_up c = up_steps steps) k -> 0 <= n_ticks k).
    { clear. induction k as [|y k IH]; intros F; [cbn; lia|]. inversion F as [|? ? [O _] F']; subst.
      rewrite n_ticks_cons. pose proof (cdur_pos y O). specialize (IH F'). lia. }
    apply NN. exact pl_typed. }
  assert (EA : act = n_ticks (cmds l)).
  { rewrite E6, (pl_act E4 Hd). unfold u32. apply Z.mod_small. specialize (pl_le E4). destruct Ha. lia. }
  exists new, (cmds l), act. splits; auto.
  - rewrite EA. auto.
  - rewrite EA. auto.
  - intros Hq. revert E2 Hok. unfold r, s_moveTimed, moveTimed.
    destruct (i_u8 (mt_state x ws bs) (conj G1 G2)) as [Eu _]. rewrite Eu.
    assert (Z0 : (steps =? 0) && (duration =? 0) = false) by (destruct Ha as (_ & _ & H); lia).
    rewrite Z0. cbv zeta. rewrite E1. cbn [fst snd].
    assert (QQ : forall c, In c (cmds l) -> quiet c (fst x) (set_w ws (snd x))).
    { intros c Hc. unfold typed in pl_typed. rewrite Forall_forall in pl_typed. destruct (pl_typed c Hc) as [_ Hu].
      apply Hq; [congruence|]. intros ->.
      assert (NN : forall k, Forall (fun c => cmd_ok c /\ c_up c = up_steps 0) k -> 0 <= n_steps k
              /\ (n_steps k = 0 -> forall y, In y k -> c_steps y = 0)).
      { clear. induction k as [|y k IH]; intros F; [split; [cbn; lia|intros _ y []]|].
        inversion F as [|? ? [[O1 O2] _] F']; subst. destruct (IH F') as [I1 I2]. rewrite n_steps_cons.
        split; [lia|]. intros Z z [<-|Hz]; [lia|]. apply I2; [lia|exact Hz]. }
      rewrite <- Forall_forall in pl_typed. destruct (NN _ pl_typed) as [_ N2]. apply N2; auto. }
    destruct (send_quiet ext start (up_steps steps) l (fst x) (set_w ws (snd x)) bs 0 G1 G2 Hi pl_typed QQ)
      as (l1 & l2 & B1 & B2 & B3).
    pose proof (send_code ext start (up_steps steps) l (mt_state x ws bs) 0 (conj G1 G2) pl_typed) as C.
    unfold mt_state in *. 
    set (w := send mtw (mt_add ext start) l (fst x, set_w ws (snd x), bs) 0) in *. unfold aqe in C.
    destruct (Z.eqb_spec (snd (fst w)) AQE_OK) as [E0|E0].
    + intros E2 _. rewrite (B3 E0), app_nil_r in B1. subst l1. rewrite B2 in E2.
      symmetry. eapply app_inv_head. exact E2.
    + intros _ [K|K]; [contradiction|]. rewrite K in C. unfold MOVE_TIMED_EMPTY in C. lia.
Qed.
End WithArch.

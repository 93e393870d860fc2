(** * DueMove: the commands of a move on the SAM driver *)
From Coq Require Import ZArith Bool List Lia.
From Verif Require Import Base Queue RampCalc RampGen RampRun RampMove RampSafe RampUser RampDir RampOne
  QueueFacts QueueHist Stepper StepperHist FrontHist FrontProp FrontFill FrontTask FrontStart FrontMove FrontPause
  Due DueFacts DueExact DueProp.
Import ListNotations.
Open Scope Z_scope.
Ltac Zify.zify_post_hook ::= idtac.

(** ** Commands in one direction *)
Section Driver.
Variable HCU : bool.
Variable up : bool.
(** the commands given to the driver *)
Definition given_from (l : list command) (evs : list devent) : Prop :=
  Forall (fun e => match e with DBegin c _ => In c l | _ => True end) evs.
(** Interrupts of the port in time, no forced stop; nothing is said about turns ([turn_ok]). *)
Definition calm (e : devent) (s : dst) : Prop := ev_fits e s /\ no_stop e s /\ pio_in_time e s.
(** the queue is empty and stopped, or its last command has the direction [up] *)
Definition lined_up (s : dst) : Prop :=
  d_pc s = None /\ (d_run s = false /\ d_q s = [] \/ d_end s = Bool.eqb up HCU).
(** or the turn is one which the driver can make *)
Definition can_turn (evs : list devent) (s : dst) : Prop := lined_up s \/ d_pc s = None /\ Due.along HCU turn_ok evs s.
Definition no_turn (s : dst) : Prop :=
  match d_pc s with
  | None => d_run s = false /\ d_q s = [] \/ d_end s = Bool.eqb up HCU
  | Some (x, _) => e_tog x = false /\ c_up (e_c x) = up
  end.
Lemma start_same s : d_pc (Due.start s) = d_pc s /\ d_end (Due.start s) = d_end s /\ (d_q s = [] -> Due.start s = s).
Proof.
  unfold Due.start. destruct (d_q s) as [|e q]; [auto|]. destruct ((e_left e >? 0) || has_steps (e_c e)); repeat split; discriminate.
Qed.
Lemma no_turn_step e s : no_turn s -> no_stop e s -> match e with DBegin c _ => c_up c = up | _ => True end ->
  turn_ok e s /\ no_turn (dstep HCU e s).
Proof.
  intros H Hs Hc. split.
  { intros ->. unfold no_turn in H. destruct (d_pc s) as [[x st]|]; [|exact I]. destruct H as [-> _]. discriminate. }
  unfold no_turn in *. destruct e; cbn [dstep].
  - destruct (d_pc s) as [[x st']|] eqn:E; [rewrite E; exact H|]. unfold Due.add_begin, Due.idle.
    destruct (negb (d_run s) && match d_q s with [] => true | _ => false end) eqn:Ei; cbn [d_pc e_tog e_c]; [auto|].
    split; [|exact Hc]. destruct H as [[H1 H2]|H]; [rewrite H1, H2 in Ei; discriminate|].
    rewrite H. unfold level_of. rewrite Hc, Bool.eqb_reflx. reflexivity.
  - unfold Due.add_commit. destruct (d_pc s) as [[x st]|] eqn:E; [|rewrite E; exact H].
    destruct H as [_ H]. destruct (negb (d_run s) && st); cbn [d_pc d_end]; [|right; unfold level_of; now rewrite H].
    match goal with |- context [Due.start ?a] => destruct (start_same a) as (S1 & S2 & _) end. rewrite S1, S2. cbn [d_pc d_end].
    right. unfold level_of. now rewrite H.
  - destruct (d_pc s) as [[x st]|] eqn:E; [rewrite E; exact H|]. unfold Due.add_null. destruct (d_run s) eqn:Er; [rewrite E, Er; exact H|].
    destruct (start_same s) as (S1 & S2 & S3). rewrite S1, E. destruct H as [[_ H]|H]; [left; rewrite (S3 H); auto|right; now rewrite S2].
  - exact H.
  - destruct (h_on (d_h s)); exact H.
  - assert (P : d_pc (pio_isr s) = d_pc s /\ d_end (pio_isr s) = d_end s /\ (d_run s = false -> d_run (pio_isr s) = false /\ d_q (pio_isr s) = d_q s)).
    { unfold pio_isr. destruct (h_edge (d_h s)); [|auto]. destruct (d_run s) eqn:Er; cbn [negb orb].
      - split; [|split; [|discriminate]]; (destruct (d_pause s); [reflexivity|]; destruct (d_q s) as [|y r]; [reflexivity|];
          unfold pio_count, pio_next; destruct (u8 (e_left y - 1) =? 0); [|reflexivity]; destruct r as [|z r]; [reflexivity|];
          destruct ((e_left z =? 0) || negb (has_steps (e_c z))); reflexivity).
      - repeat split. exact Er. }
    destruct P as (P1 & P2 & P3). rewrite P1, P2. destruct (d_pc s); [exact H|]. destruct H as [[H1 H2]|H]; [left|right; exact H].
    destruct (P3 H1) as [-> ->]. auto.
  - assert (P : d_pc (pwm_isr s) = d_pc s /\ d_end (pwm_isr s) = d_end s /\ (d_q s = [] -> d_run (pwm_isr s) = d_run s /\ d_q (pwm_isr s) = [])).
    { unfold pwm_isr. destruct (h_ev (d_h s)); [|auto]. destruct (elapsed (micros (clr_ev (d_h s))) (d_en s) <? 100); [auto|].
      destruct (d_pause s); [|auto]. unfold pwm_next. destruct (d_q s) as [|y [|z r]] eqn:Eq; [auto| |].
      - repeat split; discriminate.
      - destruct (e_left z >? 0); repeat split; discriminate. }
    destruct P as (P1 & P2 & P3). rewrite P1, P2. destruct (d_pc s); [exact H|]. destruct H as [[H1 H2]|H]; [left|right; exact H].
    destruct (P3 H2) as [-> ->]. auto.
  - now contradiction Hs.
  - exact H.
Qed.
Lemma no_turn_run l : Forall (one_way up) l -> forall evs s, no_turn s -> given_from l evs -> Due.along HCU calm evs s ->
  Due.along HCU DueFacts.good evs s.
Proof.
  intros Hl. induction evs as [|e evs IH]; intros s H Hg Ha; [exact I|]. destruct Ha as [(A1 & A2 & A3) A4].
  inversion Hg as [|? ? G1 G2]; subst.
  destruct (no_turn_step e s H A2) as [T1 T2].
  { destruct e; try exact I. rewrite Forall_forall in Hl. exact (Hl _ G1). }
  split; [repeat split; assumption|]. apply IH; assumption.
Qed.
Lemma turn_run : forall evs s, Due.along HCU turn_ok evs s -> Due.along HCU calm evs s -> Due.along HCU DueFacts.good evs s.
Proof.
  induction evs as [|e evs IH]; intros s H Ha; [exact I|]. destruct Ha as [(A1 & A2 & A3) A4]. destruct H as [H1 H2].
  split; [repeat split; assumption|]. apply IH; assumption.
Qed.
Lemma along_both (P : devent -> dst -> Prop) : forall a b s, Due.along HCU P a s -> Due.along HCU P b (drun HCU a s) -> Due.along HCU P (a ++ b) s.
Proof. induction a as [|e a IH]; intros b s H1 H2; [exact H2|]. destruct H1 as [H1 H3]. split; [exact H1|]. apply IH; assumption. Qed.
Lemma commanded_both a b : commanded (a ++ b) = commanded a + commanded b.
Proof. induction a as [|c a IH]; [reflexivity|]. cbn [app commanded fold_right]. fold (commanded (a ++ b)) (commanded a). lia. Qed.
End Driver.

(** Whatever the order of calls, periods and interrupts (those of the port in time): if the driver gets the commands [l] only,
    the pulses are those of the commands, and once [l] has been made the motor has gone [d] steps. *)
Definition due_carried (HCU up : bool) (l : list command) (d : Z) : Prop := forall lev t before evs,
  Due.along HCU DueFacts.good before (dinit lev t) -> let s0 := drun HCU before (dinit lev t) in
  can_turn HCU up evs s0 -> given_from l evs -> Due.along HCU calm evs s0 ->
  let s := drun HCU evs s0 in
  Due.along HCU DueFacts.good (before ++ evs) (dinit lev t)
  /\ (exists left, pulses (h_log (d_h s)) ++ left = pulses (stream HCU (d_acc s)))
  /\ (d_acc s = d_acc s0 ++ l -> d_run s = false -> d_q s = [] ->
      travelled HCU (h_log (d_h s)) = commanded (d_acc s0) + d /\ reading s = commanded (d_acc s0) + d).
Lemma one_way_carried HCU up l d : Forall (one_way up) l -> commanded l = d -> due_carried HCU up l d.
Proof.
  intros Hl Hd lev t before evs Hb s0 HU Hg Hc s.
  assert (G : Due.along HCU DueFacts.good (before ++ evs) (dinit lev t)).
  { apply along_both; [exact Hb|]. destruct HU as [[L1 L2]|[_ HU]]; [|now apply turn_run].
    apply (no_turn_run HCU up l Hl); auto. unfold no_turn. fold s0. rewrite L1. exact L2. }
  assert (E : s = drun HCU (before ++ evs) (dinit lev t)) by (rewrite drun_app; reflexivity).
  destruct (due_pulses HCU lev t _ G) as (left & P1 & P2). rewrite <- E in P1, P2.
  split; [exact G|]. split; [exists left; exact P1|]. intros Ha Hr Hq.
  assert (W : travelled HCU (h_log (d_h s)) = commanded (d_acc s)).
  { rewrite (P2 Hr), Hq in P1. cbn in P1. rewrite app_nil_r in P1. rewrite <- travelled_pulses, P1, travelled_pulses.
    apply travelled_stream. rewrite E. apply (acc_run HCU _ _ [] []); [apply DueFacts.inv_init|exact G|constructor]. }
  unfold reading. rewrite Hq. cbn [fold_right]. rewrite W, Ha, commanded_both, Hd. lia.
Qed.
(** ** Periods *)
(** the steps before a pause take more than 102 microseconds, and the latency [L] *)
Definition slowly (L : Z) (c : command) : Prop := has_steps c = true -> 2142 + L <= c_ticks c.
(** as [calm], handlers within [L] ticks, the queue is started with steps *)
Definition steady (L : Z) (e : devent) (s : dst) : Prop := calm e s /\ prompt L e s /\ start_ok e s /\ DueExact.short e s.
Definition all_slow (L : Z) (s : dst) : Prop :=
  Forall (fun e => slowly L (e_c e)) (d_q s) /\ match d_pc s with Some (x, _) => slowly L (e_c x) | None => True end.
Lemma start_q s : d_q (Due.start s) = d_q s.
Proof.
  unfold Due.start. destruct (d_q s) as [|e q] eqn:E; [exact E|]. destruct ((e_left e >? 0) || has_steps (e_c e)); cbn; auto.
Qed.
Lemma slow_step HCU L e s : all_slow L s -> no_stop e s -> match e with DBegin c _ => slowly L c | _ => True end ->
  slow_ok L e s /\ all_slow L (dstep HCU e s).
Proof.
  intros [H1 H2] Hs Hc. split.
  { intros ->. destruct (d_pc s) as [[x st]|]; [|exact I]. intros _ q y E K. rewrite E in H1. apply Forall_app in H1.
    destruct H1 as [_ H1]. inversion H1; subst. auto. }
  unfold all_slow in *. destruct e; cbn [dstep].
  - destruct (d_pc s) as [[x st']|] eqn:E; [rewrite E; auto|]. unfold Due.add_begin.
    destruct (Due.idle s); cbn [d_pc d_q e_c]; auto.
  - unfold Due.add_commit. destruct (d_pc s) as [[x st]|] eqn:E; [|rewrite E; auto].
    assert (F : Forall (fun e => slowly L (e_c e)) (d_q s ++ [x])) by (apply Forall_app; auto).
    destruct (negb (d_run s) && st); [|cbn [d_pc d_q]; auto].
    match goal with |- context [Due.start ?a] => destruct (start_same a) as (S1 & _); pose proof (start_q a) as S2 end.
    rewrite S1, S2. cbn [d_pc d_q]. auto.
  - destruct (d_pc s) as [[x st]|] eqn:E; [rewrite E; auto|]. unfold Due.add_null. destruct (d_run s) eqn:Er; [rewrite E; auto|].
    destruct (start_same s) as (S1 & _). rewrite S1, E, start_q. auto.
  - auto.
  - destruct (h_on (d_h s)); auto.
  - assert (P : d_pc (pio_isr s) = d_pc s /\ Forall (fun e => slowly L (e_c e)) (d_q (pio_isr s))).
    { unfold pio_isr. destruct (h_edge (d_h s)); [|auto]. destruct (negb (d_run s) || d_pause s); [auto|].
      destruct (d_q s) as [|y r] eqn:Eq; [cbn; rewrite ?Eq; auto|]. inversion H1 as [|? ? Y1 Y2]; subst.
      unfold pio_count, pio_next. destruct (u8 (e_left y - 1) =? 0); [|cbn; auto]. destruct r as [|z r]; [cbn; auto|].
      inversion Y2; subst. destruct ((e_left z =? 0) || negb (has_steps (e_c z))); cbn; auto. }
    destruct P as (-> & P). auto.
  - assert (P : d_pc (pwm_isr s) = d_pc s /\ Forall (fun e => slowly L (e_c e)) (d_q (pwm_isr s))).
    { unfold pwm_isr. destruct (h_ev (d_h s)); [|auto]. destruct (elapsed (micros (clr_ev (d_h s))) (d_en s) <? 100); [auto|].
      destruct (d_pause s); [|auto]. unfold pwm_next. destruct (d_q s) as [|y [|z r]] eqn:Eq; [cbn; rewrite ?Eq; auto| |].
      - cbn. auto.
      - inversion H1 as [|? ? Y1 Y2]; subst. inversion Y2; subst. destruct (e_left z >? 0); cbn; auto. }
    destruct P as (-> & P). auto.
  - now contradiction Hs.
  - auto.
Qed.
Lemma slow_run HCU up L l : Forall (one_way up) l -> Forall (slowly L) l -> forall evs s, no_turn HCU up s -> all_slow L s ->
  given_from l evs -> Due.along HCU (steady L) evs s -> Due.along HCU (timely L) evs s.
Proof.
  intros Hl Hw. induction evs as [|e evs IH]; intros s H Hz Hg Ha; [exact I|].
  destruct Ha as [((A1 & A2 & A3) & B1 & B2 & B3) A4]. inversion Hg as [|? ? G1 G2]; subst.
  destruct (no_turn_step HCU up e s H A2) as [T1 T2].
  { destruct e; try exact I. rewrite Forall_forall in Hl. exact (Hl _ G1). }
  destruct (slow_step HCU L e s Hz A2) as [U1 U2].
  { destruct e; try exact I. rewrite Forall_forall in Hw. exact (Hw _ G1). }
  split; [repeat split; assumption|]. apply IH; assumption.
Qed.
Lemma slow_turn HCU L l : Forall (slowly L) l -> forall evs s, Due.along HCU turn_ok evs s -> all_slow L s ->
  given_from l evs -> Due.along HCU (steady L) evs s -> Due.along HCU (timely L) evs s.
Proof.
  intros Hw. induction evs as [|e evs IH]; intros s T Hz Hg Ha; [exact I|]. destruct T as [T1 T2].
  destruct Ha as [((A1 & A2 & A3) & B1 & B2 & B3) A4]. inversion Hg as [|? ? G1 G2]; subst.
  destruct (slow_step HCU L e s Hz A2) as [U1 U2].
  { destruct e; try exact I. rewrite Forall_forall in Hw. exact (Hw _ G1). }
  split; [repeat split; assumption|]. apply IH; assumption.
Qed.
(** Handlers within 2000 ticks (95 microseconds): the periods of the PWM are those of the commands, a running driver goes on,
    and after the last period the queue is stopped and the motor has gone [d] steps. *)
Definition due_exactly (HCU up : bool) (l : list command) (d : Z) : Prop := forall L lev t before evs, 0 <= L <= 2000 ->
  Due.along HCU (timely L) before (dinit lev t) -> let s0 := drun HCU before (dinit lev t) in
  can_turn HCU up evs s0 -> Forall (fun e => slowly L (e_c e)) (d_q s0) -> given_from l evs -> Due.along HCU (steady L) evs s0 ->
  let s := drun HCU evs s0 in
  Due.along HCU (timely L) (before ++ evs) (dinit lev t)
  /\ (exists left, h_log (d_h s) ++ left = stream HCU (d_acc s))
  /\ (d_run s = true -> length (h_log (d_h (dstep HCU DPeriod s))) = S (length (h_log (d_h s))))
  /\ (d_acc s = d_acc s0 ++ l -> served s -> (length (h_log (d_h s)) >= length (stream HCU (d_acc s)))%nat ->
      d_run s = false /\ d_q s = [] /\ h_log (d_h s) = stream HCU (d_acc s0 ++ l)
      /\ travelled HCU (h_log (d_h s)) = commanded (d_acc s0) + d).
Lemma along_weak HCU (P Q : devent -> dst -> Prop) : (forall e s, P e s -> Q e s) -> forall evs s, Due.along HCU P evs s -> Due.along HCU Q evs s.
Proof. intros H. induction evs as [|e evs IH]; intros s A; [exact I|]. destruct A as [A1 A2]. split; auto. Qed.
Lemma slow_exactly HCU up l d : Forall (one_way up) l -> commanded l = d -> (forall L, L <= 2000 -> Forall (slowly L) l) -> due_exactly HCU up l d.
Proof.
  intros Hl Hd Hw L lev t before evs HL Hb s0 HU Hz Hg Hc s.
  assert (G : Due.along HCU (timely L) (before ++ evs) (dinit lev t)).
  { apply along_both; [exact Hb|].
    assert (Z0 : all_slow L s0). { split; [exact Hz|]. destruct HU as [[L1 _]|[L1 _]]; rewrite L1; exact I. }
    destruct HU as [[L1 L2]|[_ HU]]; [|apply (slow_turn HCU L l (Hw L (proj2 HL))); auto].
    apply (slow_run HCU up L l Hl (Hw L (proj2 HL))); auto. unfold no_turn. fold s0. rewrite L1. exact L2. }
  assert (E : s = drun HCU (before ++ evs) (dinit lev t)) by (rewrite drun_app; reflexivity).
  destruct (due_exact HCU L lev t _ HL G) as (left & X1 & X2). destruct (due_end HCU L lev t _ HL G) as (Y1 & Y2).
  rewrite <- E in X1, X2, Y1, Y2. split; [exact G|]. split; [exists left; exact X1|]. split; [exact Y1|].
  intros Ha Sv Ln. destruct (Y2 Sv Ln) as [R Q].
  assert (Hgood : Due.along HCU DueFacts.good before (dinit lev t)) by (eapply along_weak; [|exact Hb]; intros ? ? K; apply K).
  assert (Hcalm : Due.along HCU calm evs s0) by (eapply along_weak; [|exact Hc]; intros ? ? K; apply K).
  destruct (one_way_carried HCU up l d Hl Hd lev t before evs Hgood HU Hg Hcalm) as (_ & _ & W). fold s0 in W. fold s in W.
  destruct (W Ha R Q) as [W1 _]. split; [exact R|]. split; [exact Q|]. split; [|exact W1].
  rewrite <- Ha, <- X1, (X2 R), Q. cbn. now rewrite app_nil_r.
Qed.
(** ** The commands of a move with the pause of the direction *)
Lemma pauses_one_way up dd : forall cs u, Forall (one_way up) cs -> Forall (one_way up) (with_pauses dd u cs).
Proof.
  induction cs as [|c cs IH]; intros u H; [constructor|]. inversion H as [|? ? H1 H2]; subst. cbn [with_pauses].
  apply Forall_app. split; [|constructor; auto].
  destruct (Bool.eqb u (c_up c)); [constructor|]. destruct (dd =? 0); [constructor|]. destruct (c_steps c =? 0); constructor; [exact H1|constructor].
Qed.
Lemma pauses_commanded up dd : forall cs u, Forall (one_way up) cs -> commanded (with_pauses dd u cs) = sgn up (total_steps cs).
Proof.
  induction cs as [|c cs IH]; intros u H; [destruct up; reflexivity|]. inversion H as [|? ? H1 H2]; subst.
  cbn [with_pauses]. rewrite commanded_both. cbn [commanded fold_right]. fold (commanded (with_pauses dd (c_up c) cs)). rewrite IH by assumption.
  assert (E : commanded (if Bool.eqb u (c_up c) then [] else if dd =? 0 then [] else if c_steps c =? 0 then [] else [mkCommand dd 0 (c_up c)]) = 0).
  { destruct (Bool.eqb u (c_up c)); [reflexivity|]. destruct (dd =? 0); [reflexivity|]. destruct (c_steps c =? 0); [reflexivity|].
    cbn. destruct (c_up c); reflexivity. }
  rewrite E. unfold one_way in H1. rewrite H1. cbn [total_steps]. unfold signed, sgn. destruct up; lia.
Qed.
Lemma pauses_slow L M dd : 2142 + L <= Z.min M 32767 -> forall cs u, Forall (at_least M) cs -> Forall (slowly L) (with_pauses dd u cs).
Proof.
  intros HM. induction cs as [|c cs IH]; intros u H; [constructor|]. inversion H as [|? ? H1 H2]; subst. cbn [with_pauses].
  apply Forall_app. split; [|constructor; auto].
  - destruct (Bool.eqb u (c_up c)); [constructor|]. destruct (dd =? 0); [constructor|]. destruct (c_steps c =? 0); constructor; [|constructor].
    intros K. discriminate K.
  - intros _. unfold at_least in H1. lia.
Qed.
Lemma way_exactly HCU cs dd u d M : 4142 <= M -> total_steps cs = Z.abs d -> Forall (moves_only (0 <? d)) cs -> all_one_way cs ->
  Forall (at_least M) cs -> due_exactly HCU (0 <? d) (with_pauses dd u cs) d.
Proof.
  intros HM Ht Hm Ho Hl. pose proof (Ho _ Hm) as H. apply slow_exactly.
  - apply pauses_one_way; exact H.
  - rewrite (pauses_commanded _ _ _ _ H), Ht. unfold sgn. destruct (Z.ltb_spec 0 d); lia.
  - intros L HL. apply (pauses_slow L M); [lia|exact Hl].
Qed.
Lemma way_carried HCU cs dd u d : total_steps cs = Z.abs d -> Forall (moves_only (0 <? d)) cs -> all_one_way cs ->
  let l := with_pauses dd u cs in Forall (one_way (0 <? d)) l /\ due_carried HCU (0 <? d) l d.
Proof.
  intros Ht Hm Ho l. pose proof (Ho _ Hm) as H. assert (W : Forall (one_way (0 <? d)) l) by (apply pauses_one_way; exact H).
  split; [exact W|]. apply one_way_carried; [exact W|]. unfold l. rewrite (pauses_commanded _ _ _ _ H), Ht. unfold sgn.
  destruct (Z.ltb_spec 0 d); lia.
Qed.

(** ** After any history *)
Section History.
Variable A : arch.
Variable EXT : bool.
Hypothesis HA : In A all_archs.
Hypothesis HS : 4142 <= MIN_CMD_TICKS A.
Lemma moveTo_due garbage p ep m s0 evs a M pos : conf_ok s0 -> Forall fev_ok evs -> -2147483648 <= pos < 2147483648 ->
  let x := frun A EXT evs (finit A garbage p ep m s0) in
  let d := i32 (pos - qe_pos (q_end (fqueue x))) in
  ready_to_move A (fst x) (fqueue x) a M d -> fed (fst x) -> is_external (s_dirpin (fst x)) = false ->
  exists s1 cs, s_moveTo pos (fst x) (fqueue x) = (s1, MOVE_OK) /\
    let l := with_pauses (s_dirdelay s1) (qe_up (q_end (fqueue x))) cs in
    exact_carries A EXT cs (s1, snd x)
    /\ Forall (one_way (0 <? d)) l /\ forall HCU, due_carried HCU (0 <? d) l d /\ due_exactly HCU (0 <? d) l d.
Proof.
  intros Hc He Hp x d Hr Hf Hx. pose proof (proj1 (history_good A EXT HA garbage p ep m s0 evs Hc He)) as Hg. fold x in Hg.
  pose proof Hr as [Hdel Hmax Hout Hdir Hcfg Hsane Hidle Hpause Ha HM Hd Had].
  assert (S0 : ramp_steps A (s_rg (fst x)) = 0) by (unfold ramp_steps; rewrite Hidle; reflexivity).
  assert (OUT : fed (fst x) \/ s_off (fst x) <> 0 /\ q_running (fqueue x) = false /\ n_of (snd x) = 0) by (left; exact Hf).
  destruct (moveTo_soon A false HA (s_rg (fst x)) (q_end (fqueue x)) (fun _ => old_any) a M pos) as
    (g1 & E & n & cs & g' & qe' & R1 & R2 & RN & R3 & R4 & R5 & R6 & R7 & R8); try assumption.
  - intros _. exact Hpause.
  - apply (pos_range A). exact Hg.
  - rewrite S0, Z.add_0_r. exact Hd.
  - rewrite S0, Z.add_0_r. exact Had.
  - fold d in R4, R6. exists (st_rg g1 (fst x)), cs.
    assert (HI : tinv A (q_max (fqueue x)) n cs (st_rg g1 (fst x), snd x)).
    { apply (run_inv A n (fun _ => old_any) g1 cs g' qe' (fst x) (snd x) Hg Hdel R1 R2); [|exact OUT]. eapply cmds_fit; eassumption. }
    assert (OW : all_one_way cs).
    { destruct (moveTo_dir A HA (s_rg (fst x)) (q_end (fqueue x)) (fun _ => old_any) a M Hcfg Hsane Hidle Hpause Ha HM pos g1 MOVE_OK Hp Hd Had E)
        as (n2 & cs2 & g2 & q2 & T1 & T2 & T3). rewrite (run_same A n n2 _ _ _ _ _ _ _ _ _ R1 R2 T1 T2). exact T3. }
    split; [unfold s_moveTo; rewrite E; reflexivity|]. split.
    + eapply inv_exact; eauto.
    + split; [apply (way_carried true); assumption|]. intros HCU. split; [apply way_carried; assumption|].
      apply (way_exactly HCU cs _ _ d M); try assumption. clear - HM HS. lia.
Qed.
Lemma move_due garbage p ep m s0 evs a M delta : conf_ok s0 -> Forall fev_ok evs ->
  -2147483648 <= delta < 2147483648 -> delta <> 0 ->
  let x := frun A EXT evs (finit A garbage p ep m s0) in
  let g := s_rg (fst x) in
  let target := i32 (base_target g (q_end (fqueue x)) + pending_move g + delta) in
  let d := i32 (target - qe_pos (q_end (fqueue x))) in
  ready_to_move A (fst x) (fqueue x) a M d -> (s_dirpin (fst x) = PIN_UNDEFINED -> 0 <= delta) ->
  fed (fst x) -> is_external (s_dirpin (fst x)) = false ->
  exists s1 cs, s_move delta (fst x) = (s1, MOVE_OK) /\
    let l := with_pauses (s_dirdelay s1) (qe_up (q_end (fqueue x))) cs in
    exact_carries A EXT cs (s1, snd x)
    /\ Forall (one_way (0 <? d)) l /\ forall HCU, due_carried HCU (0 <? d) l d /\ due_exactly HCU (0 <? d) l d.
Proof.
  intros Hc He Hp H0 x g target d Hr Hdel0 Hf Hx. pose proof (proj1 (history_good A EXT HA garbage p ep m s0 evs Hc He)) as Hg. fold x in Hg.
  pose proof Hr as [Hdel Hmax Hout Hdir Hcfg Hsane Hidle Hpause Ha HM Hd Had].
  assert (S0 : ramp_steps A (s_rg (fst x)) = 0) by (unfold ramp_steps; rewrite Hidle; reflexivity).
  assert (OUT : fed (fst x) \/ s_off (fst x) <> 0 /\ q_running (fqueue x) = false /\ n_of (snd x) = 0) by (left; exact Hf).
  destruct (move_soon A false HA (s_rg (fst x)) (q_end (fqueue x)) (fun _ => old_any) a M delta) as
    (g1 & E & n & cs & g' & qe' & R1 & R2 & RN & R3 & R4 & R5 & R6 & R7 & R8); try assumption.
  - intros _. exact Hpause.
  - apply (pos_range A). exact Hg.
  - now right.
  - rewrite S0, Z.add_0_r. exact Hd.
  - rewrite S0, Z.add_0_r. exact Had.
  - fold g in R3, R4, R6. fold target in R3, R4, R6. fold d in R4, R6. exists (st_rg g1 (fst x)), cs.
    assert (HI : tinv A (q_max (fqueue x)) n cs (st_rg g1 (fst x), snd x)).
    { apply (run_inv A n (fun _ => old_any) g1 cs g' qe' (fst x) (snd x) Hg Hdel R1 R2); [|exact OUT]. eapply cmds_fit; eassumption. }
    assert (OW : all_one_way cs).
    { destruct (move_dir A HA (s_rg (fst x)) (q_end (fqueue x)) (fun _ => old_any) a M Hcfg Hsane Hidle Hpause Ha HM delta g1 MOVE_OK H0 Hd Had E)
        as (n2 & cs2 & g2 & q2 & T1 & T2 & T3). rewrite (run_same A n n2 _ _ _ _ _ _ _ _ _ R1 R2 T1 T2). exact T3. }
    split.
    { unfold s_move. rewrite E. destruct (Z.ltb_spec delta 0) as [K|K]; [|reflexivity]. cbn [andb].
      destruct (Z.eqb_spec (s_dirpin (fst x)) PIN_UNDEFINED) as [K1|K1]; [|reflexivity]. specialize (Hdel0 K1). lia. }
    split.
    + eapply inv_exact; eauto.
    + split; [apply (way_carried true); assumption|]. intros HCU. split; [apply way_carried; assumption|].
      apply (way_exactly HCU cs _ _ d M); try assumption. clear - HM HS. lia.
Qed.
End History.

(** * DueProp: theorems about the SAM driver *)
From Coq Require Import ZArith Bool List Lia.
From Verif Require Import Base Queue Due DueFacts DueExact.
Import ListNotations.
Open Scope Z_scope.
Ltac Zify.zify_post_hook ::= idtac.
Ltac splits := repeat match goal with |- _ /\ _ => split end.

(** ** Specification *)
(** a pulse moves the motor by one step, up or down *)
Definition move1 (HCU : bool) (x : slot) : Z :=
  match x with Pulse d _ => if Bool.eqb d HCU then 1 else -1 | Gap _ => 0 end.
Definition travelled (HCU : bool) (l : list slot) : Z := fold_right (fun x n => move1 HCU x + n) 0 l.
(** The position read by getCurrentPosition() (see [Queue] for its 16 bit arithmetic): end of the queue
    minus what is left of the entries *)
Definition signed (up : bool) (n : Z) : Z := if up then n else - n.
Definition commanded (l : list command) : Z := fold_right (fun c n => signed (c_up c) (c_steps c) + n) 0 l.
Definition reading (s : dst) : Z :=
  commanded (d_acc s) - fold_right (fun e n => signed (c_up (e_c e)) (e_left e) + n) 0 (d_q s).

Section Facts.
Variable HCU : bool.
Notation travelled := (travelled HCU).
Lemma travelled_cons x l : travelled (x :: l) = move1 HCU x + travelled l.
Proof. reflexivity. Qed.
Lemma travelled_app l l' : travelled (l ++ l') = travelled l + travelled l'.
Proof. induction l as [|x l IH]; [reflexivity|]. cbn [app]. rewrite !travelled_cons. lia. Qed.
Lemma travelled_pulses l : travelled (pulses l) = travelled l.
Proof.
  induction l as [|x l IH]; [reflexivity|]. rewrite travelled_cons, <- IH. destruct x; [reflexivity|].
  change (move1 HCU (Gap t)) with 0. reflexivity.
Qed.
Lemma travelled_repeat d t n : travelled (repeat (Pulse d t) n) = Z.of_nat n * (if Bool.eqb d HCU then 1 else -1).
Proof.
  induction n as [|n IH]; [reflexivity|]. cbn [repeat]. rewrite travelled_cons, IH, Nat2Z.inj_succ.
  change (move1 HCU (Pulse d t)) with (if Bool.eqb d HCU then 1 else -1). destruct (Bool.eqb d HCU); lia.
Qed.
Lemma level_up c : Bool.eqb (level_of HCU c) HCU = c_up c.
Proof. unfold level_of. destruct (c_up c), HCU; reflexivity. Qed.
Lemma travelled_rest1 e : 0 <= e_left e -> travelled (rest1 HCU e) = signed (c_up (e_c e)) (e_left e).
Proof. intros P. unfold rest1. rewrite travelled_repeat, level_up, Z2Nat.id by lia. unfold signed. destruct (c_up (e_c e)); lia. Qed.
Lemma travelled_slots c : 0 <= c_steps c -> travelled (slots HCU c) = signed (c_up c) (c_steps c).
Proof.
  intros P. unfold slots. destruct (Z.eqb_spec (c_steps c) 0) as [E|E].
  - rewrite E. now destruct (c_up c).
  - rewrite travelled_repeat, level_up, Z2Nat.id by lia. unfold signed. destruct (c_up c); lia.
Qed.
Lemma travelled_stream l : Forall (fun c => 0 <= c_steps c) l -> travelled (stream HCU l) = commanded l.
Proof.
  induction 1 as [|c l H _ IH]; [reflexivity|]. change (c :: l) with ([c] ++ l).
  rewrite stream_app, stream_one, travelled_app, travelled_slots, IH by auto. reflexivity.
Qed.
Lemma travelled_rest q : Forall (fun e => 0 <= e_left e) q ->
  travelled (rest HCU q) = fold_right (fun e n => signed (c_up (e_c e)) (e_left e) + n) 0 q.
Proof.
  induction 1 as [|e q H _ IH]; [reflexivity|]. rewrite rest_cons, travelled_app, travelled_rest1, IH by auto. reflexivity.
Qed.

(** ** The commands in the queue *)
Lemma chain_left : forall q d st, chain HCU d st q -> Forall (fun e => 0 <= e_left e) q.
Proof.
  induction q as [|e q IH]; intros d st C; [constructor|]. destruct C as ((C1 & C2) & _ & _ & C3).
  constructor; [destruct C1; lia|]. eapply IH; eauto.
Qed.
Lemma chain_rest : forall q d st, chain HCU d st q -> rest HCU q = pulses (stream HCU (map e_c q)).
Proof.
  induction q as [|e q IH]; intros d st C; [reflexivity|]. destruct C as (C1 & _ & _ & C3).
  change (map e_c (e :: q)) with ([e_c e] ++ map e_c q). rewrite stream_app, stream_one, pulses_app, rest_cons.
  rewrite rest_fresh by auto. now rewrite (IH _ _ C3).
Qed.
Lemma queue_left l0 a0 s : inv HCU l0 a0 s -> Forall (fun e => 0 <= e_left e) (d_q s).
Proof.
  intros [M _ _ _]. destruct (d_run s).
  - destruct M as [M|M].
    + destruct M as (_ & _ & _ & _ & e & r & Q & _ & Lf & _ & _ & _ & C). rewrite Q. constructor; [lia|]. eapply chain_left; eauto.
    + destruct M as (_ & _ & _ & _ & _ & e & r & Q & _ & _ & Lf & _ & C). rewrite Q. constructor; [lia|]. eapply chain_left; eauto.
  - destruct M as (_ & _ & _ & _ & M). destruct (d_q s) as [|e r]; constructor.
    + destruct M as ((F & Lf) & _). destruct F; lia.
    + destruct M as (_ & _ & _ & C). eapply chain_left; eauto.
Qed.
Lemma acc_step e s : ev_fits e s -> pc_ok HCU s \/ d_pc s = None ->
  Forall (fun c => 0 <= c_steps c) (d_acc s) -> Forall (fun c => 0 <= c_steps c) (d_acc (dstep HCU e s)).
Proof.
  intros F P A. destruct e; cbn [dstep]; auto.
  - destruct (d_pc s); auto. unfold add_begin. destruct (idle s); auto.
  - unfold add_commit. destruct (d_pc s) as [[x st]|] eqn:E; auto.
    assert (X : Forall (fun c => 0 <= c_steps c) (d_acc s ++ [e_c x])).
    { apply Forall_app. split; auto. constructor; [|constructor]. destruct P as [P|P]; [|discriminate].
      unfold pc_ok in P. rewrite E in P. destruct P as ((P & _) & _). destruct P; lia. }
    destruct (negb (d_run s) && st); auto. unfold start. cbn.
    destruct (d_q s ++ [x]) as [|y r]; cbn; auto. destruct ((e_left y >? 0) || has_steps (e_c y)); auto.
  - destruct (d_pc s); auto. unfold add_null, start. destruct (d_run s); auto. destruct (d_q s) as [|y r]; auto.
    destruct ((e_left y >? 0) || has_steps (e_c y)); auto.
  - destruct (h_on (d_h s)); auto.
  - unfold pio_isr. destruct (h_edge (d_h s)); auto. destruct (negb (d_run s) || d_pause s); auto.
    destruct (d_q s) as [|y r]; auto. unfold pio_count, pio_next. destruct (u8 (e_left y - 1) =? 0); auto.
    destruct r as [|z r]; auto. destruct ((e_left z =? 0) || negb (has_steps (e_c z))); auto.
  - unfold pwm_isr, pwm_next. destruct (h_ev (d_h s)); auto.
    destruct (elapsed (micros (clr_ev (d_h s))) (d_en s) <? 100); auto. destruct (d_pause s); auto.
    destruct (d_q s) as [|y [|z r]]; auto. destruct (e_left z >? 0); auto.
  - destruct (d_pc s); auto.
Qed.
Lemma acc_run evs : forall s l0 a0, inv HCU l0 a0 s -> along HCU good evs s ->
  Forall (fun c => 0 <= c_steps c) (d_acc s) -> Forall (fun c => 0 <= c_steps c) (d_acc (drun HCU evs s)).
Proof.
  induction evs as [|e t IH]; intros s l0 a0 I G A; [auto|]. destruct G as [G1 G2].
  apply (IH _ l0 a0); auto. { apply dstep_inv; auto. } apply acc_step; auto; [apply G1|]. left. apply I.
Qed.

(** ** The pulses *)
Lemma inv_pulses a0 s : inv HCU [] a0 s -> exists l left, d_acc s = a0 ++ l
  /\ pulses (h_log (d_h s)) ++ left = pulses (stream HCU l)
  /\ (d_run s = false -> left = pulses (stream HCU (map e_c (d_q s)))).
Proof.
  intros [M _ _ (l & La & Lb)]. exists l, (left_over HCU s). splits; auto.
  intros R. rewrite R in M. destruct M as (_ & M2 & _ & _ & M). unfold left_over. rewrite M2.
  destruct (d_q s) as [|e r]; [reflexivity|]. destruct M as (F & _ & _ & C).
  change (map e_c (e :: r)) with ([e_c e] ++ map e_c r). rewrite stream_app, stream_one, pulses_app, rest_cons.
  rewrite rest_fresh by auto. now rewrite (chain_rest _ _ _ C).
Qed.
Theorem due_pulses d t evs : along HCU good evs (dinit d t) ->
  let s := drun HCU evs (dinit d t) in
  exists left, pulses (h_log (d_h s)) ++ left = pulses (stream HCU (d_acc s))
    /\ (d_run s = false -> left = pulses (stream HCU (map e_c (d_q s)))).
Proof.
  intros G s. assert (I : inv HCU [] [] s) by (apply drun_inv; auto; apply inv_init).
  destruct (inv_pulses [] s I) as (l & left & A & B & C). cbn in A. subst l. eauto.
Qed.

(** ** Pulses and pauses *)
Theorem due_exact L d t evs : 0 <= L <= 2000 -> along HCU (timely L) evs (dinit d t) ->
  let s := drun HCU evs (dinit d t) in
  exists left, h_log (d_h s) ++ left = stream HCU (d_acc s)
    /\ (d_run s = false -> left = stream HCU (map e_c (d_q s))).
Proof.
  intros HL G s. assert (I : inv2 HCU L s) by (apply drun2; auto; apply inv2_init).
  exists (left2 HCU s). split; [apply I|]. intros R. destruct I as [I _ _ _ _ _]. destruct I as [M _ _ _].
  rewrite R in M. destruct M as (M1 & M2 & _ & _ & M). unfold left2. rewrite M1, M2.
  destruct (d_q s) as [|e r]; [reflexivity|]. destruct M as (F & _). rewrite app_assoc, fresh_left by auto. reflexivity.
Qed.
(** no interrupt is waiting *)
Definition served (s : dst) : Prop := h_edge (d_h s) = false /\ h_ev (d_h s) && h_ie (d_h s) = false.
Theorem due_end L d t evs : 0 <= L <= 2000 -> along HCU (timely L) evs (dinit d t) ->
  let s := drun HCU evs (dinit d t) in
  (d_run s = true -> length (h_log (d_h (dstep HCU DPeriod s))) = S (length (h_log (d_h s))))
  /\ (served s -> (length (h_log (d_h s)) >= length (stream HCU (d_acc s)))%nat -> d_run s = false /\ d_q s = []).
Proof.
  intros HL G s. assert (I : inv2 HCU L s) by (apply drun2; auto; apply inv2_init).
  pose proof I as [I0 M2 _ _ _ Lg]. pose proof I0 as [M _ _ _]. split.
  - intros R. rewrite R in M. cbn [dstep].
    assert (On : h_on (d_h s) = true /\ h_dis (d_h s) = false) by (destruct M as [M|M]; destruct M as (_ & A & B & _); auto).
    destruct On as [-> Ds]. unfold end_period. cbn. rewrite Ds. cbn. rewrite app_length. cbn. lia.
  - intros [V1 V2] Le. assert (E : left2 HCU s = []).
    { rewrite <- Lg, app_length in Le. destruct (left2 HCU s); [auto|cbn in Le; lia]. }
    unfold left2 in E. destruct (d_run s) eqn:R.
    + exfalso. unfold inv2m in M2. rewrite R in M2. destruct M2 as [_ M2]. destruct M as [M|M].
      * destruct M as (N1 & _ & _ & _ & e & r & Q & _ & Lf & _). rewrite Q, N1, V1, rest1_pos in E by lia. discriminate.
      * destruct M as (N1 & _ & _ & _ & _ & e & r & Q & F & S0 & _). destruct (M2 N1 e r Q) as (x & _ & _ & _ & Ie & Ph).
        rewrite Q, N1 in E. destruct (h_upd (d_h s)).
        { unfold slots in E. rewrite S0 in E. discriminate. }
        destruct Ph as [Ev _]. rewrite Ev, Ie in V2. discriminate.
    + split; [reflexivity|]. destruct M as (N1 & N2 & _ & _ & M). rewrite N1, N2 in E. destruct (d_q s) as [|e r]; [reflexivity|].
      exfalso. destruct M as (F & _). rewrite app_assoc, fresh_left in E by auto. unfold slots in E.
      destruct (Z.eqb_spec (c_steps (e_c e)) 0) as [X|X]; [discriminate|].
      destruct (Z.to_nat (c_steps (e_c e))) eqn:K; [|discriminate]. destruct F as ((F & _) & _). lia.
Qed.

(** ** Nothing moves without a start *)
Definition no_start (e : devent) : Prop := match e with DCommit | DNull => False | _ => True end.
Lemma quiet evs : forall s, d_run s = false -> (h_on (d_h s) = true -> h_dis (d_h s) = true) ->
  (d_q s = [] \/ d_pause s = false) -> Forall no_start evs -> h_log (d_h (drun HCU evs s)) = h_log (d_h s).
Proof.
  induction evs as [|e t IH]; intros s R D Q F; [reflexivity|]. inversion F as [|? ? F1 F2]; subst. cbn [drun].
  assert (X : d_run (dstep HCU e s) = false /\ (h_on (d_h (dstep HCU e s)) = true -> h_dis (d_h (dstep HCU e s)) = true)
    /\ (d_q (dstep HCU e s) = [] \/ d_pause (dstep HCU e s) = false) /\ h_log (d_h (dstep HCU e s)) = h_log (d_h s)).
  { destruct e; cbn [dstep]; try contradiction.
    - destruct (d_pc s); auto. unfold add_begin. destruct (idle s); cbn; auto.
    - cbn. auto.
    - destruct (h_on (d_h s)) eqn:On; [|splits; auto; congruence]. specialize (D eq_refl). unfold end_period. rewrite D. cbn. splits; auto; discriminate.
    - unfold pio_isr. rewrite R. cbn. destruct (h_edge (d_h s)); cbn; auto.
    - unfold pwm_isr. destruct (h_ev (d_h s)); auto.
      destruct (elapsed (micros (clr_ev (d_h s))) (d_en s) <? 100); cbn; auto.
      destruct (d_pause s) eqn:P; cbn; auto. destruct Q as [Q|Q]; [|congruence]. rewrite Q. cbn. rewrite R, Q. auto.
    - destruct (d_pc s); cbn; auto.
    - cbn. auto. }
  destruct X as (X1 & X2 & X3 & X4). rewrite IH; auto.
Qed.
Theorem due_stopped s evs : d_pc s = None -> Forall no_start evs ->
  h_log (d_h (drun HCU evs (dstep HCU DStop s))) = h_log (d_h s).
Proof. intros P F. cbn [dstep]. rewrite P. rewrite quiet; auto; cbn; auto. Qed.
Theorem due_after_stop d t evs evs' :
  along HCU (fun e s => good e s \/ calm_stop e s) evs (dinit d t) ->
  let s := drun HCU evs (dinit d t) in
  calm_stop DStop s ->
  let s1 := dstep HCU DStop s in
  along HCU good evs' s1 ->
  let s2 := drun HCU evs' s1 in
  exists l left, d_acc s2 = d_acc s ++ l
    /\ pulses (h_log (d_h s2)) ++ left = pulses (h_log (d_h s)) ++ pulses (stream HCU l)
    /\ (d_run s2 = false -> left = pulses (stream HCU (map e_c (d_q s2)))).
Proof.
  intros G s C s1 G' s2.
  destruct (drun_stops HCU evs (dinit d t)) as (l0 & a0 & I); [exists [], []; apply inv_init|auto|].
  assert (I2 : inv HCU (pulses (h_log (d_h s))) (d_acc s) s2) by (apply drun_inv; auto; eapply stop_inv; eauto).
  pose proof I2 as [M _ _ (l & La & Lb)]. exists l, (left_over HCU s2). splits; auto.
  intros R. rewrite R in M. destruct M as (_ & M2 & _ & _ & M). unfold left_over. rewrite M2.
  destruct (d_q s2) as [|e r]; [reflexivity|]. destruct M as (F & _ & _ & Cc).
  change (map e_c (e :: r)) with ([e_c e] ++ map e_c r). rewrite stream_app, stream_one, pulses_app, rest_cons.
  rewrite rest_fresh by auto. now rewrite (chain_rest _ _ _ Cc).
Qed.

(** ** The position *)
Theorem due_position d t evs : along HCU good evs (dinit d t) ->
  let s := drun HCU evs (dinit d t) in
  (h_edge (d_h s) = false -> reading s = travelled (h_log (d_h s)))
  /\ Z.abs (reading s - travelled (h_log (d_h s))) <= 1.
Proof.
  intros G s. assert (I : inv HCU [] [] s) by (apply drun_inv; auto; apply inv_init).
  assert (A : Forall (fun c => 0 <= c_steps c) (d_acc s)).
  { apply (acc_run evs _ [] []); auto; [apply inv_init|constructor]. }
  pose proof I as [M _ _ (l & La & Lb)]. cbn in La. subst l. cbn [app] in Lb.
  assert (E : travelled (h_log (d_h s)) + travelled (left_over HCU s) = commanded (d_acc s)).
  { rewrite <- travelled_stream by auto. rewrite <- (travelled_pulses (stream HCU (d_acc s))), <- Lb, travelled_app, travelled_pulses. reflexivity. }
  unfold reading. rewrite <- (travelled_rest (d_q s)) by (eapply queue_left; eauto). unfold left_over in E.
  destruct (h_edge (d_h s)).
  - split; [discriminate|]. assert (X : Z.abs (travelled (rest HCU (d_q s)) - travelled (tl (rest HCU (d_q s)))) <= 1).
    { destruct (rest HCU (d_q s)) as [|x r]; [cbn; lia|]. cbn [tl DueProp.travelled fold_right].
      assert (Y : Z.abs (move1 HCU x) <= 1) by (destruct x as [b|]; cbn; [destruct (Bool.eqb b HCU)|]; lia).
      unfold DueProp.travelled. lia. }
    lia.
  - split; lia.
Qed.

(** ** Two states without end *)
(** handlers within 100 ticks; no interrupt of the PWM unit *)
Definition pio_rounds (n : nat) : list devent := concat (repeat [DPeriod; DWait 100; DPio] n).
Lemma drun_app evs evs' s : drun HCU (evs ++ evs') s = drun HCU evs' (drun HCU evs s).
Proof. revert s. induction evs; intros s; cbn; auto. Qed.
Lemma stuck_gap n : forall s, d_run s = true -> d_pause s = true -> h_on (d_h s) = true -> h_dis (d_h s) = false ->
  h_pwm (d_h s) = false -> h_ie (d_h s) = false -> h_edge (d_h s) = false ->
  let s' := drun HCU (pio_rounds n) s in
  d_run s' = true /\ d_q s' = d_q s /\ pulses (h_log (d_h s')) = pulses (h_log (d_h s)) /\ served s'.
Proof.
  induction n as [|n IH]; intros s R P On Ds Pw Ie Ed s'; [unfold s', served; cbn; rewrite Ie, andb_false_r; auto|].
  set (s1 := drun HCU [DPeriod; DWait 100; DPio] s).
  assert (E : s' = drun HCU (pio_rounds n) s1) by reflexivity.
  assert (X : d_run s1 = true /\ d_pause s1 = true /\ h_on (d_h s1) = true /\ h_dis (d_h s1) = false
    /\ h_pwm (d_h s1) = false /\ h_ie (d_h s1) = false /\ h_edge (d_h s1) = false /\ d_q s1 = d_q s
    /\ pulses (h_log (d_h s1)) = pulses (h_log (d_h s))).
  { unfold s1. cbn [drun dstep]. rewrite On. unfold end_period, with_h, wait, pio_isr. rewrite Ds. cbn.
    rewrite Pw, Ed. cbn. rewrite pulses_app. cbn. rewrite app_nil_r. splits; auto. }
  destruct X as (X1 & X2 & X3 & X4 & X5 & X6 & X7 & X8 & X9). rewrite E.
  destruct (IH s1 X1 X2 X3 X4 X5 X6 X7) as (A & B & C & D). rewrite B, C, X8, X9. auto.
Qed.
Lemma runaway n : forall s, d_run s = true -> d_pause s = true -> h_on (d_h s) = true -> h_dis (d_h s) = false ->
  h_pwm (d_h s) = true -> h_ie (d_h s) = false -> h_edge (d_h s) = false ->
  let s' := drun HCU (pio_rounds n) s in
  d_run s' = true /\ d_q s' = d_q s /\ length (pulses (h_log (d_h s'))) = (n + length (pulses (h_log (d_h s))))%nat
  /\ served s'.
Proof.
  induction n as [|n IH]; intros s R P On Ds Pw Ie Ed s'; [unfold s', served; cbn; rewrite Ie, andb_false_r; auto|].
  set (s1 := drun HCU [DPeriod; DWait 100; DPio] s).
  assert (E : s' = drun HCU (pio_rounds n) s1) by reflexivity.
  assert (X : d_run s1 = true /\ d_pause s1 = true /\ h_on (d_h s1) = true /\ h_dis (d_h s1) = false
    /\ h_pwm (d_h s1) = true /\ h_ie (d_h s1) = false /\ h_edge (d_h s1) = false /\ d_q s1 = d_q s
    /\ length (pulses (h_log (d_h s1))) = S (length (pulses (h_log (d_h s))))).
  { unfold s1. cbn [drun dstep]. rewrite On. unfold end_period, with_h, wait, pio_isr. rewrite Ds. cbn.
    rewrite Pw, Ed. cbn. rewrite P, orb_true_r. cbn. rewrite pulses_app, app_length. cbn. splits; auto. lia. }
  destruct X as (X1 & X2 & X3 & X4 & X5 & X6 & X7 & X8 & X9). rewrite E.
  destruct (IH s1 X1 X2 X3 X4 X5 X6 X7) as (A & B & C & D). rewrite B, C, X8, X9. splits; auto. lia.
Qed.
End Facts.

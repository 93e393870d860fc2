(** * McpwmProp: end of a motion, position, forced stop and the correction for late interrupts *)
From Coq Require Import ZArith Bool List Lia.
From Verif Require Import Base Queue Mcpwm McpwmFacts.
Import ListNotations.
Open Scope Z_scope.
Ltac Zify.zify_post_hook ::= idtac.

Ltac splits := repeat match goal with |- _ /\ _ => split end.

Section Main.
Variable HCU : bool.
Notation level_of := (level_of HCU).
Notation mstep := (mstep HCU).
Notation mrun := (mrun HCU).
Notation in_time := (in_time HCU).
Notation stream := (stream HCU).

Lemma mrun_app a b s : mrun (a ++ b) s = mrun b (mrun a s).
Proof. revert s. induction a as [|e a IH]; intros s; cbn [mrun Mcpwm.mrun app]; [reflexivity|apply IH]. Qed.
Lemma inv_init d : inv HCU [] [] (false, 1) false (minit d).
Proof.
  split; [discriminate|]. split; [constructor|]. exists []. split; [reflexivity|]. left.
  unfold idle. cbn. repeat split; auto.
Qed.

(** ** All commands are in range *)
Definition fits_e (e : me) : Prop := cmd_fits (me_c e).
Definition ev_fits (e : mevent) : Prop := match e with MBegin c _ => cmd_fits c | _ => True end.
Definition all_fit (s : mst) : Prop :=
  Forall cmd_fits (m_acc s) /\ (forall e st, m_pc s = Some (e, st) -> fits_e e).
Lemma next_same k s : m_acc (next k s) = m_acc s /\ m_pc (next k s) = m_pc s /\ m_end (next k s) = m_end s.
Proof. unfold next. destruct (m_q s) as [|? [|? ?]]; auto. Qed.
Lemma fit_step ev s : all_fit s -> ev_fits ev -> all_fit (mstep ev s).
Proof.
  intros [H1 H2] He. destruct ev as [c st| | | | |k|k| ]; cbn [mstep Mcpwm.mstep].
  - destruct (m_pc s) eqn:E; [split; auto; now rewrite E|]. unfold add_begin.
    destruct (is_ready s); [|split; auto; now rewrite E]. destruct (_ && _); split; auto; cbn;
      intros e st' X; injection X as <- <-; exact He.
  - unfold add_commit. destruct (m_pc s) as [[e st]|] eqn:E; [|split; auto; now rewrite E].
    destruct (is_ready s); [|split; [exact H1|discriminate]].
    assert (F : Forall cmd_fits (m_acc s ++ [me_c e])).
    { apply Forall_app. split; [exact H1|]. constructor; [|constructor]. exact (H2 e st eq_refl). }
    destruct (negb (m_run s) && st); [|split; [exact F|discriminate]].
    unfold start. cbn [m_q]. destruct (m_q s ++ [e]); (split; [exact F|discriminate]).
  - destruct (m_pc s) eqn:E; [split; auto; now rewrite E|]. unfold add_null, start.
    destruct (is_ready s && negb (m_run s)); [|split; auto; now rewrite E].
    destruct (m_q s); split; auto; cbn; now rewrite E.
  - split; auto.
  - split; auto.
  - unfold pcnt_isr. destruct (p_ev _); [|split; auto]. unfold all_fit.
    destruct (next_same k (with_h (on_p (fun p => mkPcnt (p_cnt p) (p_lim p) (p_top p) false) (m_h s)) s)) as (-> & -> & _).
    split; auto.
  - unfold mcpwm_isr. destruct (_ && _); [|split; auto]. unfold all_fit. destruct (next_same k s) as (-> & -> & _). split; auto.
  - destruct (m_pc s) eqn:E; [split; auto; now rewrite E|]. split; auto; cbn; now rewrite E.
Qed.
Lemma fit_run evs : forall s, all_fit s -> Forall ev_fits evs -> all_fit (mrun evs s).
Proof.
  induction evs as [|e evs IH]; intros s H He; [exact H|]. inversion He; subst. apply IH; auto. now apply fit_step.
Qed.

(** ** No interrupt is waiting after one *)
Lemma apply0_quiet e h : p_ev (k_p (apply0 e h)) = p_ev (k_p h)
  /\ g_flag (k_g (apply0 e h)) && g_ena (k_g (apply0 e h)) = false.
Proof.
  unfold apply0. cbv zeta. destruct (c_steps (me_c e) =? 0); [auto|]. destruct (p_lim (k_p h) =? c_steps (me_c e)); cbn.
  - split; [reflexivity|]. apply andb_false_r.
  - auto.
Qed.
Lemma prepare_same e h : p_ev (k_p (prepare e h)) = p_ev (k_p h) /\ k_g (prepare e h) = k_g h /\ k_t (prepare e h) = k_t h
  /\ k_log (prepare e h) = k_log h.
Proof. unfold prepare. destruct (c_steps (me_c e) >? 0); auto. Qed.
Lemma next_quiet k s : t_busy (k_t (m_h s)) = true -> p_ev (k_p (m_h s)) = false -> waiting_irq (next k s) = false.
Proof.
  intros B E. unfold next, waiting_irq. destruct (m_q s) as [|e [|e2 q]]; cbn [m_h].
  - cbn. now rewrite E, andb_false_r.
  - cbn. now rewrite E, andb_false_r.
  - set (h := if m_prep s then m_h s else on_p clear (prepare e2 (m_h s))).
    assert (K : calm h).
    { unfold calm, h. destruct (m_prep s); cbn; [rewrite B|destruct (prepare_same e2 (m_h s)) as (_ & _ & -> & _); rewrite B];
      apply andb_false_r. }
    assert (Ev : p_ev (k_p h) = false).
    { unfold h. destruct (m_prep s); [exact E|]. cbn. destruct (prepare_same e2 (m_h s)) as (-> & _). exact E. }
    rewrite (apply_calm k e2 h K). destruct (apply0_quiet e2 h) as [A1 A2]. rewrite Ev in A1.
    destruct q as [|e3 q]; [now rewrite A1, A2|].
    destruct (prepare_same e3 (apply0 e2 h)) as (-> & -> & _). now rewrite A1, A2.
Qed.

(** ** The commands come to an end *)
(** a cycle with the interrupts in time *)
Definition round : list mevent := [MTea; MPcnt 0; MMcpwm 0; MTez].
Definition rounds (n : nat) : list mevent := concat (repeat round n).
Lemma rounds_S n : rounds (S n) = round ++ rounds n.
Proof. reflexivity. Qed.
Lemma rounds_ok n : Forall mev_ok (rounds n).
Proof. induction n as [|n IH]; [constructor|]. rewrite rounds_S. unfold round. cbn [app]. repeat constructor. exact IH. Qed.

Lemma next_log k s : t_busy (k_t (m_h s)) = true ->
  k_log (m_h (next k s)) = k_log (m_h s) /\ t_busy (k_t (m_h (next k s))) = true
  /\ t_on (k_t (m_h (next k s))) = t_on (k_t (m_h s)) /\ m_acc (next k s) = m_acc s
  /\ (m_run (next k s) = false -> m_q (next k s) = [] \/ m_run s = false).
Proof.
  intros B. unfold next. destruct (m_q s) as [|e [|e2 q]]; cbn [m_h m_run m_q m_acc]; [cbn; splits; auto|cbn; splits; auto|].
  set (h := if m_prep s then m_h s else on_p clear (prepare e2 (m_h s))).
  assert (T : k_t h = k_t (m_h s) /\ k_log h = k_log (m_h s)).
  { unfold h. destruct (m_prep s); [auto|]. cbn. destruct (prepare_same e2 (m_h s)) as (_ & _ & -> & ->). auto. }
  destruct T as [T1 T2].
  assert (K : calm h) by (unfold calm; rewrite T1, B; apply andb_false_r).
  rewrite (apply_calm k e2 h K).
  assert (A : k_log (apply0 e2 h) = k_log h /\ k_t (apply0 e2 h) = set_period (c_ticks (me_c e2)) (k_t h)).
  { unfold apply0. cbv zeta. destruct (c_steps (me_c e2) =? 0); [auto|]. destruct (_ =? _); auto. }
  destruct A as [A1 A2].
  destruct q as [|e3 q].
  - rewrite A1, A2, T1, T2. cbn. splits; auto.
  - destruct (prepare_same e3 (apply0 e2 h)) as (_ & _ & -> & ->). rewrite A1, A2, T1, T2. cbn. splits; auto.
Qed.
(** the interrupts of a cycle *)
Definition isrs (s : mst) : mst := mcpwm_isr 0 (pcnt_isr 0 s).
Lemma isrs_quiet s : t_busy (k_t (m_h s)) = true -> waiting_irq (isrs s) = false.
Proof.
  intros B. unfold isrs. unfold pcnt_isr. destruct (p_ev (k_p (m_h s))) eqn:E.
  - set (s1 := next 0 _). assert (W : waiting_irq s1 = false) by (apply next_quiet; [exact B|reflexivity]).
    unfold mcpwm_isr. pose proof W as W'. unfold waiting_irq in W'. apply orb_false_iff in W'. destruct W' as [_ W'].
    rewrite W'. exact W.
  - unfold mcpwm_isr. destruct (g_flag (k_g (m_h s)) && g_ena (k_g (m_h s))) eqn:E2.
    + now apply next_quiet.
    + unfold waiting_irq. now rewrite E, E2.
Qed.
Lemma isrs_log s : t_busy (k_t (m_h s)) = true ->
  k_log (m_h (isrs s)) = k_log (m_h s) /\ t_busy (k_t (m_h (isrs s))) = true
  /\ t_on (k_t (m_h (isrs s))) = t_on (k_t (m_h s)) /\ m_acc (isrs s) = m_acc s
  /\ (m_run (isrs s) = false -> m_q (isrs s) = [] \/ m_run s = false).
Proof.
  intros B. unfold isrs.
  assert (P : k_log (m_h (pcnt_isr 0 s)) = k_log (m_h s) /\ t_busy (k_t (m_h (pcnt_isr 0 s))) = true
    /\ t_on (k_t (m_h (pcnt_isr 0 s))) = t_on (k_t (m_h s)) /\ m_acc (pcnt_isr 0 s) = m_acc s
    /\ (m_run (pcnt_isr 0 s) = false -> m_q (pcnt_isr 0 s) = [] \/ m_run s = false)).
  { unfold pcnt_isr. destruct (p_ev (k_p (m_h s))); [|splits; auto].
    exact (next_log 0 (with_h (on_p (fun p => mkPcnt (p_cnt p) (p_lim p) (p_top p) false) (m_h s)) s) B). }
  destruct P as (P1 & P2 & P3 & P4 & P5). unfold mcpwm_isr. destruct (_ && _); [|splits; auto].
  destruct (next_log 0 (pcnt_isr 0 s) P2) as (N1 & N2 & N3 & N4 & N5). rewrite N1, N3, N4, P1, P3, P4.
  splits; auto. intros H. destruct (N5 H) as [H1|H1]; [now left|].
  destruct (P5 H1) as [H2|H2]; [left|auto]. unfold next. rewrite H2. reflexivity.
Qed.
Lemma round_eq s : mrun round s = with_h (tez (m_h (isrs (with_h (tea (m_h s)) s)))) (isrs (with_h (tea (m_h s)) s)).
Proof. reflexivity. Qed.

Section Epoch.
Variable ACC0 : list command.
Variable BASE : list cycle.
Variable ST0 : bool * Z.
Variable DIRTY : bool.
Notation inv := (inv HCU ACC0 BASE ST0 DIRTY).
Notation good_acc := (good_acc ACC0 ST0).

(** one cycle *)
Lemma round_inv s : inv s -> good_acc s -> t_on (k_t (m_h s)) = true ->
  let s1 := mrun round s in
  inv s1 /\ m_acc s1 = m_acc s /\ t_busy (k_t (m_h s1)) = false
  /\ (t_busy (k_t (m_h s)) = false -> length (k_log (m_h s1)) = S (length (k_log (m_h s))))
  /\ (m_run s = true -> m_run s1 = false -> m_q s1 = []) /\ (m_run s1 = true -> t_on (k_t (m_h s1)) = true)
  /\ (m_run s1 = false -> t_on (k_t (m_h s1)) = false)
  /\ in_time round s.
Proof.
  intros I G O. set (s0 := with_h (tea (m_h s)) s).
  assert (I0 : inv s0) by (apply (mstep_inv HCU ACC0 BASE ST0 DIRTY MTea s I); [exact Logic.I|discriminate|exact G]).
  assert (B0 : t_busy (k_t (m_h s0)) = true /\ t_on (k_t (m_h s0)) = true
     /\ (t_busy (k_t (m_h s)) = false -> length (k_log (m_h s0)) = S (length (k_log (m_h s))))).
  { unfold s0. cbn [with_h m_h]. unfold tea. rewrite O. destruct (t_busy (k_t (m_h s))) eqn:E; cbn [negb andb].
    - splits; auto. discriminate.
    - cbn. splits; auto. intros _. rewrite app_length. cbn. lia. }
  destruct B0 as (B0 & O0 & L0).
  assert (A1 : m_acc (pcnt_isr 0 s0) = m_acc s).
  { unfold pcnt_isr. destruct (p_ev _); [|reflexivity]. now destruct (next_same 0 (with_h (on_p (fun p => mkPcnt (p_cnt p) (p_lim p) (p_top p) false) (m_h s0)) s0)) as (-> & _). }
  assert (I1 : inv (pcnt_isr 0 s0)).
  { apply (mstep_inv HCU ACC0 BASE ST0 DIRTY (MPcnt 0) s0 I0); [exact Logic.I|discriminate|].
    destruct G as (l & G1 & G2). exists l. split; [|exact G2]. exact (eq_trans A1 G1). }
  destruct (isrs_log s0 B0) as (L2 & B2 & O2 & A2 & R2).
  assert (I2 : inv (isrs s0)).
  { apply (mstep_inv HCU ACC0 BASE ST0 DIRTY (MMcpwm 0) (pcnt_isr 0 s0) I1); [exact Logic.I|discriminate|].
    destruct G as (l & G1 & G2). exists l. split; [|exact G2]. exact (eq_trans A2 G1). }
  pose proof (isrs_quiet s0 B0) as W.
  assert (I3 : inv (with_h (tez (m_h (isrs s0))) (isrs s0))).
  { apply (mstep_inv HCU ACC0 BASE ST0 DIRTY MTez (isrs s0) I2); [exact Logic.I|auto|].
    destruct G as (l & G1 & G2). exists l. split; [|exact G2]. exact (eq_trans A2 G1). }
  cbv zeta. rewrite round_eq. fold s0. split; [exact I3|].
  split; [exact A2|]. cbn [with_h m_h m_run m_q].
  assert (TZ : k_log (tez (m_h (isrs s0))) = k_log (m_h (isrs s0)) /\ t_busy (k_t (tez (m_h (isrs s0)))) = false
     /\ t_on (k_t (tez (m_h (isrs s0)))) = t_cont (k_t (m_h (isrs s0)))).
  { unfold tez. rewrite O2, O0, B2. cbn. auto. }
  destruct TZ as (TZ1 & TZ2 & TZ3). rewrite TZ1, TZ2, TZ3, L2.
  split; [reflexivity|]. split; [exact L0|].
  split. { intros R Rn. destruct (R2 Rn) as [H|H]; [exact H|]. change (m_run s0) with (m_run s) in H. congruence. }
  destruct I2 as (_ & _ & done & _ & [H|(e & q & k & H)]).
  - destruct H as (R & C & _). rewrite R, C. splits; auto; try discriminate.
    cbn [round in_time Mcpwm.in_time]. splits; try discriminate; auto.
  - destruct H as (_ & R & _ & C & _). rewrite R, C. splits; auto; try discriminate.
    cbn [round in_time Mcpwm.in_time]. splits; try discriminate; auto.
Qed.
Lemma drain n : forall s, inv s -> good_acc s -> m_run s = true -> t_busy (k_t (m_h s)) = false ->
  t_on (k_t (m_h s)) = true ->
  forall l, m_acc s = ACC0 ++ l -> (length (BASE ++ stream l) - length (k_log (m_h s)) <= n)%nat ->
  exists k, (k <= n)%nat /\ let s1 := mrun (rounds k) s in
    m_run s1 = false /\ m_q s1 = [] /\ t_on (k_t (m_h s1)) = false /\ k_log (m_h s1) = BASE ++ stream l /\ in_time (rounds k) s.
Proof.
  induction n as [|n IH]; intros s I G R B O l El Hn.
  - exfalso. destruct (inv_log HCU ACC0 BASE ST0 DIRTY s I) as (l' & rest & E1 & E2 & _).
    rewrite El in E1. apply app_inv_head in E1. subst l'.
    destruct (round_inv s I G O) as (J & A & _ & L & _). specialize (L B).
    destruct (inv_log HCU ACC0 BASE ST0 DIRTY _ J) as (l' & rest' & E1' & E2' & _).
    rewrite A, El in E1'. apply app_inv_head in E1'. subst l'.
    rewrite <- E2', app_length in Hn. lia.
  - destruct (round_inv s I G O) as (J & A & Bf & L & Q & On & Off & T). specialize (L B).
    set (s1 := mrun round s) in *.
    assert (G1 : good_acc s1).
    { destruct G as (x & X1 & X2). exists x. split; [congruence|exact X2]. }
    assert (El1 : m_acc s1 = ACC0 ++ l) by congruence.
    destruct (inv_log HCU ACC0 BASE ST0 DIRTY _ J) as (l' & rest' & E1' & E2' & E3').
    rewrite El1 in E1'. apply app_inv_head in E1'. subst l'.
    destruct (m_run s1) eqn:R1.
    + destruct (IH s1 J G1 R1 Bf (On eq_refl) l El1) as (k & Hk & D).
      { rewrite L. lia. }
      exists (S k). split; [lia|]. rewrite rounds_S. cbv zeta in *. rewrite mrun_app. fold s1. destruct D as (D1 & D2 & D3 & D4 & D5).
      splits; auto.
      clear - T D5. subst s1. unfold round in *. cbn [app Mcpwm.in_time Mcpwm.mrun] in *. intuition.
    + exists 1%nat. split; [lia|]. cbv zeta. change (rounds 1) with (round ++ []). rewrite app_nil_r. fold s1.
      specialize (Q R eq_refl). specialize (E3' eq_refl). rewrite Q in E3'. cbn in E3'. subst rest'.
      rewrite app_nil_r in E2'. splits; auto.
Qed.
Lemma drain_any s l : inv s -> good_acc s -> m_run s = true -> m_acc s = ACC0 ++ l ->
  exists k, (k <= S (length (BASE ++ stream l) - length (k_log (m_h s))))%nat /\ let s1 := mrun (rounds k) s in
    m_run s1 = false /\ m_q s1 = [] /\ t_on (k_t (m_h s1)) = false /\ k_log (m_h s1) = BASE ++ stream l /\ in_time (rounds k) s.
Proof.
  intros I G R El.
  assert (O : t_on (k_t (m_h s)) = true).
  { destruct I as (_ & _ & done & _ & [H|(e & q & k & H)]); [destruct H as (H & _); congruence|]. now destruct H as (_ & _ & H & _). }
  destruct (t_busy (k_t (m_h s))) eqn:B.
  - destruct (round_inv s I G O) as (J & A & Bf & _ & Q & On & Off & T). set (s1 := mrun round s) in *.
    assert (G1 : good_acc s1).
    { destruct G as (x & X1 & X2). exists x. split; [congruence|exact X2]. }
    assert (El1 : m_acc s1 = ACC0 ++ l) by congruence.
    assert (LL : (length (k_log (m_h s)) <= length (k_log (m_h s1)))%nat).
    { unfold s1. rewrite round_eq. cbn [with_h m_h].
      assert (E : with_h (tea (m_h s)) s = s).
      { rewrite tea_calm; [destruct s; reflexivity|]. unfold calm. rewrite B. apply andb_false_r. }
      rewrite E. destruct (isrs_log s B) as (X1 & X2 & X3 & _). unfold tez. rewrite X3, O, X2. cbn. now rewrite X1. }
    destruct (m_run s1) eqn:R1.
    + destruct (drain (length (BASE ++ stream l) - length (k_log (m_h s1))) s1 J G1 R1 Bf (On eq_refl) l El1 (le_n _)) as (k & Hk & D).
      exists (S k). split; [lia|]. rewrite rounds_S. cbv zeta in *. rewrite mrun_app. fold s1. destruct D as (D1 & D2 & D3 & D4 & D5).
      splits; auto.
      clear - T D5. subst s1. unfold round in *. cbn [app Mcpwm.in_time Mcpwm.mrun] in *. intuition.
    + exists 1%nat. split; [lia|]. cbv zeta. change (rounds 1) with (round ++ []). rewrite app_nil_r. fold s1.
      destruct (inv_log HCU ACC0 BASE ST0 DIRTY _ J) as (l' & rest' & E1' & E2' & E3').
      rewrite El1 in E1'. apply app_inv_head in E1'. subst l'.
      specialize (Q R eq_refl). specialize (E3' R1). rewrite Q in E3'. cbn in E3'. subst rest'.
      rewrite app_nil_r in E2'. splits; auto.
  - destruct (drain (length (BASE ++ stream l) - length (k_log (m_h s))) s I G R B O l El (le_n _)) as (k & Hk & D).
    exists k. split; [lia|exact D].
Qed.
End Epoch.

(** ** Position *)
Definition signed (c : command) : Z := if c_up c then c_steps c else - c_steps c.
Definition total (l : list command) : Z := fold_right (fun c z => signed c + z) 0 l.
(** where the pulses have led to *)
Definition way (y : cycle) : Z := if y_pulse y then if Bool.eqb (y_dir y) HCU then 1 else -1 else 0.
Definition travelled (l : list cycle) : Z := fold_right (fun y z => way y + z) 0 l.
Lemma total_app a b : total (a ++ b) = total a + total b.
Proof. induction a as [|c a IH]; cbn [total fold_right app]; [reflexivity|]. fold (total (a ++ b)) (total a). lia. Qed.
Lemma travelled_app a b : travelled (a ++ b) = travelled a + travelled b.
Proof. induction a as [|c a IH]; cbn [travelled fold_right app]; [reflexivity|]. fold (travelled (a ++ b)) (travelled a). lia. Qed.
Lemma travelled_repeat c k : travelled (repeat (cyc HCU c) k) = Z.of_nat k * (if c_steps c =? 0 then 0 else if c_up c then 1 else -1).
Proof.
  induction k as [|k IH]; [reflexivity|]. cbn [repeat travelled fold_right]. fold (travelled (repeat (cyc HCU c) k)).
  rewrite IH. unfold way, cyc, Mcpwm.level_of. cbn [y_pulse y_dir]. destruct (c_steps c =? 0); cbn [negb]; [lia|].
  destruct (c_up c), HCU; cbn [Bool.eqb]; lia.
Qed.
Lemma travelled_cycles c : cmd_fits c -> travelled (cycles HCU c) = signed c.
Proof.
  unfold cmd_fits. intros F. unfold cycles. rewrite travelled_repeat. unfold ncyc, signed.
  destruct (Z.eqb_spec (c_steps c) 0) as [E|E].
  - rewrite E. destruct (c_up c); reflexivity.
  - rewrite Z2Nat.id by lia. destruct (c_up c); lia.
Qed.
Lemma travelled_stream l : Forall cmd_fits l -> travelled (stream l) = total l.
Proof.
  induction 1 as [|c l H _ IH]; [reflexivity|]. change (stream (c :: l)) with (cycles HCU c ++ stream l).
  rewrite travelled_app, IH, travelled_cycles by exact H. reflexivity.
Qed.
(** getCurrentPosition(), one reading: src/StepperISR.cpp:155-169 and 196-231 as integers (see C17 for
    the 16 bit arithmetic): the start position of the oldest command, plus or minus the pulse counter *)
Definition reading (s : mst) : Z :=
  total (m_acc s) - total (map me_c (m_q s))
  + match m_q s with
    | e :: _ => if c_steps (me_c e) =? 0 then 0 else if c_up (me_c e) then p_cnt (k_p (m_h s)) else - p_cnt (k_p (m_h s))
    | [] => 0
    end.
(** src/StepperISR.cpp:171-186: a second reading, if the counter has been zero; interrupts are served
    in between. *)
Definition position (s s' : mst) : Z := if p_cnt (k_p (m_h s)) =? 0 then reading s' else reading s.

Lemma reading_right s : inv HCU [] [] (false, 1) false s ->
  (waiting_irq s = false \/ p_cnt (k_p (m_h s)) <> 0) -> reading s = travelled (k_log (m_h s)).
Proof.
  intros (_ & F & done & Ea & [H|(e & q & k & H)]) W; cbn [app] in Ea.
  - destruct H as (_ & _ & _ & _ & _ & C & _ & _ & L & _). specialize (C (or_introl eq_refl)).
    unfold reading. rewrite Ea, L, C, total_app. cbn [app]. rewrite Ea in F. apply Forall_app in F. destruct F as [F _].
    rewrite (travelled_stream done F). destruct (m_q s) as [|e q]; [lia|]. destruct (c_steps (me_c e) =? 0); [lia|].
    destruct (c_up (me_c e)); lia.
  - destruct H as (Q & _ & _ & _ & _ & _ & _ & L & _ & _ & _ & K). cbn [app] in L.
    rewrite Q in Ea. cbn [map] in Ea. rewrite Ea in F. pose proof F as F'.
    replace (done ++ me_c e :: map me_c q) with ((done ++ [me_c e]) ++ map me_c q) in F by (now rewrite <- app_assoc).
    apply Forall_app in F. destruct F as [F _].
    assert (T : travelled (k_log (m_h s)) + Z.of_nat k * (if c_steps (me_c e) =? 0 then 0 else if c_up (me_c e) then 1 else -1)
      = total done + signed (me_c e)).
    { rewrite <- travelled_repeat, <- travelled_app, L, (travelled_stream _ F), total_app. cbn [total fold_right]. lia. }
    unfold reading. rewrite Ea, Q, total_app. cbn [map total fold_right]. fold (total (map me_c q)).
    unfold waiting_irq in W. unfold signed in *.
    destruct (Z.eqb_spec (c_steps (me_c e)) 0) as [E|E].
    + rewrite E in *. destruct (c_up (me_c e)); lia.
    + destruct K as (K1 & _ & _ & K4). rewrite K4 in *.
      destruct (Nat.eqb_spec k 0) as [E2|E2]; cbn [p_cnt p_ev] in *.
      * exfalso. destruct W as [W|W]; [discriminate W|now apply W].
      * destruct (c_up (me_c e)); lia.
Qed.

(** ** Forced stop *)
Definition hw_event (e : mevent) : Prop := match e with MTea | MTez | MPcnt _ | MMcpwm _ => True | _ => False end.
(** nothing to do, timer told to stop *)
Definition stopped (n : nat) (s : mst) : Prop :=
  m_q s = [] /\ m_run s = false /\ t_cont (k_t (m_h s)) = false /\ g_ena (k_g (m_h s)) = false
  /\ (length (k_log (m_h s)) + (if t_on (k_t (m_h s)) && negb (t_busy (k_t (m_h s))) then 1 else 0) <= n)%nat.
Lemma stopped_step n e s : stopped n s -> hw_event e -> stopped n (mstep e s).
Proof.
  intros (Q & R & C & G & L) He. destruct e as [c st| | | | |k|k| ]; try contradiction He; cbn [mstep Mcpwm.mstep].
  - unfold stopped, tea. cbn [with_h m_q m_run m_h]. destruct (t_on (k_t (m_h s)) && negb (t_busy (k_t (m_h s)))) eqn:E.
    + cbn. rewrite app_length. cbn [length]. splits; auto. lia.
    + rewrite E. splits; auto.
  - unfold stopped, tez. cbn [with_h m_q m_run m_h]. destruct (t_on (k_t (m_h s)) && t_busy (k_t (m_h s))) eqn:E.
    + cbn. rewrite C. cbn. splits; auto. lia.
    + splits; auto.
  - unfold pcnt_isr. destruct (p_ev (k_p (m_h s))); [|unfold stopped; splits; auto]. unfold next. cbn [with_h m_q]. rewrite Q.
    unfold stopped. cbn. splits; auto.
  - unfold mcpwm_isr. rewrite G, andb_false_r. unfold stopped; splits; auto.
Qed.
Lemma stopped_run n evs : forall s, stopped n s -> Forall hw_event evs -> stopped n (mrun evs s).
Proof.
  induction evs as [|e evs IH]; intros s H F; [exact H|]. inversion F; subst. cbn [mrun Mcpwm.mrun]. apply IH; auto.
  now apply stopped_step.
Qed.
Lemma stop_stopped s : m_pc s = None ->
  stopped (S (length (k_log (m_h s)))) (mstep MStop s).
Proof.
  intros P. cbn [mstep Mcpwm.mstep]. rewrite P. unfold stopped, force_stop. cbn.
  splits; auto. destruct (_ && _); lia.
Qed.
(** the next cycle ends the motion *)
Lemma stopped_rest n s : stopped n s -> let s1 := mrun [MTea; MPcnt 0; MTez] s in
  t_on (k_t (m_h s1)) = false /\ waiting_irq s1 = false.
Proof.
  intros (Q & R & C & G & _). cbv zeta. cbn [mrun Mcpwm.mrun mstep Mcpwm.mstep].
  set (h1 := tea (m_h s)).
  assert (H1 : t_cont (k_t h1) = false /\ g_ena (k_g h1) = false /\ (t_on (k_t h1) = true -> t_busy (k_t h1) = true)).
  { unfold h1, tea. destruct (t_on (k_t (m_h s)) && negb (t_busy (k_t (m_h s)))) eqn:E.
    - cbn. auto.
    - splits; auto. intros X. rewrite X in E. cbn in E. destruct (t_busy (k_t (m_h s))); [reflexivity|discriminate]. }
  destruct H1 as (C1 & G1 & B1). unfold pcnt_isr. cbn [with_h m_h].
  destruct (p_ev (k_p h1)) eqn:E.
  - unfold next. cbn [with_h m_q m_h]. rewrite Q. cbn [with_h m_h]. unfold waiting_irq, tez. cbn.
    destruct (t_on (k_t h1)) eqn:O; [rewrite (B1 eq_refl); cbn|cbn; rewrite O]; rewrite ?andb_false_r; auto.
  - unfold waiting_irq, tez. cbn [with_h m_h]. destruct (t_on (k_t h1)) eqn:O; cbn [andb].
    + rewrite (B1 eq_refl). cbn. rewrite C1, E, G1, andb_false_r. auto.
    + rewrite O, E, G1, andb_false_r. auto.
Qed.
(** a timer that is off is at zero *)
Definition still (h : hw) : Prop := t_on (k_t h) = true \/ t_busy (k_t h) = false.
Lemma still_tea h : still h -> still (tea h).
Proof. unfold still, tea. intros H. destruct (_ && _); cbn; auto. Qed.
Lemma still_at k i h : still h -> still (tea_at k i h).
Proof. unfold tea_at. destruct (Nat.eqb k i); [apply still_tea|auto]. Qed.
Lemma still_apply k e h : still h -> still (apply k e h).
Proof.
  intros H. unfold apply. cbv zeta.
  assert (S1 : still (tea_at k 2 (apply_first k e h))).
  { apply still_at. unfold apply_first. set (h1 := tea_at k 1 _). assert (S1 : still h1) by (apply still_at; exact (still_at k 0 h H)).
    exact S1. }
  set (h2 := tea_at k 2 (apply_first k e h)) in *. destruct (c_steps (me_c e) =? 0).
  - unfold apply_pause. exact (still_at k 4 (on_g clr_flag (tea_at k 3 (on_g (set_high false) h2)))
      (still_at k 3 (on_g (set_high false) h2) S1)).
  - unfold apply_steps. change (still (tea_at k 10 (disable_irq (snd (adjust_limit k (c_steps (me_c e)) h2))
      (tea_at k 9 (fst (adjust_limit k (c_steps (me_c e)) h2)))))).
    apply still_at. assert (S2 : still (fst (adjust_limit k (c_steps (me_c e)) h2))).
    { unfold adjust_limit. destruct (_ =? _); [exact S1|]. unfold second_read, with_val2.
      assert (S3 : still (tea_at k 4 (on_g clr_flag (tea_at k 3 h2)))).
      { apply still_at. exact (still_at k 3 h2 S1). }
      set (h4 := tea_at k 4 _) in *. set (v2 := u16 _). set (v1 := u16 _).
      assert (S4 : still (if v1 =? v2 then h4 else on_g clr_flag h4)) by (destruct (v1 =? v2); exact S3).
      set (h5 := if v1 =? v2 then h4 else on_g clr_flag h4) in *.
      assert (S5 : still (take_over k v2 h5)).
      { unfold take_over. apply still_at. exact (still_at k 6 (on_p (set_lim v2) (tea_at k 5 h5)) (still_at k 5 h5 S4)). }
      unfold check_flag. destruct (_ && _); [|exact S5].
      exact (still_at k 8 (on_p (set_lim (u16 (v2 - 1))) (take_over k v2 h5)) S5). }
    unfold disable_irq. destruct (snd _); exact (still_at k 9 _ S2).
Qed.
Lemma still_prepare e h : still h -> still (prepare e h).
Proof. unfold prepare. destruct (_ >? _); auto. Qed.
Lemma still_next k s : still (m_h s) -> still (m_h (next k s)).
Proof.
  intros H. unfold next. destruct (m_q s) as [|e [|e2 q]]; cbn [m_h]; [exact H..|].
  assert (S1 : still (apply k e2 (if m_prep s then m_h s else on_p clear (prepare e2 (m_h s))))).
  { apply still_apply. destruct (m_prep s); [exact H|]. exact (still_prepare e2 (m_h s) H). }
  destruct q; [exact S1|now apply still_prepare].
Qed.
Lemma still_start s : still (m_h s) -> still (m_h (start s)).
Proof. intros H. unfold start. destruct (m_q s); [exact H|]. unfold still. cbn. auto. Qed.
Lemma still_step e s : still (m_h s) -> still (m_h (mstep e s)).
Proof.
  intros H. destruct e as [c st| | | | |k|k| ]; cbn [mstep Mcpwm.mstep].
  - destruct (m_pc s); [exact H|]. unfold add_begin. destruct (is_ready s); [|exact H]. destruct (_ && _); exact H.
  - unfold add_commit. destruct (m_pc s) as [[e st]|]; [|exact H]. destruct (is_ready s); [|exact H].
    destruct (_ && _); [apply still_start|]; exact H.
  - destruct (m_pc s); [exact H|]. unfold add_null. destruct (_ && _); [apply still_start|]; exact H.
  - now apply still_tea.
  - unfold still, tez. cbn [with_h m_h]. destruct (_ && _); [now right|exact H].
  - unfold pcnt_isr. destruct (p_ev _); [|exact H]. apply still_next. exact H.
  - unfold mcpwm_isr. destruct (_ && _); [|exact H]. apply still_next. exact H.
  - destruct (m_pc s); [exact H|]. exact H.
Qed.
Lemma still_run evs : forall s, still (m_h s) -> still (m_h (mrun evs s)).
Proof. induction evs as [|e evs IH]; intros s H; [exact H|]. cbn [mrun Mcpwm.mrun]. apply IH. now apply still_step. Qed.

(** a new beginning *)
Lemma inv_epoch n s : stopped n s -> m_pc s = None -> Forall cmd_fits (m_acc s) ->
  t_on (k_t (m_h s)) = false -> t_busy (k_t (m_h s)) = false -> waiting_irq s = false ->
  inv HCU (m_acc s) (k_log (m_h s)) (false, p_lim (k_p (m_h s))) true s.
Proof.
  intros (Q & R & C & G & _) P F O B W. split; [rewrite P; discriminate|]. split; [exact F|]. exists [].
  split; [rewrite Q; cbn; now rewrite app_nil_r|]. left.
  unfold waiting_irq in W. apply orb_false_iff in W. destruct W as [W _].
  unfold idle. splits; auto.
  - now rewrite B, O.
  - intros [H|H]; [discriminate H|contradiction].
  - cbn. now rewrite app_nil_r.
  - rewrite Q, P. intros [H|[H|[H|H]]]; [discriminate H|contradiction..].
Qed.

(** forceStop() and one cycle *)
Definition halt : list mevent := [MStop; MTea; MPcnt 0; MTez].
Lemma after_halt evs0 d : Forall ev_fits evs0 -> let s0 := mrun evs0 (minit d) in m_pc s0 = None ->
  let s1 := mrun halt s0 in inv HCU (m_acc s1) (k_log (m_h s1)) (false, p_lim (k_p (m_h s1))) true s1.
Proof.
  intros F s0 P s1.
  assert (A : all_fit s1).
  { apply fit_run; [|unfold halt; repeat constructor]. apply fit_run; [|exact F]. split; [constructor|discriminate]. }
  pose proof (stop_stopped s0 P) as S0. set (sA := mstep MStop s0) in *.
  assert (E1 : s1 = mrun [MTea; MPcnt 0; MTez] sA) by reflexivity.
  destruct (stopped_rest _ sA S0) as [O W]. cbv zeta in O, W. rewrite <- E1 in O, W.
  assert (S1 : stopped (S (length (k_log (m_h s0)))) s1).
  { rewrite E1. apply stopped_run; [exact S0|]. repeat constructor. }
  assert (St : still (m_h s1)). { apply still_run. apply still_run. now right. }
  apply (inv_epoch _ s1 S1); auto.
  - rewrite E1. cbn [mrun Mcpwm.mrun mstep Mcpwm.mstep]. unfold pcnt_isr.
    assert (PA : m_pc sA = None) by (unfold sA; cbn [mstep Mcpwm.mstep]; rewrite P; exact P).
    destruct (p_ev _); [|exact PA]. cbn [with_h m_pc].
    match goal with |- m_pc (next ?k ?x) = None => destruct (next_same k x) as (_ & -> & _) end. exact PA.
  - apply A.
  - destruct St as [St|St]; [congruence|exact St].
Qed.

(** ** The correction for late interrupts *)
(** apply_command() without lines 158-231 *)
Definition apply_plain (k : nat) (e : me) (h : hw) : hw :=
  let h := tea_at k 2 (apply_first k e h) in
  if c_steps (me_c e) =? 0 then apply_pause k h else apply_steps k (h, true).
Definition next_plain (k : nat) (s : mst) : mst :=
  match m_q s with
  | _ :: e :: q =>
    let h := if m_prep s then m_h s else on_p clear (prepare e (m_h s)) in
    let h := apply_plain k e h in
    mkM (match q with e2 :: _ => prepare e2 h | [] => h end) (e :: q) (m_run s)
      (match q with _ :: _ => true | [] => false end) (m_end s) (m_pc s) (m_acc s)
  | _ => mkM (stop_hw (m_h s)) [] false false (m_end s) (m_pc s) (m_acc s)
  end.
Definition prepared (s : mst) : Prop :=
  m_prep s = true ->
  match m_q s with _ :: e :: _ => c_steps (me_c e) <> 0 -> p_lim (k_p (m_h s)) = c_steps (me_c e) | _ => False end.
Lemma tea_lim h : p_lim (k_p (tea h)) = p_lim (k_p h).
Proof.
  unfold tea. destruct (_ && _); [|reflexivity]. cbn. destruct (g_high _); [|reflexivity]. unfold count.
  destruct (_ =? _); reflexivity.
Qed.
Lemma tea_at_lim k i h : p_lim (k_p (tea_at k i h)) = p_lim (k_p h).
Proof. unfold tea_at. destruct (Nat.eqb k i); [apply tea_lim|reflexivity]. Qed.
Lemma apply_is_plain k e h : (c_steps (me_c e) <> 0 -> p_lim (k_p h) = c_steps (me_c e)) -> apply k e h = apply_plain k e h.
Proof.
  intros H. unfold apply, apply_plain. cbv zeta. destruct (Z.eqb_spec (c_steps (me_c e)) 0) as [E|E]; [reflexivity|].
  unfold adjust_limit. rewrite tea_at_lim. unfold apply_first. cbn [on_t k_p]. rewrite tea_at_lim. cbn [on_dir k_p].
  rewrite tea_at_lim. rewrite (H E), Z.eqb_refl. reflexivity.
Qed.
Lemma tez_p h : k_p (tez h) = k_p h.
Proof. unfold tez. destruct (_ && _); reflexivity. Qed.
Definition fit_q (s : mst) : Prop := Forall fits_e (m_q s).
Lemma next_prepared k s : fit_q s -> fit_q (next k s) /\ prepared (next k s).
Proof.
  unfold fit_q, prepared, next. intros F. destruct (m_q s) as [|e [|e2 q]] eqn:Q; cbn [m_prep m_q m_h]; [split; [auto|discriminate]..|].
  inversion F as [|? ? _ F1]. split; [exact F1|]. inversion F1 as [|? ? _ F2].
  destruct q as [|e3 q]; [discriminate|]. intros _ E. unfold prepare. inversion F2 as [|? ? X _]. unfold fits_e, cmd_fits in X.
  destruct (Z.gtb_spec (c_steps (me_c e3)) 0); [reflexivity|lia].
Qed.
Lemma next_is_plain k s : prepared s -> fit_q s -> next k s = next_plain k s.
Proof.
  intros P F. unfold next, next_plain. unfold prepared in P. unfold fit_q in F. destruct (m_q s) as [|e [|e2 q]]; [reflexivity..|].
  cbv zeta. rewrite apply_is_plain; [reflexivity|]. intros E. 
  destruct (m_prep s); [now apply P|]. cbn. unfold prepare. inversion F as [|? ? _ F1]. inversion F1 as [|? ? X _].
  unfold fits_e, cmd_fits in X. destruct (Z.gtb_spec (c_steps (me_c e2)) 0); [reflexivity|lia].
Qed.
(** the history with interrupts that do not correct anything *)
Definition mstep_plain (e : mevent) (s : mst) : mst :=
  match e with
  | MPcnt k =>
    if p_ev (k_p (m_h s))
    then next_plain k (with_h (on_p (fun p => mkPcnt (p_cnt p) (p_lim p) (p_top p) false) (m_h s)) s) else s
  | MMcpwm k => if g_flag (k_g (m_h s)) && g_ena (k_g (m_h s)) then next_plain k s else s
  | _ => mstep e s
  end.
Fixpoint mrun_plain (evs : list mevent) (s : mst) : mst :=
  match evs with [] => s | e :: t => mrun_plain t (mstep_plain e s) end.
Definition no_stop (e : mevent) : Prop := match e with MStop => False | _ => True end.
Lemma plain_step e s : all_fit s -> fit_q s -> prepared s -> ev_fits e -> no_stop e ->
  mstep e s = mstep_plain e s /\ fit_q (mstep e s) /\ prepared (mstep e s).
Proof.
  intros [_ A] F P He Hn. destruct e as [c st| | | | |k|k| ]; try contradiction Hn; cbn [mstep Mcpwm.mstep mstep_plain].
  - split; [reflexivity|]. destruct (m_pc s); [auto|]. unfold add_begin. destruct (is_ready s); [|auto].
    destruct (_ && _); auto.
  - split; [reflexivity|]. unfold add_commit. destruct (m_pc s) as [[e st]|]; [|auto].
    destruct (is_ready s); [|auto].
    assert (F1 : Forall fits_e (m_q s ++ [e])).
    { apply Forall_app. split; [exact F|]. constructor; [|constructor]. exact (A e st eq_refl). }
    destruct (negb (m_run s) && st).
    + unfold start. cbn [m_q]. destruct (m_q s ++ [e]) eqn:Q.
      * exfalso. destruct (m_q s); discriminate Q.
      * split; [exact F1|unfold prepared; cbn; discriminate].
    + split; [exact F1|]. unfold prepared in *. cbn [m_prep m_q m_h]. intros X. specialize (P X).
      destruct (m_q s) as [|e0 [|e1 q]]; [contradiction..|exact P].
  - split; [reflexivity|]. destruct (m_pc s); [auto|]. unfold add_null, start. destruct (is_ready s && negb (m_run s)); [|auto].
    unfold fit_q, prepared in *. destruct (m_q s) eqn:Q; [now rewrite Q|]. split; [exact F|]. cbn. discriminate.
  - split; [reflexivity|]. split; [exact F|]. unfold prepared in *. cbn [with_h m_prep m_q m_h]. rewrite tea_lim. exact P.
  - split; [reflexivity|]. split; [exact F|]. unfold prepared in *. cbn [with_h m_prep m_q m_h]. rewrite tez_p. exact P.
  - unfold pcnt_isr. destruct (p_ev (k_p (m_h s))); [|auto]. split; [apply next_is_plain; [exact P|exact F]|].
    apply next_prepared. exact F.
  - unfold mcpwm_isr. destruct (_ && _); [|auto]. split; [now apply next_is_plain|]. now apply next_prepared.
Qed.
Lemma plain_run evs : forall s, all_fit s -> fit_q s -> prepared s -> Forall ev_fits evs -> Forall no_stop evs ->
  mrun evs s = mrun_plain evs s.
Proof.
  induction evs as [|e evs IH]; intros s A F P He Hn; [reflexivity|]. inversion He; subst. inversion Hn; subst.
  destruct (plain_step e s A F P H1 H3) as (E & F' & P'). cbn [mrun Mcpwm.mrun mrun_plain]. rewrite <- E.
  apply IH; auto. now apply fit_step.
Qed.
Lemma plain_init evs d : Forall ev_fits evs -> Forall no_stop evs -> mrun evs (minit d) = mrun_plain evs (minit d).
Proof. intros. apply plain_run; auto; try constructor; cbn; try constructor; discriminate. Qed.
End Main.

(** ** The correction itself *)
(** cycles until the pulse counter reaches its limit *)
Definition togo (h : hw) : Z := p_top (k_p h) - p_cnt (k_p h).
(** a TEA comes in; point 8 is only reached if it came before *)
Definition came (k : nat) : bool := Nat.leb k 10 && negb (Nat.eqb k 8).
Ltac win :=
  repeat progress (unfold second_read, with_val2, take_over, check_flag, disable_irq, apply_steps, apply_first, tea, count, togo; cbn -[u16 Z.add Z.sub Z.eqb Z.gtb app];
    repeat match goal with H : ?a = ?b |- context [?a] =>
      match type of a with bool => rewrite H | Z => match a with u16 _ => rewrite H end end end; rewrite ?Z.eqb_refl);
  repeat split; lia.
Lemma window k e h : t_on (k_t h) = true -> t_busy (k_t h) = false -> g_high (k_g h) = true ->
  let n := c_steps (me_c e) in let c := p_cnt (k_p h) in
  2 <= n - c -> n <= 255 -> 0 <= c -> c + 1 < p_top (k_p h) -> p_lim (k_p h) <> n ->
  let h' := apply k e h in
  togo h' = n - c - (if came k then 1 else 0) /\ p_ev (k_p h') = p_ev (k_p h)
  /\ g_high (k_g h') = true /\ g_ena (k_g h') = false /\ t_busy (k_t h') = came k.
Proof.
  destruct h as [[on cont busy act per] [hi fl en] [cn li to ev] di lo]. cbn [k_t k_g k_p t_on t_busy g_high p_cnt p_top p_lim p_ev].
  cbv zeta. intros -> -> -> H1 H2 H3 H4 H5.
  assert (L : li =? c_steps (me_c e) = false) by (now apply Z.eqb_neq).
  assert (N : c_steps (me_c e) =? 0 = false) by (apply Z.eqb_neq; lia).
  assert (C1 : cn + 1 =? to = false) by (apply Z.eqb_neq; lia).
  assert (C2 : u16 (cn + 1) = cn + 1) by (apply u16_id; lia).
  assert (C3 : u16 (c_steps (me_c e) - cn) = c_steps (me_c e) - cn) by (apply u16_id; lia).
  assert (C4 : u16 (c_steps (me_c e) - (cn + 1)) = c_steps (me_c e) - cn - 1) by (rewrite u16_id; lia).
  assert (C5 : u16 (c_steps (me_c e) - cn - 1) = c_steps (me_c e) - cn - 1) by (rewrite u16_id; lia).
  assert (C6 : c_steps (me_c e) - cn =? c_steps (me_c e) - cn - 1 = false) by (apply Z.eqb_neq; lia).
  assert (C7 : 0 + 1 =? c_steps (me_c e) - cn = false) by (apply Z.eqb_neq; lia).
  assert (C8 : u16 (0 + 1) = 1) by reflexivity.
  assert (C9 : c_steps (me_c e) - cn >? 0 = true) by (destruct (Z.gtb_spec (c_steps (me_c e) - cn) 0); [reflexivity|lia]).
  assert (C11 : 1 =? 0 = false) by reflexivity.
  assert (C10 : cn + 1 =? 0 = false) by (apply Z.eqb_neq; lia).
  cbv zeta. unfold apply. rewrite N. unfold adjust_limit. 
  do 11 (destruct k as [|k]; [solve [win]|]). win.
Qed.

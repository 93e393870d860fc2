(** * RmtV4Count: the steps sent and the end of a transmission, ESP-IDF 4 RMT driver *)
From Coq Require Import ZArith Bool List Lia ZifyBool.
From Verif Require Import Base Queue QueueFacts QueuePos QueueHist Rmt RmtFacts RmtHist RmtCount
  RmtV4 RmtV4Facts RmtV4Hist.
Import ListNotations.
Open Scope Z_scope.
Ltac Zify.zify_post_hook ::= idtac.

Definition sum_chunks (l : list chunk) : Z := fold_right Z.add 0 (map xedges l).
Lemma sum_chunks_snoc l c : sum_chunks (l ++ [c]) = sum_chunks l + xedges c.
Proof. unfold sum_chunks. induction l; cbn [app map fold_right] in *; lia. Qed.
(** steps in the part that is sent next *)
Definition waiting (s : vst) : Z :=
  match v_hw s with
  | One => bedges (w_two (v_w s))
  | Two => if w_conti (v_w s) then bedges (w_one (v_w s)) else 0
  | _ => 0
  end.

Section Count.
Variable N : bool.
Variable A : arch.
Hypothesis HA : In A all_archs.
Variable EXT : bool.
Notation L := (QUEUE_LEN A).
Notation P := (psize N).
Notation apply4 := (apply4 N A).
Notation vstep := (vstep N A EXT).
Notation vrun := (vrun N A EXT).

Definition cmd_fits4 (c : command) : Prop :=
  accepted (c_steps c) (c_ticks c) /\ spread4 N (c_steps c) (c_ticks c).
Definition vev_fits (ev : vevent) : Prop :=
  match ev with
  | VBegin c _ => cmd_fits4 c
  | VSetDir pin _ => own_pin pin
  | VStop | VStopA | VStopB => False
  | _ => True
  end.
Definition ent_fits4 (e : entry) : Prop :=
  e_repeat e = false /\ 80 <= e_ticks e < 65536 /\ (0 < e_steps e -> fits4 N (e_steps e) (e_ticks e)).

Record kinv (s : vst) : Prop := mkKinv {
  ki_v : vinv N A s;
  ki_pin : own_pin (q_pin (v_q s));
  ki_fit : Forall ent_fits4 (pend A (v_q s));
  ki_prep : match v_pc s with
            | Prepared c _ _ => ent_fits4 (q_ent (v_q s) (slot A (q_wr (v_q s))))
            | _ => True
            end;
  ki_sum : sum_chunks (v_log s) + waiting s + sum_left (pend A (v_q s)) = sum_steps (v_acc s)
}.

Lemma fits4_ok ev : vev_fits ev -> vev_ok ev.
Proof. destruct ev; cbn; auto. intros ((H1 & H2 & _) & _). split; lia. Qed.
Lemma new_fits4 c q : cmd_fits4 c -> own_pin (q_pin q) -> ent_fits4 (new_entry A EXT c q).
Proof.
  intros Hc Hp. pose proof Hc as ((H1 & H2 & H3) & H4).
  unfold ent_fits4, new_entry. cbn [e_repeat e_ticks e_steps]. split; [|split; [assumption|]].
  - unfold to_repeat. destruct Hp as [Hp|Hp].
    + unfold dir_differs. rewrite Hp, Z.eqb_refl. cbn [negb andb]. now rewrite andb_false_r.
    + rewrite Hp. apply andb_false_r.
  - intros Hs. apply accepted_fits4; [exact (proj1 Hc)|assumption|assumption].
Qed.

Lemma part4_edges two s t old : 0 <= s < 256 -> 80 <= t < 65536 -> (s = 0 -> 200 <= t) ->
  (0 < s -> fits4 N s t) -> Z.of_nat (length old) = P ->
  let x := v4_part N two s t in
  rises false (halves (over (fst x) old)) = s - snd x /\ (0 < snd x -> fits4 N (snd x) t) /\ 0 <= snd x.
Proof.
  intros Hs Ht Hz Hf Ho. unfold v4_part. destruct (Z.eqb_spec s 0) as [->|Hs0]; cbn [fst snd].
  - destruct (pause4_good N two t ltac:(lia)) as (G1 & G2 & G3 & G4).
    rewrite (over_full N) by assumption. rewrite lows_rises by assumption. lia.
  - pose proof (steps4_good N two s t ltac:(lia) Ht (Hf ltac:(lia))) as G.
    pose proof (good4_rises _ _ _ _ _ G) as R. destruct G as (G1 & G2 & G3 & G4 & G5 & _).
    rewrite (over_full N) by assumption. split; [exact R|]. split; [|assumption].
    intros K. destruct G5 as [?|[G5 _]]; [lia|exact G5].
Qed.

(** what apply_command() does to the sums *)
Lemma apply_counts two w w1 : wok N A w -> applied N A two w w1 -> Forall ent_fits4 (pend A (wq w)) ->
  Forall ent_fits4 (pend A (wq w1))
  /\ bedges (part_of two w1) + sum_left (pend A (wq w1)) = sum_left (pend A (wq w)).
Proof.
  intros Hw [] Hf. destruct ap_case as [(-> & E & _)|(e & t & E1 & E2 & E3 & E4 & E5 & E6)].
  { split; [assumption|lia]. }
  pose proof (wk_part N A w two Hw) as Hl.
  pose proof (wk_ent _ _ _ Hw) as He. rewrite E1 in *.
  destruct (Forall_inv He) as [[He1 He2] He3]. destruct (Forall_inv Hf) as (F1 & F2 & F3).
  pose proof (part4_edges two _ _ _ He2 F2 He3 F3 Hl) as (X1 & X2 & X3).
  unfold bedges. rewrite E5, X1, E6, F1.
  set (x := snd (v4_part N two (e_steps e) (e_ticks e))) in *. clearbody x.
  pose proof (Forall_inv_tail Hf) as Ht.
  destruct (Z.eqb_spec x 0) as [Hx|Hx].
  - split; [assumption|]. unfold sum_left. cbn [map fold_right]. lia.
  - split.
    + constructor; [|assumption]. split; [exact F1|]. split; [exact F2|].
      cbn [with_steps untoggle e_steps e_ticks]. auto.
    + unfold sum_left. cbn [map fold_right with_steps untoggle e_steps]. lia.
Qed.

Lemma kinv_start s : kinv s -> (forall c ne st, v_pc s <> Prepared c ne st) -> q_running (v_q s) = false ->
  vinv N A (start_v N A s) -> kinv (start_v N A s).
Proof.
  intros [] Hpc Hr. unfold start_v. pose proof (vi_w _ _ _ ki_v0) as W.
  assert (Hoff : waiting s = 0).
  { unfold waiting. destruct (v_hw s) eqn:E; auto; exfalso;
      pose proof (vi_run _ _ _ ki_v0) as K; rewrite E in K; specialize (K ltac:(discriminate)); congruence. }
  destruct (nonempty (v_q s)) eqn:En.
  2:{ rewrite (start_empty N A) by assumption. cbn [fst snd].
      set (w0 := with_r (stopped false (mkrun true (w_r (v_w s)))) (v_w s)).
      destruct (pattern_r N w0) as [P1 P2]. intros V.
      constructor; unfold v_q; cbn [v_w v_pc v_hw v_log v_acc]; rewrite ?P1; auto.
      unfold waiting. cbn [v_hw]. rewrite Hoff in ki_sum0. exact ki_sum0. }
  destruct (start_spec N A HA (v_w s) W En) as (w1 & w2 & w3 & E & A1 & A2 & Hw1 & _ & _ & Pn & _ & (e & t & X1 & X2) & _ & E3).
  rewrite E. cbn [fst snd]. intros V.
  assert (F1 : Forall ent_fits4 (pend A (wq w1))).
  { change (v_q s) with (wq (v_w s)) in ki_fit0. rewrite X1 in ki_fit0. rewrite X2.
    constructor; [exact (Forall_inv ki_fit0)|exact (Forall_inv_tail ki_fit0)]. }
  assert (S1 : sum_left (pend A (wq w1)) = sum_left (pend A (v_q s))).
  { change (v_q s) with (wq (v_w s)). rewrite X1, X2. reflexivity. }
  destruct (apply_counts _ _ _ Hw1 A1 F1) as [F2 S2].
  destruct (apply_counts _ _ _ (ap_wok _ _ _ _ _ A1) A2 F2) as [F3 S3].
  pose proof (ap_other _ _ _ _ _ A2) as O. cbn [negb part_of] in O, S2, S3.
  assert (Q3 : wq w3 = wq (apply4 true w2)) by (rewrite E3; unfold wq; destruct N; reflexivity).
  constructor; unfold v_q; cbn [v_w v_pc v_hw v_log v_acc]; fold (wq w3); rewrite ?Q3; auto.
  - rewrite (ap_pin _ _ _ _ _ A2), (ap_pin _ _ _ _ _ A1), Pn. exact ki_pin0.
  - rewrite sum_chunks_snoc. unfold waiting. cbn [v_hw v_w].
    assert (Xe : xedges (chunk_of false w3 w3) = bedges (w_one w2)).
    { unfold xedges, chunk_of. cbn [x_words part_of]. rewrite E3. cbn [w_one]. rewrite O. reflexivity. }
    rewrite Xe, E3. cbn [w_two]. lia.
Qed.

Lemma kinv_sent s : kinv s -> kinv (vstep VSent s).
Proof.
  intros H. pose proof (vinv_step N A HA EXT s VSent (ki_v _ H) I) as V. destruct H.
  pose proof (vi_w _ _ _ ki_v0) as W. pose proof (vi_prep _ _ _ ki_v0) as Hprep.
  pose proof (vi_run _ _ _ ki_v0) as Hrun. pose proof (vi_stop _ _ _ ki_v0) as Hstop.
  pose proof (vi_conti _ _ _ ki_v0) as Hconti. pose proof (vi_old _ _ _ ki_v0) as Hold.
  revert V. cbn [RmtV4.vstep]. unfold sent. unfold waiting in ki_sum0.
  assert (H0 : v_hw s <> Off -> w_conti (v_w s) = false -> pend A (v_q s) = []) by auto.
  destruct (v_hw s) eqn:Ehw; intros V.
  - constructor; auto. unfold waiting. rewrite Ehw. exact ki_sum0.
  - assert (X : forall w1, xedges (chunk_of true (v_w s) w1) = bedges (w_two (v_w s))) by reflexivity.
    revert V. destruct (negb N && r_stopped (w_r (v_w s))) eqn:Es; intros V.
    + apply andb_true_iff in Es. destruct Es as [Es1 Es2]. apply negb_true_iff in Es1.
      specialize (Hold ltac:(discriminate) Es1). rewrite Es2 in Hold.
      constructor; unfold v_q; cbn [v_w v_pc v_hw v_log v_acc]; auto.
      rewrite sum_chunks_snoc, X. unfold waiting. cbn [v_hw v_w]. rewrite Hold. fold (v_q s). cbn [negb]. lia.
    + pose proof (apply_spec N A HA false (v_w s) W) as A1.
      destruct (apply_counts _ _ _ W A1 ki_fit0) as [F2 S2]. cbn [part_of] in S2.
      pose proof A1 as [B1 B2 B3 B4 B5 B6 B7 B8 B9 B10 B11 B12].
      assert (C1 : w_conti (apply4 false (v_w s)) = w_conti (v_w s))
        by (destruct B10 as [(? & _)|(? & _)]; [auto|discriminate]).
      assert (Z0 : w_conti (v_w s) = false -> bedges (w_one (apply4 false (v_w s))) = 0).
      { intros K. specialize (H0 ltac:(discriminate) K). change (v_q s) with (wq (v_w s)) in H0.
        destruct B12 as [(_ & E & _)|(e & t & E1 & _)]; [exact E|congruence]. }
      set (w1 := apply4 false (v_w s)) in *. clearbody w1.
      change (v_q s) with (wq (v_w s)) in *.
      constructor; unfold v_q; cbn [v_w v_pc v_hw v_log v_acc]; fold (wq w1); auto.
      * rewrite B4. exact ki_pin0.
      * destruct (v_pc s) as [|c ne st|]; auto. destruct Hprep as (_ & _ & Hl & _).
        rewrite B6, B8 by assumption. exact ki_prep0.
      * rewrite sum_chunks_snoc, X. unfold waiting. cbn [v_hw v_w]. rewrite C1.
        destruct (w_conti (v_w s)); [lia|]. specialize (Z0 eq_refl). lia.
  - assert (X : forall w1, xedges (chunk_of false (v_w s) w1) = bedges (w_one (v_w s))) by reflexivity.
    specialize (Hconti ltac:(discriminate)). specialize (Hold ltac:(discriminate)).
    revert V. destruct (w_conti (v_w s)) eqn:Ec.
    + destruct (negb N && r_stopped (w_r (v_w s))) eqn:Es; intros V.
      { exfalso. apply andb_true_iff in Es. destruct Es as [E1 E2]. apply negb_true_iff in E1.
        specialize (Hold E1). rewrite E2 in Hold. discriminate. }
      pose proof (apply_spec N A HA true (v_w s) W) as A1.
      destruct (apply_counts _ _ _ W A1 ki_fit0) as [F2 S2]. cbn [part_of] in S2.
      pose proof A1 as [B1 B2 B3 B4 B5 B6 B7 B8 B9 B10 B11 B12].
      set (w1 := apply4 true (v_w s)) in *. clearbody w1.
      change (v_q s) with (wq (v_w s)) in *.
      constructor; unfold v_q; cbn [v_w v_pc v_hw v_log v_acc]; fold (wq w1); auto.
      * rewrite B4. exact ki_pin0.
      * destruct (v_pc s) as [|c ne st|]; auto. destruct Hprep as (_ & _ & Hl & _).
        rewrite B6, B8 by assumption. exact ki_prep0.
      * rewrite sum_chunks_snoc, X. unfold waiting. cbn [v_hw v_w]. lia.
    + specialize (Hconti eq_refl). rewrite Hconti, orb_true_r. intros V.
      constructor; unfold v_q in *; cbn [with_r mkrun set_running v_w v_pc v_hw v_log v_acc w_r r_q] in *; auto.
  - exfalso. exact (vi_loop _ _ _ ki_v0 Ehw).
Qed.

Theorem kinv_step s ev : kinv s -> vev_fits ev -> kinv (vstep ev s).
Proof.
  intros H Hok. pose proof (vinv_step N A HA EXT s ev (ki_v _ H) (fits4_ok _ Hok)) as V.
  pose proof H as [Kv Kp Kf Kr Ks]. pose proof (vi_w _ _ _ Kv) as W. pose proof W as [W1 W2 W3 W4].
  pose proof (vi_prep _ _ _ Kv) as Hprep.
  destruct ev; cbn [vev_fits] in Hok; try contradiction.
  - (* VBegin *)
    revert V. cbn [RmtV4.vstep]. destruct (v_pc s) eqn:Epc; try (intros; exact H).
    change (r_q (w_r (v_w s))) with (v_q s).
    destruct (Z.eqb_spec (add_check A (ready_rmt (w_r (v_w s))) c (v_q s)) AQE_OK) as [Ek|Ek]; [|intros; exact H].
    apply check_ok in Ek. destruct Ek as (_ & Hnf & Hmin). change (wq (v_w s)) with (v_q s) in *.
    assert (Hlt : queueEntries (v_q s) < L) by (destruct W1 as (_ & _ & ?); lia).
    pose proof (prepare_spec A HA EXT c (v_q s) (r_pins (w_r (v_w s))) W1 Hlt) as
      (S1 & S2 & S3 & S4 & S5 & S6 & S7 & S8 & S9 & S10). intros V.
    constructor; unfold v_q; cbn [v_w v_pc v_hw v_log v_acc with_r w_r r_q]; fold (v_q s);
      rewrite ?S2, ?S6, ?S7, ?S8; auto.
    now apply new_fits4.
  - (* VCommit *)
    revert V. cbn [RmtV4.vstep]. destruct (v_pc s) as [|c ne start|] eqn:Epc; try (intros; exact H).
    change (r_q (w_r (v_w s))) with (v_q s). change (wq (v_w s)) with (v_q s) in *. unfold with_vq, add_commit.
    destruct (q_ignore (v_q s)) eqn:Ei; cbn [fst snd].
    { change (AQE_OK =? AQE_OK) with true. cbv iota. intros V. constructor; auto. }
    destruct (ready_rmt (w_r (v_w s))); cbn [fst snd].
    2:{ change (AQE_DEVICE_NOT_READY =? AQE_OK) with false. cbv iota. intros V. constructor; auto. }
    change (AQE_OK =? AQE_OK) with true. cbv iota. intros V.
    destruct Hprep as (Hc & Hc0 & Hlt & Hne & Ht & Hst & Hu & Htog).
    set (q := v_q s) in *. set (q1 := set_end ne (set_wr (u8 (q_wr q + 1)) q)) in *.
    assert (Epend : pend A q1 = pend A q ++ [q_ent q (slot A (q_wr q))]) by (now apply pend_commit).
    constructor; unfold v_q; cbn [with_rq with_r v_w v_pc v_hw v_log v_acc w_r r_q]; rewrite ?Epend; auto.
    + apply Forall_app. split; [assumption|]. constructor; [assumption|constructor].
    + rewrite sum_left_snoc, sum_steps_snoc, Hst. unfold waiting in *. cbn [v_hw v_w with_r w_two w_one w_conti]. lia.
  - (* VStart *)
    revert V. cbn [RmtV4.vstep]. destruct (v_pc s) as [| |start] eqn:Epc; try (intros; exact H).
    change (r_q (w_r (v_w s))) with (v_q s). unfold add_starts.
    destruct (negb (q_running (v_q s)) && start) eqn:E; intros V.
    + apply kinv_start; auto; [rewrite Epc; discriminate|]. apply andb_true_iff in E. destruct E as [E _].
      now apply negb_true_iff in E.
    + constructor; auto.
  - (* VAddNull *)
    revert V. cbn [RmtV4.vstep]. destruct (v_pc s) eqn:Epc; try (intros; exact H).
    change (r_q (w_r (v_w s))) with (v_q s).
    destruct (a_started _) eqn:Ea; intros V; [|exact H].
    apply kinv_start; auto; [rewrite Epc; discriminate|].
    unfold q_add_null in Ea. destruct (negb (ready_rmt (w_r (v_w s)))); [discriminate|].
    destruct (q_running (v_q s)); [discriminate|reflexivity].
  - now apply kinv_sent.
  - revert V. cbn [RmtV4.vstep]. intros V. constructor; auto.
  - revert V. cbn [RmtV4.vstep]. change (r_q (w_r (v_w s))) with (v_q s).
    destruct (_ && _) eqn:E; intros V; [|exact H]. constructor; auto.
  - revert V. cbn [RmtV4.vstep]. change (r_q (w_r (v_w s))) with (v_q s).
    destruct (_ && _) eqn:E; intros V; [|exact H]. constructor; auto.
  - revert V. cbn [RmtV4.vstep]. destruct (v_pc s) eqn:Epc; intros V; try exact H. constructor; auto.
Qed.

Theorem kinv_run evs : forall s, kinv s -> Forall vev_fits evs -> kinv (vrun evs s).
Proof.
  induction evs as [|ev evs IH]; intros s H Hok; [exact H|]. cbn [RmtV4.vrun].
  apply IH; [|exact (Forall_inv_tail Hok)]. apply kinv_step; [exact H|exact (Forall_inv Hok)].
Qed.
Lemma kinv_init garbage mem p test : kinv (vinit N A garbage mem p test).
Proof.
  assert (Ep : pend A (q_init A garbage test) = []) by (apply pend_nil; reflexivity).
  constructor; unfold v_q; cbn [vinit v_w v_pc v_hw v_log v_acc w_r r_q]; rewrite ?Ep; auto.
  - now apply vinv_init.
  - now left.
Qed.

(** ** The end of a transmission *)
Definition cost (l : list entry) : Z := fold_right Z.add 0 (map (fun e => e_steps e + 1) l).
Definition sents (k : nat) : list vevent := repeat VSent k.
Lemma vrun_app a : forall b s, vrun (a ++ b) s = vrun b (vrun a s).
Proof. induction a; intros; cbn [app RmtV4.vrun]; auto. Qed.

Definition blocked (s : vst) : Z :=
  match pend A (v_q s) with
  | e :: _ => if e_toggle e && b_steps (part_of (match v_hw s with One => true | _ => false end) (v_w s))
              then 1 else 0
  | [] => 0
  end.
Definition tail (s : vst) : Z :=
  match v_hw s with
  | One => if w_conti (v_w s) then 4 else 2
  | Two => if w_conti (v_w s) then 3 else 1
  | _ => 0
  end.
Definition weight (s : vst) : Z := 2 * (2 * cost (pend A (v_q s)) + blocked s) + tail s.

Lemma apply_cost two w w1 : wok N A w -> applied N A two w w1 -> Forall ent_fits4 (pend A (wq w)) ->
  pend A (wq w) <> [] ->
  (pend A (wq w1) = pend A (wq w) /\ b_steps (part_of two w1) = false /\
     exists e t, pend A (wq w) = e :: t /\ e_toggle e = true /\ b_steps (part_of (negb two) w) = true)
  \/ cost (pend A (wq w1)) <= cost (pend A (wq w)) - 1.
Proof.
  intros Hw [] Hf Hne.
  destruct ap_case as [(E0 & _ & _ & [E|(E & e & t & E1)])|(e & t & E1 & E2 & E3 & E4 & E5 & E6)]; [contradiction|left|right].
  - split; [exact E0|]. split; [exact E|]. exists e, t. exact E1.
  - rewrite E6, E1. pose proof (wk_ent _ _ _ Hw) as He. rewrite E1 in *.
    destruct (Forall_inv He) as [[He1 He2] He3]. destruct (Forall_inv Hf) as (F1 & F2 & F3).
    pose proof (part4_left N two (e_steps e) (e_ticks e) He2) as (X1 & X2 & X3). rewrite F1.
    set (x := snd (v4_part N two (e_steps e) (e_ticks e))) in *. clearbody x.
    unfold cost. destruct (Z.eqb_spec x 0); cbn [map fold_right with_steps untoggle e_steps]; lia.
Qed.
Lemma cost_nonneg s : wok N A (v_w s) -> 0 <= cost (pend A (v_q s)).
Proof.
  intros [_ H _ _]. unfold wq in H. fold (v_q s) in H. unfold cost.
  induction H as [|e l [[_ He] _] Hl IH]; cbn [map fold_right]; lia.
Qed.
Lemma blocked_range s : 0 <= blocked s <= 1.
Proof. unfold blocked. destruct (pend A (v_q s)); [lia|]. destruct (_ && _); lia. Qed.
Lemma tail_range s : v_hw s <> Off -> v_hw s <> Loop -> 1 <= tail s <= 4.
Proof. unfold tail. destruct (v_hw s), (w_conti (v_w s)); intros; try lia; congruence. Qed.

(** a part sent brings the end nearer *)
Lemma sent_lighter s : kinv s -> v_hw s <> Off ->
  v_hw (vstep VSent s) = Off /\ q_running (v_q (vstep VSent s)) = false /\ pend A (v_q (vstep VSent s)) = []
  \/ v_hw (vstep VSent s) <> Off /\ weight (vstep VSent s) <= weight s - 1.
Proof.
  intros H Hh. pose proof H as [Kv Kp Kf Kr Ks]. pose proof (vi_w _ _ _ Kv) as W.
  pose proof (vi_run _ _ _ Kv Hh) as Hrun. pose proof (vi_stop _ _ _ Kv Hrun) as Hstop.
  pose proof (vi_conti _ _ _ Kv Hh) as Hconti. pose proof (vi_old _ _ _ Kv Hh) as Hold.
  cbn [RmtV4.vstep]. unfold sent. unfold weight, tail, blocked.
  destruct (v_hw s) eqn:Ehw; [congruence| | |exfalso; exact (vi_loop _ _ _ Kv Ehw)].
  - right. destruct (negb N && r_stopped (w_r (v_w s))) eqn:Es.
    + split; [discriminate|]. apply andb_true_iff in Es. destruct Es as [Es1 Es2]. apply negb_true_iff in Es1.
      specialize (Hold Es1). rewrite Es2 in Hold. unfold v_q. cbn [v_w v_hw]. fold (v_q s).
      rewrite (Hstop Es2), Hold. cbn [negb]. lia.
    + split; [discriminate|]. pose proof (apply_spec N A HA false (v_w s) W) as A1.
      pose proof (apply_cost _ _ _ W A1 Kf) as C. pose proof (ap_other _ _ _ _ _ A1) as O.
      assert (C1 : w_conti (apply4 false (v_w s)) = w_conti (v_w s))
        by (destruct (ap_stop _ _ _ _ _ A1) as [(? & _)|(? & _)]; [auto|discriminate]).
      assert (Sp : pend A (wq (v_w s)) = [] -> pend A (wq (apply4 false (v_w s))) = []).
      { intros K. destruct (ap_case _ _ _ _ _ A1) as [(-> & _)|(e & t & E1 & _)]; [exact K|congruence]. }
      set (w1 := apply4 false (v_w s)) in *. clearbody w1. unfold v_q. cbn [v_w v_hw].
      fold (wq w1). change (r_q (w_r (v_w s))) with (wq (v_w s)). rewrite C1.
      destruct (pend A (wq (v_w s))) as [|e0 t0] eqn:Ep.
      * rewrite (Sp eq_refl). destruct (w_conti (v_w s)); lia.
      * assert (Ec : w_conti (v_w s) = true).
        { destruct (w_conti (v_w s)); [reflexivity|]. specialize (Hstop (Hconti eq_refl)).
          change (v_q s) with (wq (v_w s)) in Hstop. congruence. }
        rewrite Ec. specialize (C ltac:(congruence)). rewrite ?Ep in C. destruct C as [(E1 & E2 & e & t & E3 & E4 & E5)|E1].
        -- rewrite E1. injection E3 as <- <-. cbn [part_of negb] in *. rewrite E4, E2, E5. cbn [andb]. lia.
        -- revert E1. destruct (pend A (wq w1)) as [|e1 t1]; intros E1; [destruct (e_toggle e0 && _); lia|].
           destruct (e_toggle e1 && _), (e_toggle e0 && _); lia.
  - destruct (w_conti (v_w s)) eqn:Ec.
    + right. destruct (negb N && r_stopped (w_r (v_w s))) eqn:Es.
      { exfalso. apply andb_true_iff in Es. destruct Es as [E1 E2]. apply negb_true_iff in E1.
        specialize (Hold E1). rewrite E2 in Hold. discriminate. }
      split; [discriminate|]. pose proof (apply_spec N A HA true (v_w s) W) as A1.
      pose proof (apply_cost _ _ _ W A1 Kf) as C. pose proof (ap_other _ _ _ _ _ A1) as O.
      pose proof (ap_stop _ _ _ _ _ A1) as St.
      assert (Sp : pend A (wq (v_w s)) = [] -> pend A (wq (apply4 true (v_w s))) = []).
      { intros K. destruct (ap_case _ _ _ _ _ A1) as [(-> & _)|(e & t & E1 & _)]; [exact K|congruence]. }
      set (w1 := apply4 true (v_w s)) in *. clearbody w1. unfold v_q. cbn [v_w v_hw].
      fold (wq w1). change (r_q (w_r (v_w s))) with (wq (v_w s)).
      destruct (pend A (wq (v_w s))) as [|e0 t0] eqn:Ep.
      * rewrite (Sp eq_refl). destruct St as [(_ & _ & St)|(_ & -> & _)]; [|lia].
        exfalso. exact (St eq_refl eq_refl).
      * destruct St as [(-> & _)|(_ & _ & _ & K)]; [|congruence]. rewrite Ec.
        specialize (C ltac:(congruence)). rewrite ?Ep in C. destruct C as [(E1 & E2 & e & t & E3 & E4 & E5)|E1].
        -- rewrite E1. injection E3 as <- <-. cbn [part_of negb] in *. rewrite E4, E2, E5. cbn [andb]. lia.
        -- revert E1. destruct (pend A (wq w1)) as [|e1 t1]; intros E1; [destruct (e_toggle e0 && _); lia|].
           destruct (e_toggle e1 && _), (e_toggle e0 && _); lia.
    + left. specialize (Hconti eq_refl). rewrite Hconti, orb_true_r.
      split; [reflexivity|]. split; [reflexivity|]. exact (Hstop Hconti).
Qed.

Lemma transmission_ends n : forall s, kinv s -> v_hw s <> Off -> weight s <= Z.of_nat n ->
  exists k, (k <= n)%nat /\ let s' := vrun (sents k) s in
    v_hw s' = Off /\ q_running (v_q s') = false /\ pend A (v_q s') = [] /\ kinv s'.
Proof.
  induction n as [|n IH]; intros s H Hh Hw.
  - exfalso. pose proof (cost_nonneg s (vi_w _ _ _ (ki_v _ H))). pose proof (blocked_range s).
    pose proof (tail_range s Hh (vi_loop _ _ _ (ki_v _ H))). unfold weight in Hw. lia.
  - pose proof (kinv_step s VSent H I) as H1.
    destruct (sent_lighter s H Hh) as [(E1 & E2 & E3)|(E1 & E2)].
    + exists 1%nat. split; [lia|]. cbn [sents repeat RmtV4.vrun]. auto.
    + destruct (IH _ H1 E1 ltac:(lia)) as (k & Hk & R). exists (S k). split; [lia|]. exact R.
Qed.
Theorem drained s : kinv s -> v_hw s <> Off ->
  exists k, Z.of_nat k <= 4 * cost (pend A (v_q s)) + 6 /\ let s' := vrun (sents k) s in
    v_hw s' = Off /\ q_running (v_q s') = false /\ pend A (v_q s') = []
    /\ sum_chunks (v_log s') = sum_steps (v_acc s').
Proof.
  intros H Hh. pose proof (cost_nonneg s (vi_w _ _ _ (ki_v _ H))) as C. pose proof (blocked_range s) as B.
  pose proof (tail_range s Hh (vi_loop _ _ _ (ki_v _ H))) as T.
  assert (HW : 0 <= weight s <= 4 * cost (pend A (v_q s)) + 6) by (unfold weight; lia).
  destruct (transmission_ends (Z.to_nat (weight s)) s H Hh ltac:(lia)) as (k & Hk & E1 & E2 & E3 & K).
  exists k. split; [lia|]. cbv zeta. splits; auto.
  pose proof (ki_sum _ K) as S. unfold waiting in S. rewrite E1, E3 in S. unfold sum_left in S.
  cbn [map fold_right] in S. lia.
Qed.

(** ** forceStop() *)
Theorem stop_ends s : vinv N A s -> v_pc s = Free -> v_hw s <> Off ->
  exists k, (1 <= k <= 2)%nat /\ let s' := vrun (VStop :: sents k) s in
    v_hw s' = Off /\ q_running (v_q s') = false /\ pend A (v_q s') = []
    /\ exists l, v_log s' = v_log s ++ l /\ Forall (fun c => xedges c = 0) l.
Proof.
  intros H Hf Hh. pose proof (vinv_step N A HA EXT s VStop H I) as H1.
  cbn [RmtV4.vrun]. revert H1. cbn [RmtV4.vstep]. rewrite Hf.
  assert (EL : (match v_hw s with Loop => Off | h => h end) = v_hw s).
  { destruct (v_hw s) eqn:E; auto. exfalso. exact (vi_loop _ _ _ H E). }
  rewrite EL. clear EL. set (w := forceStop4 N A (v_w s)).
  assert (Ew : w_conti w = false /\ r_stopped (w_r w) = true) by (split; reflexivity).
  destruct Ew as [Ec Es].
  assert (E2 : bedges (w_two w) = 0) by (apply stop_edges; exact HA).
  assert (Ep : pend A (wq w) = []).
  { apply pend_nil. unfold w, wq. cbn [forceStop4 stop4 with_r clear4 w_r r_q]. unfold queueEntries.
    cbn [set_rd q_rd q_wr stopped r_q]. rewrite Z.sub_diag. reflexivity. }
  clearbody w. intros H1.
  destruct (v_hw s) eqn:Ehw; [congruence| | |exfalso; exact (vi_loop _ _ _ H Ehw)].
  - exists 2%nat. split; [lia|]. cbn [sents repeat RmtV4.vrun RmtV4.vstep].
    pose proof (apply_spec N A HA false w (vi_w _ _ _ H1)) as A1.
    set (w1 := if negb N then w else apply4 false w).
    assert (S1 : sent N A (mkV w Free One (v_acc s) (v_log s))
      = mkV w1 Free Two (v_acc s) (v_log s ++ [chunk_of true w w1])).
    { unfold sent, w1. cbn [v_hw v_w v_pc v_acc v_log]. rewrite Es, andb_true_r. reflexivity. }
    rewrite S1.
    assert (W1 : w_conti w1 = false /\ r_stopped (w_r w1) = true /\ pend A (wq w1) = []).
    { unfold w1. destruct (negb N); [auto|]. destruct (ap_stop _ _ _ _ _ A1) as [(-> & -> & _)|(? & _)]; [|discriminate].
      split; [exact Ec|]. split; [exact Es|].
      destruct (ap_case _ _ _ _ _ A1) as [(-> & _)|(e & t & E & _)]; [exact Ep|congruence]. }
    destruct W1 as (W1 & W2 & W3). clearbody w1. unfold sent. cbn [v_hw v_w]. rewrite W1, W2, orb_true_r.
    split; [reflexivity|]. split; [reflexivity|]. split; [exact W3|].
    cbn [v_log]. eexists. split; [reflexivity|]. constructor; [exact E2|constructor].
  - exists 1%nat. split; [lia|]. cbn [sents repeat RmtV4.vrun RmtV4.vstep]. unfold sent.
    cbn [v_hw v_w]. rewrite Ec, Es, orb_true_r.
    split; [reflexivity|]. split; [reflexivity|]. split; [exact Ep|].
    exists []. split; [now rewrite app_nil_r|constructor].
Qed.

(** ** Hanging *)
(** running according to the driver, while the hardware does nothing *)
Definition hung (s : vst) : Prop := v_hw s = Off /\ q_running (v_q s) = true.
Lemma hung_step s ev : hung s -> hung (vstep ev s) /\ v_log (vstep ev s) = v_log s.
Proof.
  intros [H1 H2]. unfold hung, v_q in *. destruct ev; cbn [RmtV4.vstep].
  - destruct (v_pc s); auto. destruct (_ =? AQE_OK); auto. cbn [v_hw v_w with_r w_r r_q v_log].
    unfold add_prepare. destruct (direct_dir _); auto.
  - destruct (v_pc s); auto. cbn [v_hw v_w with_vq with_r with_rq w_r r_q v_log]. unfold add_commit.
    destruct (q_ignore _); [auto|]. destruct (ready_rmt _); auto.
  - destruct (v_pc s); auto. unfold add_starts. rewrite H2. auto.
  - destruct (v_pc s); auto. unfold q_add_null. rewrite H2. destruct (negb _); auto.
  - unfold sent. rewrite H1. auto.
  - destruct (v_pc s); auto. rewrite H1. auto.
  - rewrite H1. auto.
  - auto.
  - auto.
  - destruct (_ && _); auto.
  - destruct (_ && _); auto.
  - destruct (v_pc s); auto.
Qed.
Theorem hung_forever evs : forall s, hung s -> hung (vrun evs s) /\ v_log (vrun evs s) = v_log s.
Proof.
  induction evs as [|ev evs IH]; intros s H; [auto|]. cbn [RmtV4.vrun].
  destruct (hung_step s ev H) as [H1 E1]. destruct (IH _ H1) as [H2 E2]. split; [exact H2|congruence].
Qed.
Lemma loop_stays s k : v_hw s = Loop -> vrun (sents k) s = s.
Proof.
  intros H. assert (E : vstep VSent s = s) by (cbn [RmtV4.vstep]; unfold sent; now rewrite H).
  induction k as [|k IH]; [reflexivity|]. unfold sents in *. cbn [repeat RmtV4.vrun]. now rewrite E.
Qed.
End Count.

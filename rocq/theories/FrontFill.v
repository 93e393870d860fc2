(** * FrontFill: the background task carries out the commands of the ramp generator

    [fill_queue] runs on a queue with interrupts at any time; the queue's device may be
    busy at any time. *)
From Coq Require Import ZArith Bool List Lia ZifyBool.
From Verif Require Import Base RampCalc RampGen RampRun RampMove RampPlan Queue QueueFacts QueuePos QueueHist Stepper StepperHist FrontHist.
Import ListNotations.
Open Scope Z_scope.
Ltac Zify.zify_post_hook ::= idtac.

(** [woven cs w]: the commands [cs] in order, with pauses in between *)
Inductive woven : list command -> list command -> Prop :=
| woven_nil : woven [] []
| woven_pause c cs w : c_steps c = 0 -> woven cs w -> woven cs (c :: w)
| woven_cmd c cs w : woven cs w -> woven (c :: cs) (c :: w).

Lemma woven_app a wa b wb : woven a wa -> woven b wb -> woven (a ++ b) (wa ++ wb).
Proof. induction 1; intros Hb; cbn [app]; auto; [apply woven_pause|apply woven_cmd]; auto. Qed.
Lemma woven_pauses l : Forall (fun c => c_steps c = 0) l -> woven [] l.
Proof. induction 1; constructor; auto. Qed.
Lemma woven_one l c : Forall (fun c => c_steps c = 0) l -> woven [c] (l ++ [c]).
Proof. induction 1; cbn [app]; [apply woven_cmd; constructor|apply woven_pause; auto]. Qed.

Section WithArch.
Variable A : arch.
Variable EXT : bool.
Notation L := (QUEUE_LEN A).
Notation X := (hacc A EXT).
Hypothesis HA : In A all_archs.

(** ** Accepted commands *)
Definition end_pos (p : Z) (l : list command) : Z := fold_left (fun p c => after_pos c p) l p.
Record moved (new : list command) (t t' : hq) : Prop := mkMoved {
  mv_good : good A t';
  mv_same : same_conf t t';
  mv_acc : acc_of t' = acc_of t ++ new;
  mv_up : up_of t' = end_up (up_of t) new;
  mv_pos : pos_of t' = end_pos (pos_of t) new
}.
Lemma moved_refl t : good A t -> moved [] t t.
Proof. intros. constructor; auto; [apply same_refl|now rewrite app_nil_r]. Qed.
Lemma moved_trans a b t u v : moved a t u -> moved b u v -> moved (a ++ b) t v.
Proof.
  intros [] []. constructor; auto.
  - eapply same_trans; eassumption.
  - rewrite mv_acc1, mv_acc0, app_assoc. reflexivity.
  - rewrite end_up_app. congruence.
  - unfold end_pos in *. rewrite fold_left_app. congruence.
Qed.
Lemma after_pos_pause c p : c_steps c = 0 -> -2147483648 <= p < 2147483648 -> after_pos c p = p.
Proof. intros H Hp. unfold after_pos. rewrite H, Z.add_0_r, Z.sub_0_r. destruct (c_up c); apply i32_id; exact Hp. Qed.
Lemma end_pos_pauses l p : Forall (fun c => c_steps c = 0) l -> -2147483648 <= p < 2147483648 -> end_pos p l = p.
Proof.
  intros H Hp. unfold end_pos. induction H; cbn [fold_left]; [reflexivity|].
  rewrite after_pos_pause by assumption. exact IHForall.
Qed.
Lemma end_up_same b l u : Forall (fun c => c_up c = b) l -> end_up u l = u \/ end_up u l = b.
Proof.
  intros H. revert u. induction H; intros u; [left; reflexivity|].
  unfold end_up in *. cbn [fold_left]. destruct (IHForall (c_up x)) as [-> | ->]; right; auto.
Qed.
Lemma pos_range t : good A t -> -2147483648 <= pos_of t < 2147483648.
Proof. intros [H _]. apply (iv_pos _ _ H). Qed.

Lemma add_moved c start t : good A t -> cmd_ok c -> q_ignore (tqueue t) = false ->
  let r := t_add hq X c start t in
  (snd r = AQE_OK /\ moved [c] t (fst r) \/ snd r <> AQE_OK /\ moved [] t (fst r))
  /\ (long_cmd A c -> 0 <= snd r).
Proof.
  intros Hg Hc Hi r. destruct (add_ok A EXT HA c start t Hg Hc). fold r in as_good, as_same, as_pins, as_w, as_ok, as_no, as_n, as_ready, as_code |- *.
  split; [|exact as_code].
  destruct (Z.eq_dec (snd r) AQE_OK) as [E|E].
  - left. split; [exact E|]. destruct (as_ok E Hi) as (C1 & C2 & _ & C4).
    constructor; auto. rewrite C4. unfold end_pos. cbn [fold_left]. unfold after_pos, sdelta, sgn.
    destruct (c_up c); f_equal; lia.
  - right. split; [exact E|]. destruct as_no as (C1 & C2 & C3 & _); [now left|].
    constructor; auto. rewrite app_nil_r. exact C1.
Qed.
Lemma adds_moved start : forall l t, good A t -> Forall cmd_ok l -> Forall (long_cmd A) l ->
  q_ignore (tqueue t) = false ->
  let r := adds A EXT start l t in
  0 <= snd r /\ exists l1 l2, l = l1 ++ l2 /\ moved l1 t (fst r) /\ (snd r = AQE_OK <-> l2 = []).
Proof.
  induction l as [|c l IH]; intros t Hg Hc Hl Hi; cbn [adds].
  - cbn [fst snd]. split; [unfold AQE_OK; lia|]. exists [], []. splits; auto; [now apply moved_refl|tauto].
  - inversion Hc as [|? ? Hc1 Hc2]; subst. inversion Hl as [|? ? Hl1 Hl2]; subst.
    destruct (add_moved c start t Hg Hc1 Hi) as [C H0]. specialize (H0 Hl1).
    set (r := t_add hq X c start t) in *.
    destruct C as [[E M]|[E M]].
    + rewrite E. cbn [Z.eqb].
      replace (AQE_OK =? AQE_OK) with true by reflexivity.
      assert (Hi' : q_ignore (tqueue (fst r)) = false) by (rewrite (sc_ign _ _ (mv_same _ _ _ M)); exact Hi).
      destruct (IH (fst r) (mv_good _ _ _ M) Hc2 Hl2 Hi') as (P & l1 & l2 & B1 & B2 & B3).
      split; [exact P|]. exists (c :: l1), l2. splits; auto.
      * rewrite B1. reflexivity.
      * apply (moved_trans [c] l1 _ _ _ M B2).
    + destruct (Z.eqb_spec (snd r) AQE_OK); [contradiction|].
      split; [exact H0|]. exists [], (c :: l). splits; auto. split; [contradiction|discriminate].
Qed.
Lemma pauses_moved up : forall l t, good A t -> Forall (fun d => 0 <= d < 65536) l ->
  q_ignore (tqueue t) = false ->
  exists new, moved new t (add_pauses hq X up l t) /\ Forall (fun c => c_steps c = 0 /\ c_up c = up) new.
Proof.
  induction l as [|d l IH]; intros t Hg Hl Hi; cbn [add_pauses].
  - exists []. split; [now apply moved_refl|constructor].
  - inversion Hl as [|? ? Hd Hl']; subst.
    assert (Hc : cmd_ok (mkCommand d 0 up)) by (split; cbn; lia).
    destruct (add_moved (mkCommand d 0 up) false t Hg Hc Hi) as [C _].
    set (t1 := fst (t_add hq X (mkCommand d 0 up) false t)) in *.
    assert (E : exists n1, moved n1 t t1 /\ Forall (fun c => c_steps c = 0 /\ c_up c = up) n1).
    { destruct C as [[_ M]|[_ M]]; eexists; (split; [exact M|]); repeat constructor. }
    destruct E as (n1 & M & F).
    assert (Hi' : q_ignore (tqueue t1) = false) by (rewrite (sc_ign _ _ (mv_same _ _ _ M)); exact Hi).
    destruct (IH t1 (mv_good _ _ _ M) Hl' Hi') as (n2 & M2 & F2).
    exists (n1 ++ n2). split; [eapply moved_trans; eassumption|apply Forall_app; auto].
Qed.
Lemma null_moved start t : good A t -> moved [] t (fst (t_null hq X start t)).
Proof.
  intros Hg. destruct (null_ok A EXT HA start t Hg). constructor; auto.
  - rewrite app_nil_r. exact ns_acc.
  - unfold up_of. rewrite ns_end. reflexivity.
  - unfold pos_of. rewrite ns_end. reflexivity.
Qed.
Lemma setpins_moved p t : good A t -> moved [] t (t_setpins hq X p t).
Proof.
  intros Hg. constructor; auto; [constructor; reflexivity|rewrite app_nil_r; reflexivity].
Qed.
Lemma null_code t : 0 <= snd (t_null hq X false t).
Proof.
  cbn. unfold q_add_null. destruct (negb (w_r1 _)); cbn; [unfold AQE_DEVICE_NOT_READY|unfold AQE_OK]; lia.
Qed.

(** ** One call of addQueueEntry *)
Definition delays_ok (s : stepper) : Prop :=
  conf_ok s /\ (s_dirdelay s = 0 \/ MIN_CMD_TICKS A <= s_dirdelay s).
(** the outputs are enabled already, or enabling takes no time *)
Definition fed (s : stepper) : Prop :=
  s_auto s = false \/ s_ondelay s <= 0 \/ s_cnt s <> 0 /\ s_off s <> 0.
(** the command passes the tests of addQueueEntry *)
Definition fits (s : stepper) (m : Z) (c : command) : Prop :=
  cmd_ok c /\ long_cmd A c /\ m <= c_ticks c /\ (s_dirpin s = PIN_UNDEFINED -> c_up c = true).

Lemma pause_long d up : MIN_CMD_TICKS A <= d -> long_cmd A (mkCommand d 0 up).
Proof. unfold long_cmd, command_rate_ticks. cbn. lia. Qed.
Lemma ext_long c : long_cmd A (ext_pause A c).
Proof.
  unfold ext_pause. apply pause_long. clear - HA. revert A HA. apply arch_cases; vm_compute; discriminate.
Qed.
Lemma pre_long c s up : delays_ok s -> Forall (long_cmd A) (pre_pauses A c s up).
Proof.
  intros [_ Hd]. unfold pre_pauses. pose proof (ext_long c).
  destruct (Bool.eqb up (c_up c)); [constructor|].
  destruct (is_external (s_dirpin s)); [repeat constructor; assumption|].
  destruct (Z.eqb_spec (s_dirdelay s) 0); cbn [negb andb]; [constructor|].
  destruct (negb (c_steps c =? 0)); repeat constructor. unfold dir_pause. apply pause_long. lia.
Qed.

Lemma second_moved c start s t : good A t -> q_ignore (tqueue t) = false -> delays_ok s ->
  cmd_ok c -> long_cmd A c ->
  let r := add_second A hq X c start s t in
  0 <= snd r /\ exists new, Forall (fun x => c_steps x = 0 /\ c_up x = c_up c) new /\
    (snd r = AQE_OK /\ fst (fst r) = after_add AQE_OK s /\ moved (new ++ [c]) t (snd (fst r)) \/
     snd r <> AQE_OK /\ fst (fst r) = s /\ moved new t (snd (fst r))).
Proof.
  intros Hg Hi Hd Hc Hl. rewrite add_second_eq.
  destruct (no_room A c s t).
  { cbn [fst snd]. split; [unfold AQE_QUEUE_FULL; lia|]. exists []. split; [constructor|]. right.
    splits; auto; [discriminate|now apply moved_refl]. }
  cbv zeta. cbn [fst snd].
  pose proof (pre_ok A c s (up_of t) Hc (proj1 Hd)) as F1.
  assert (F2 : Forall (long_cmd A) (pre_pauses A c s (up_of t) ++ [c])).
  { apply Forall_app. split; [now apply pre_long|constructor; auto]. }
  destruct (adds_moved start _ t Hg F1 F2 Hi) as (P & l1 & l2 & B1 & B2 & B3).
  set (r := adds A EXT start (pre_pauses A c s (up_of t) ++ [c]) t) in *.
  split; [exact P|].
  pose proof (pre_pause A c s (up_of t)) as F3.
  destruct (Z.eq_dec (snd r) AQE_OK) as [E|E].
  - exists (pre_pauses A c s (up_of t)). split; [exact F3|]. left. splits; auto.
    + rewrite E. reflexivity.
    + apply B3 in E. subst l2. rewrite app_nil_r in B1. rewrite B1. exact B2.
  - assert (N2 : l2 <> []) by (intros K; apply E, B3, K).
    destruct (exists_last N2) as (l2' & x & ->).
    rewrite app_assoc in B1. apply app_inj_tail in B1 as [B1 _].
    exists l1. split; [rewrite B1 in F3; apply Forall_app in F3; tauto|].
    right. splits; auto. unfold after_add. destruct (Z.eqb_spec (snd r) AQE_OK); [contradiction|].
    rewrite andb_false_r. reflexivity.
Qed.

Lemma s_add_moved ext busy c start s t : good A t -> q_ignore (tqueue t) = false -> delays_ok s ->
  fits s (q_max (tqueue t)) c -> (start = true -> fed s) ->
  let r := s_add A hq X ext busy c start s t in
  0 <= snd r /\ exists new, Forall (fun x => c_steps x = 0 /\ c_up x = c_up c) new /\
    (snd r = AQE_OK /\ fst (fst r) = after_add AQE_OK s /\ moved (new ++ [c]) t (snd (fst r)) \/
     snd r <> AQE_OK /\ fst (fst r) = s /\ moved new t (snd (fst r))).
Proof.
  intros Hg Hi Hd (Hc & Hl & Hm & Hp) Hf. unfold s_add.
  assert (STOP : forall t1 code, 0 <= code -> code <> AQE_OK -> (exists new,
      Forall (fun x => c_steps x = 0 /\ c_up x = c_up c) new /\ moved new t t1) ->
    0 <= snd (s, t1, code) /\ exists new, Forall (fun x => c_steps x = 0 /\ c_up x = c_up c) new /\
    (snd (s, t1, code) = AQE_OK /\ fst (fst (s, t1, code)) = after_add AQE_OK s
       /\ moved (new ++ [c]) t (snd (fst (s, t1, code))) \/
     snd (s, t1, code) <> AQE_OK /\ fst (fst (s, t1, code)) = s /\ moved new t (snd (fst (s, t1, code))))).
  { intros t1 code H1 H2 (new & F & M). cbn [fst snd]. split; [exact H1|]. exists new. split; [exact F|]. right. auto. }
  assert (SEC : forall t1 new0, moved new0 t t1 -> Forall (fun x => c_steps x = 0 /\ c_up x = c_up c) new0 ->
    let r := add_second A hq X c start s t1 in
    0 <= snd r /\ exists new, Forall (fun x => c_steps x = 0 /\ c_up x = c_up c) new /\
    (snd r = AQE_OK /\ fst (fst r) = after_add AQE_OK s /\ moved (new ++ [c]) t (snd (fst r)) \/
     snd r <> AQE_OK /\ fst (fst r) = s /\ moved new t (snd (fst r)))).
  { intros t1 new0 M F0.
    destruct (second_moved c start s t1) as (P & new & F & C); auto.
    - apply M.
    - rewrite (sc_ign _ _ (mv_same _ _ _ M)); exact Hi.
    - cbv zeta. split; [exact P|]. exists (new0 ++ new). split; [apply Forall_app; auto|].
      destruct C as [(C1 & C2 & C3)|(C1 & C2 & C3)]; [left|right]; splits; auto.
      + rewrite <- app_assoc. eapply moved_trans; eassumption.
      + eapply moved_trans; eassumption. }
  unfold add_first. change (t_q hq X t) with (tqueue t).
  destruct (Z.ltb_spec (c_ticks c) (q_max (tqueue t))); [lia|].
  destruct (negb (s_dirpin s =? PIN_UNDEFINED) && (negb (q_running (tqueue t)) && busy)).
  { cbn [fst snd]. replace (negb (AQE_DIR_PIN_IS_BUSY =? AQE_OK)) with true by reflexivity.
    apply STOP; [unfold AQE_DIR_PIN_IS_BUSY; lia|discriminate|]. exists []. split; [constructor|now apply moved_refl]. }
  destruct ((s_dirpin s =? PIN_UNDEFINED) && negb (c_up c)) eqn:ED.
  { exfalso. apply andb_true_iff in ED as [E1 E2]. apply Z.eqb_eq in E1. rewrite (Hp E1) in E2. discriminate. }
  assert (OKc : negb (AQE_OK =? AQE_OK) = false) by reflexivity.
  destruct (s_auto s && (s_cnt s =? 0)) eqn:EN.
  2:{ cbn [fst snd]. rewrite OKc. apply (SEC t []); [now apply moved_refl|constructor]. }
  set (en := enableOutputs ext s (t_pins hq X t)).
  set (t1 := t_setpins hq X (fst en) t).
  assert (M1 : moved [] t t1) by now apply setpins_moved.
  destruct (negb (snd en)).
  { cbn [fst snd]. replace (negb (AQE_WAIT_FOR_ENABLE_PIN_ACTIVE =? AQE_OK)) with true by reflexivity.
    apply STOP; [unfold AQE_WAIT_FOR_ENABLE_PIN_ACTIVE; lia|discriminate|]. exists []. split; [constructor|assumption]. }
  destruct (Z.gtb_spec (s_ondelay s) 0) as [Ho|Ho].
  2:{ cbn [fst snd]. rewrite OKc. apply (SEC t1 []); [assumption|constructor]. }
  assert (Es : start = false).
  { destruct start; [|reflexivity]. exfalso. apply andb_true_iff in EN as [E1 E2]. apply Z.eqb_eq in E2.
    destruct (Hf eq_refl) as [K|[K|[K _]]]; [congruence|lia|contradiction]. }
  subst start.
  set (d := on_delay hq X c s t1).
  assert (HR : Forall (fun x => 0 <= x < 65536) (on_pieces (on_fuel d) d)).
  { apply (pieces_range A EXT s c t1 (proj1 Hd)). lia. }
  destruct (pauses_moved (c_up c) (on_pieces (on_fuel d) d) t1) as (new & M2 & F2); auto.
  set (t2 := add_pauses hq X (c_up c) (on_pieces (on_fuel d) d) t1) in *.
  pose proof (null_moved false t2 (mv_good _ _ _ M2)) as M3.
  pose proof (null_code t2) as Hcode.
  set (r := t_null hq X false t2) in *.
  assert (M4 : moved new t (fst r)).
  { pose proof (moved_trans _ _ _ _ _ M1 (moved_trans _ _ _ _ _ M2 M3)) as M4. cbn [app] in M4.
    rewrite app_nil_r in M4. exact M4. }
  destruct (Z.eqb_spec (snd r) AQE_OK) as [E|E]; cbn [negb].
  - apply (SEC (fst r) new); assumption.
  - apply STOP; auto. exists new. auto.
Qed.

(** a stopped queue is not started by adding commands without the start flag *)
Lemma add_idle c t : good A t -> q_running (tqueue t) = false ->
  q_running (tqueue (fst (t_add hq X c false t))) = false.
Proof. intros [HI HP] Hr. apply (hadd_idle A EXT c t HI Hr HP). Qed.
Lemma null_idle start t : q_running (tqueue t) = false -> start = false \/ n_of t = 0 -> good A t ->
  q_running (tqueue (fst (t_null hq X start t))) = false
  /\ n_of (fst (t_null hq X start t)) = n_of t.
Proof.
  intros Hr Hs [HI HP]. unfold tqueue, n_of in *. cbn [t_null hacc h_null fst hq_h].
  rewrite (isr_idle A EXT _ _ Hr). cbn [hstep].
  destruct (a_started (q_add_null (w_r1 (weather1 t)) start (h_q (hq_h t)) (h_pins (hq_h t)))) eqn:E;
    rewrite ?andb_false_r; [|rewrite (isr_idle A EXT _ _ Hr); auto].
  exfalso. revert E. unfold q_add_null. destruct (negb _); [discriminate|]. rewrite Hr. cbn [negb].
  rewrite andb_true_r. destruct Hs as [->|Hs]; [discriminate|]. unfold tqueue in Hs.
  destruct start; [|discriminate].
  apply (empty_iff A) in Hs; [|apply HI]. rewrite Hs, Z.eqb_refl. discriminate.
Qed.
Lemma adds_idle : forall l t, good A t -> Forall cmd_ok l -> q_running (tqueue t) = false ->
  q_running (tqueue (fst (adds A EXT false l t))) = false.
Proof.
  induction l as [|c l IH]; intros t Hg Hc Hr; cbn [adds]; [exact Hr|].
  inversion Hc; subst. pose proof (add_idle c t Hg Hr) as H.
  destruct (_ =? _); [|exact H]. apply IH; auto. apply (as_good _ _ _ _ _ (add_ok A EXT HA c false t Hg ltac:(assumption))).
Qed.
Lemma pauses_idle up : forall l t, good A t -> Forall (fun d => 0 <= d < 65536) l ->
  q_running (tqueue t) = false -> q_running (tqueue (add_pauses hq X up l t)) = false.
Proof.
  induction l as [|d l IH]; intros t Hg Hc Hr; cbn [add_pauses]; [exact Hr|].
  inversion Hc; subst.
  assert (Ho : cmd_ok (mkCommand d 0 up)) by (split; cbn; lia).
  pose proof (add_idle (mkCommand d 0 up) t Hg Hr) as H.
  apply IH; auto. apply (as_good _ _ _ _ _ (add_ok A EXT HA _ false t Hg Ho)).
Qed.
Lemma s_add_idle ext busy c s t : good A t -> cmd_ok c -> conf_ok s -> q_running (tqueue t) = false ->
  q_running (tqueue (snd (fst (s_add A hq X ext busy c false s t)))) = false.
Proof.
  intros Hg Hc Hs Hr. unfold s_add.
  assert (SEC : forall t1, good A t1 -> q_running (tqueue t1) = false ->
    q_running (tqueue (snd (fst (add_second A hq X c false s t1)))) = false).
  { intros t1 G1 R1. rewrite add_second_eq. destruct (no_room A c s t1); [exact R1|].
    cbv zeta. cbn [fst snd]. apply adds_idle; auto. now apply pre_ok. }
  destruct (add_first_cases A EXT ext busy c false s t) as [(H1 & H2 & H3)|[Hp H]].
  { destruct (Z.eqb_spec (snd (add_first hq X ext busy c false s t)) AQE_OK); [contradiction|].
    cbn [negb fst snd]. rewrite H2. exact Hr. }
  destruct H as [[_ ->]|[_ H]].
  { cbn [fst snd]. replace (negb (AQE_OK =? AQE_OK)) with false by reflexivity. apply SEC; auto. }
  cbv zeta in H. set (en := enableOutputs ext s (hq_p t)) in *.
  set (t1 := t_setpins hq X (fst en) t) in *.
  assert (G1 : good A t1) by exact Hg. assert (R1 : q_running (tqueue t1) = false) by exact Hr.
  destruct H as [[_ ->]|[(_ & _ & ->)|(_ & E2 & ->)]].
  - exact R1.
  - cbn [fst snd]. replace (negb (AQE_OK =? AQE_OK)) with false by reflexivity. apply SEC; auto.
  - destruct (pieces_range A EXT s c t Hs E2) as [_ HR]. cbv zeta in HR.
    set (ps := on_pieces (on_fuel (on_delay hq X c s t)) (on_delay hq X c s t)) in *.
    destruct (pauses_grow A EXT HA (c_up c) ps t1 G1 HR) as (G2 & _).
    pose proof (pauses_idle (c_up c) ps t1 G1 HR R1) as R2.
    set (t2 := add_pauses hq X (c_up c) ps t1) in *.
    destruct (null_ok A EXT HA false t2 G2).
    destruct (null_idle false t2 R2 (or_introl eq_refl) G2) as [R3 _].
    destruct (negb _); [exact R3|]. apply SEC; auto.
Qed.

(** ** The loop of fill_queue *)
Record like (s s' : stepper) : Prop := mkLike {
  lk_dirpin : s_dirpin s' = s_dirpin s;
  lk_dirdelay : s_dirdelay s' = s_dirdelay s;
  lk_ondelay : s_ondelay s' = s_ondelay s;
  lk_off : s_off s' = s_off s;
  lk_auto : s_auto s' = s_auto s;
  lk_low : s_low s' = s_low s;
  lk_high : s_high s' = s_high s;
  lk_valid : checkValidConfig (rg_params (s_rg s')) = checkValidConfig (rg_params (s_rg s))
}.
Lemma like_refl s : like s s. Proof. constructor; reflexivity. Qed.
Lemma like_trans a b c : like a b -> like b c -> like a c.
Proof. intros [] []. constructor; congruence. Qed.
Lemma like_rg g s : checkValidConfig (rg_params g) = checkValidConfig (rg_params (s_rg s)) -> like s (st_rg g s).
Proof. intros H. constructor; try reflexivity. exact H. Qed.
Lemma like_after code s : like s (after_add code s).
Proof. unfold after_add. destruct (_ && _); constructor; reflexivity. Qed.
Lemma like_delays s s' : like s s' -> delays_ok s -> delays_ok s'.
Proof. intros [] H. unfold delays_ok, conf_ok in *. rewrite lk_dirdelay0, lk_ondelay0. exact H. Qed.
Lemma like_fits s s' m c : like s s' -> fits s m c -> fits s' m c.
Proof. intros [] H. unfold fits in *. rewrite lk_dirpin0. exact H. Qed.

(** a stopped queue with disabled outputs *)
Definition calm (s : stepper) (t : hq) : Prop :=
  s_off s <> 0 /\ q_running (tqueue t) = false /\
  (n_of t = 0 \/ ready_cmd A (s_rg s) (pos_of t) (up_of t)).
Lemma fed_after s : fed s \/ s_off s <> 0 -> fed (after_add AQE_OK s).
Proof.
  unfold fed, after_add. replace (AQE_OK =? AQE_OK) with true by reflexivity. rewrite andb_true_r.
  destruct (s_auto s) eqn:E; [|left; exact E].
  intros [[H|[H|[H H']]]|H]; [congruence| | |]; right; [left|right|right]; auto.
Qed.
Lemma q_end_eta t : q_end (tqueue t) = mkQueueEnd (pos_of t) (up_of t) (qe_dir (q_end (tqueue t))).
Proof. unfold pos_of, up_of. destruct (q_end (tqueue t)). reflexivity. Qed.

(** the first command offered in this state is accepted *)
Definition accepts (ext : extcall) (busy : nat -> bool) (delayed : bool) (s : stepper) (t : hq) : Prop :=
  forall f g1 c, fits s (q_max (tqueue t)) c ->
    snd (s_add A hq X ext (busy f) c (negb delayed) (st_rg g1 s) t) = AQE_OK.
Lemma fill_loop_ok ext busy delayed : forall fuel old prepared need s t k rest,
  good A t -> q_ignore (tqueue t) = false -> delays_ok s ->
  plan A k (s_rg s) (pos_of t) (up_of t) rest -> Forall (fits s (q_max (tqueue t))) rest ->
  (delayed = false -> fed s) -> (delayed = true -> q_running (tqueue t) = false) ->
  fed s \/ calm s t -> (need = true -> fed s) ->
  exists s' t' need' k' done rest' w,
    fill_loop A hq X ext busy delayed fuel old prepared need s t = Some (s', t', need') /\
    rest = done ++ rest' /\ woven done w /\ moved w t t' /\
    plan A k' (s_rg s') (pos_of t') (up_of t') rest' /\ like s s' /\
    (delayed = true -> q_running (tqueue t') = false) /\
    (fed s' \/ calm s' t') /\ (need' = true -> fed s' \/ n_of t' = 0) /\ (k' <= k)%nat /\
    (fuel <> O -> fill_more A s (tqueue t) prepared = true -> accepts ext busy delayed s t -> (k' < k)%nat).
Proof.
  induction fuel as [|fuel IH]; intros old prepared need s t k rest Hg Hi Hd Hp Hf Hstart Hrun Hc Hn;
    cbn [fill_loop]; change (t_q hq X t) with (tqueue t).
  { exists s, t, need, k, [], rest, []. splits; auto; [constructor|now apply moved_refl|apply like_refl|contradiction]. }
  destruct (fill_more A s (tqueue t) prepared) eqn:Em.
  2:{ exists s, t, need, k, [], rest, []. splits; auto; [constructor|now apply moved_refl|apply like_refl|discriminate]. }
  assert (Ha : isRampGeneratorActive (s_rg s) = true).
  { unfold fill_more in Em. apply andb_true_iff in Em. tauto. }
  rewrite (q_end_eta t). set (pin := qe_dir _).
  destruct (rg_getNextCommand A (mkQueueEnd (pos_of t) (up_of t) pin) old (s_rg s)) as [[g1 n]|] eqn:Eg.
  2:{ exfalso. eapply plan_some; eassumption. }
  cbv zeta.
  pose proof (getNext_valid A _ _ _ _ _ Eg) as Ev.
  destruct (Z.eqb_spec (c_ticks (n_cmd n)) 0) as [E0|E0].
  - destruct (plan_end A _ _ _ _ _ _ _ _ _ Hp Ha Eg E0) as (k1 & -> & Hp').
    assert (Hc' : fed s \/ s_off s <> 0 /\ q_running (tqueue t) = false /\ n_of t = 0).
    { destruct Hc as [Hc|(H1 & H2 & [H3|(g2 & n2 & H3 & H4)])]; auto.
      exfalso. rewrite (H3 old pin) in Eg. injection Eg as <- <-. contradiction. }
    eexists _, t, delayed, k1, [], rest, []. split; [reflexivity|]. splits; auto.
    + constructor.
    + now apply moved_refl.
    + apply (like_trans _ (st_rg g1 s)); apply like_rg; [exact Ev|reflexivity].
    + destruct Hc' as [Hc'|(H1 & H2 & H3)]; [left; exact Hc'|right]. unfold calm. splits; auto.
    + intros _. destruct Hc' as [Hc'|(H1 & H2 & H3)]; [left; exact Hc'|right; exact H3].
  - destruct (plan_again A _ _ _ _ _ _ _ _ _ (up_of t) Hp Ha Eg E0 (or_introl eq_refl)) as (k1 & cs & -> & -> & _ & _ & Hafter).
    inversion Hf as [|? ? Hfit Hf']; subst.
    set (c := n_cmd n) in *.
    destruct (s_add_moved ext (busy fuel) c (negb delayed) (st_rg g1 s) t Hg Hi) as (Hcode & new & Hnew & Hcase).
    { exact Hd. }
    { exact Hfit. }
    { intros K. apply Hstart. now destruct delayed. }
    assert (Hidle : delayed = true -> q_running (tqueue (snd (fst
       (s_add A hq X ext (busy fuel) c (negb delayed) (st_rg g1 s) t)))) = false).
    { intros ->. cbn [negb]. apply s_add_idle; auto; [apply Hfit|apply Hd]. }
    assert (Hacc : accepts ext busy delayed s t ->
       snd (s_add A hq X ext (busy fuel) c (negb delayed) (st_rg g1 s) t) = AQE_OK).
    { intros K. apply K. exact Hfit. }
    destruct (s_add A hq X ext (busy fuel) c (negb delayed) (st_rg g1 s) t) as [[s1 t1] code].
    cbn [fst snd] in *.
    assert (Hsteps : Forall (fun x => c_steps x = 0) new) by (eapply Forall_impl; [|exact Hnew]; cbn; tauto).
    assert (Hups : Forall (fun x => c_up x = c_up c) new) by (eapply Forall_impl; [|exact Hnew]; cbn; tauto).
    destruct Hcase as [(Eok & Es & M)|(Eok & Es & M)].
    + subst code. replace (AQE_OK =? AQE_OK) with true by reflexivity.
      assert (Ep : pos_of t1 = after_pos c (pos_of t)).
      { rewrite (mv_pos _ _ _ M). unfold end_pos. rewrite fold_left_app. cbn [fold_left].
        f_equal. apply (end_pos_pauses new _ Hsteps). now apply pos_range. }
      assert (Eu : up_of t1 = c_up c) by (rewrite (mv_up _ _ _ M), end_up_app; reflexivity).
      assert (Erg : s_rg s1 = g1).
      { subst s1. unfold after_add. destruct (_ && _); reflexivity. }
      rewrite Erg.
      set (s2 := st_rg (rg_afterCommandEnqueued n g1) s1).
      assert (LK : like s s2).
      { unfold s2. subst s1. eapply like_trans; [apply like_rg; exact Ev|].
        eapply like_trans; [apply (like_after AQE_OK)|apply like_rg].
        rewrite Erg. reflexivity. }
      assert (FD : fed s2).
      { unfold s2. subst s1. change (fed (after_add AQE_OK (st_rg g1 s))).
        apply fed_after. destruct Hc as [Hc|[Hc _]]; [left; exact Hc|right; exact Hc]. }
      destruct (IH n (u32 (prepared + cmd_ticks c)) delayed s2 t1 k1 cs) as
        (s' & t' & need' & k' & done & rest' & w & R1 & R2 & R3 & R4 & R5 & R6 & R7 & R8 & R9 & R10 & _); auto.
      * apply M.
      * rewrite (sc_ign _ _ (mv_same _ _ _ M)). exact Hi.
      * eapply like_delays; eassumption.
      * rewrite Ep, Eu. exact Hafter.
      * rewrite (sc_max _ _ (mv_same _ _ _ M)). eapply Forall_impl; [|exact Hf'].
        intros a. now apply like_fits.
      * exists s', t', need', k', (c :: done), rest', ((new ++ [c]) ++ w). splits; auto.
        -- cbn [app]. f_equal. exact R2.
        -- change (c :: done) with ([c] ++ done). apply woven_app; [now apply woven_one|exact R3].
        -- eapply moved_trans; eassumption.
        -- eapply like_trans; eassumption.
        -- intros; lia.
    + destruct (Z.eqb_spec code AQE_OK); [contradiction|].
      destruct (Z.gtb_spec code 0) as [Hpos|Hpos].
      2:{ exfalso. apply Eok. unfold AQE_OK. lia. }
      assert (Ep : pos_of t1 = pos_of t).
      { rewrite (mv_pos _ _ _ M). apply end_pos_pauses; [exact Hsteps|now apply pos_range]. }
      assert (Eu : up_of t1 = up_of t \/ up_of t1 = c_up c).
      { rewrite (mv_up _ _ _ M). now apply end_up_same. }
      destruct (plan_again A _ _ _ _ _ _ _ _ _ (up_of t1) Hp Ha Eg E0 Eu) as (k2 & cs2 & _ & E2 & Hp1 & Hr1 & _).
      subst s1. exists (st_rg g1 s), t1, need, (S k1), [], (c :: cs), new. splits; auto.
      * now apply woven_pauses.
      * rewrite Ep. exact Hp1.
      * apply like_rg. exact Ev.
      * destruct Hc as [Hc|(H1 & H2 & H3)]; [left; exact Hc|].
        destruct delayed eqn:Edel; [|left; apply Hstart; reflexivity].
        right. unfold calm. splits; auto. right. rewrite Ep. exact Hr1.
      * intros _ _ K. now apply Hacc in K.
Qed.

End WithArch.

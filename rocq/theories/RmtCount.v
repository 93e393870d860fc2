(** * RmtCount: the RMT driver sends exactly the steps of the accepted commands *)
From Coq Require Import ZArith Bool List Lia ZifyBool.
From Verif Require Import Base Queue QueueFacts QueuePos QueueHist Rmt RmtFacts RmtHist.
Import ListNotations.
Open Scope Z_scope.
Ltac Zify.zify_post_hook ::= idtac.

Definition sum_steps (l : list command) : Z := fold_right Z.add 0 (map c_steps l).
Definition sum_edges (l : list call) : Z := fold_right Z.add 0 (map edges l).
Definition sum_left (l : list entry) : Z := fold_right Z.add 0 (map e_steps l).
Lemma sum_steps_snoc l c : sum_steps (l ++ [c]) = sum_steps l + c_steps c.
Proof. unfold sum_steps. induction l; cbn in *; lia. Qed.
Lemma sum_edges_snoc l c : sum_edges (l ++ [c]) = sum_edges l + edges c.
Proof. unfold sum_edges. induction l; cbn [app map fold_right] in *; lia. Qed.
Lemma sum_left_snoc l c : sum_left (l ++ [c]) = sum_left l + e_steps c.
Proof. unfold sum_left. induction l; cbn [app map fold_right] in *; lia. Qed.

Section Count.
Variable P : Z.
Hypothesis HP : part_size P.
Variable A : arch.
Hypothesis HA : In A all_archs.
Variable EXT : bool.
Notation L := (QUEUE_LEN A).

(** commands in the range of [encoded_good] *)
Definition cmd_fits (c : command) : Prop :=
  accepted (c_steps c) (c_ticks c) /\ spread P (c_steps c) (c_ticks c).
Definition own_pin (pin : Z) : Prop := pin = PIN_UNDEFINED \/ is_external pin = false.
Definition rev_fits (ev : revent) : Prop :=
  match ev with
  | RBegin c _ => cmd_fits c
  | RSetDir pin _ => own_pin pin
  | RStop => False
  | _ => True
  end.
Definition ent_fits (e : entry) : Prop :=
  e_repeat e = false /\ 80 <= e_ticks e < 65536 /\ (0 < e_steps e -> fits P (e_steps e) (e_ticks e)).

Record cinv (s : rst) : Prop := mkCinv {
  ci_rinv : rinv A s;
  ci_pin : own_pin (q_pin (r_q (g_r s)));
  ci_fit : Forall ent_fits (pend A (r_q (g_r s)));
  ci_prep : match g_pc s with
            | Prepared c _ _ => ent_fits (q_ent (r_q (g_r s)) (slot A (q_wr (r_q (g_r s)))))
            | _ => True
            end;
  ci_sum : sum_edges (g_log s) + sum_left (pend A (r_q (g_r s))) = sum_steps (g_acc s)
}.

Lemma cmd_fits_ok c : cmd_fits c -> cmd_ok c.
Proof. intros ((H1 & H2 & _) & _). split; lia. Qed.
Lemma rev_fits_ok ev : rev_fits ev -> rev_ok ev.
Proof. destruct ev; cbn; auto. apply cmd_fits_ok. Qed.
Lemma new_fits c q : cmd_fits c -> own_pin (q_pin q) -> ent_fits (new_entry A EXT c q).
Proof.
  intros Hc Hp. pose proof Hc as ((H1 & H2 & H3) & H4).
  unfold ent_fits, new_entry. cbn [e_repeat e_ticks e_steps]. split; [|split; [assumption|]].
  - unfold to_repeat. destruct Hp as [Hp|Hp].
    + unfold dir_differs. rewrite Hp, Z.eqb_refl. cbn [negb andb]. now rewrite andb_false_r.
    + rewrite Hp. apply andb_false_r.
  - intros Hs. apply accepted_fits; [exact HP|exact (proj1 Hc)|assumption|assumption].
Qed.

Lemma part_edges s t : 0 <= s < 256 -> 80 <= t < 65536 -> (0 < s -> fits P s t) ->
  rises false (halves (fst (part P s t))) = s - snd (part P s t)
  /\ (0 < snd (part P s t) -> fits P (snd (part P s t)) t) /\ 0 <= snd (part P s t).
Proof.
  intros Hs Ht Hf. unfold part. destruct (Z.eqb_spec s 0) as [->|Hs0].
  - cbn [fst snd]. split; [|split; lia]. apply lows_rises. apply pause_edges; [exact HP|lia].
  - destruct (steps_part_good P HP s t ltac:(lia) Ht (Hf ltac:(lia))) as (G1 & G2 & G3 & G4 & G5 & G6 & G7).
    split; [|split; [|assumption]].
    + rewrite <- (rises_join _ false). specialize (G6 [] begins_nil). rewrite !app_nil_r in G6. rewrite G6.
      apply rises_pulses. lia.
    + intros K. destruct G5 as [?|[G5 _]]; [lia|exact G5].
Qed.

Lemma cinv_encode s free : cinv s -> cinv (rstep P A EXT (REncode free) s).
Proof.
  intros H. destruct H. assert (R' : rinv A (rstep P A EXT (REncode free) s)) by (apply rinv_step; auto; exact I).
  revert R'. cbn [rstep]. destruct (q_running (r_q (g_r s))) eqn:Er; [|constructor; assumption].
  unfold call_of. set (r := g_r s) in *.
  unfold encode. destruct (free <? P).
  { cbn [fst snd]. constructor; assumption. }
  destruct (r_stopped r) eqn:Est; cbn [fst snd].
  { constructor; assumption. }
  destruct (ci_rinv0). fold r in ri_wf, ri_ent, ri_prep.
  rewrite (empty_rd A) by assumption.
  assert (E0 : forall f tg pn lv wn, edges (mkCall f (short_part P (MIN_CMD_TICKS A)) tg pn lv wn) = 0).
  { intros. unfold edges. cbn [k_words]. apply lows_rises. apply pause_edges; [exact HP|]. now apply min_cmd_ok. }
  assert (ES : forall T (x y : T), match short_part P (MIN_CMD_TICKS A) with [] => x | _ => y end = y).
  { intros. destruct (short_part P (MIN_CMD_TICKS A)) as [|w ws] eqn:Ew; [|reflexivity].
    apply app_last_nil in Ew. contradiction. }
  destruct (nonempty (r_q r)) eqn:En; cbn [negb].
  2:{ cbn [fst snd r_q r_pins]. rewrite ES. intros R'.
      constructor; cbn [g_r g_pc g_log g_acc r_q r_pins]; auto. rewrite sum_edges_snoc, E0. lia. }
  destruct (e_toggle (head A (r_q r)) && r_last r) eqn:Etl.
  { cbn [fst snd r_q r_pins]. rewrite ES. intros R'.
    constructor; cbn [g_r g_pc g_log g_acc r_q r_pins]; auto. rewrite sum_edges_snoc, E0. lia. }
  clear E0 ES.
  destruct (toggle_first_spec A HA r ri_wf En) as (e & t & T1 & T2 & T3 & T4 & T5 & T6 & T7 & T8 & T9 & T10 & T11 & T12 & T13 & T14 & T15).
  set (r1 := toggle_first A r) in *. clearbody r1.
  unfold encode_first. rewrite T3.
  rewrite T1 in ri_ent, ci_fit0, ci_sum0.
  assert (He : ent_ok e) by (rewrite T4; exact (Forall_inv ri_ent)).
  assert (Hf : ent_fits e) by (rewrite T4; exact (Forall_inv ci_fit0)).
  pose proof (Forall_inv_tail ci_fit0) as Hft.
  assert (Es : e_steps (head A (r_q r)) = e_steps e) by (rewrite T4; reflexivity).
  destruct Hf as (F1 & F2 & F3). destruct He as [He1 He2].
  pose proof (part_words P (e_steps e) (e_ticks e)) as Hw.
  pose proof (part_edges (e_steps e) (e_ticks e) He2 F2 F3) as (E1 & E2 & E3).
  destruct (part P (e_steps e) (e_ticks e)) as [ws left]. cbn [fst snd r_q r_pins] in *.
  destruct ws as [|w ws]; [congruence|]. clear Hw.
  remember (w :: ws) as wl eqn:Ewl. clear w ws Ewl. rewrite F1.
  set (q2 := if left =? 0 then q_pop (r_q r1) else set_first A (with_steps left e) (r_q r1)).
  assert (Hn1 : queueEntries (r_q r1) <> 0) by (rewrite T6; now apply nonempty_iff).
  pose proof (pend_pop A HA _ T5 Hn1) as Hh1. rewrite T2, T3 in Hh1. injection Hh1 as Ht1.
  assert (Q : Forall ent_fits (pend A q2) /\ sum_left (pend A q2) = left + sum_left t
    /\ q_pin q2 = q_pin (r_q r) /\ q_wr q2 = q_wr (r_q r)
    /\ (queueEntries (r_q r) < L -> q_ent q2 (slot A (q_wr (r_q r))) = q_ent (r_q r) (slot A (q_wr (r_q r))))).
  { unfold q2. destruct (Z.eqb_spec left 0) as [->|Hl].
    - change (q_pin (q_pop (r_q r1))) with (q_pin (r_q r1)). change (q_wr (q_pop (r_q r1))) with (q_wr (r_q r1)).
      change (q_ent (q_pop (r_q r1))) with (q_ent (r_q r1)).
      rewrite <- Ht1. splits; auto; lia.
    - assert (Ep : pend A (set_first A (with_steps left e) (r_q r1)) = with_steps left e :: t).
      { rewrite Ht1. now apply pend_set_head. }
      rewrite Ep. splits; auto.
      + constructor; [|assumption]. split; [exact F1|]. split; [exact F2|].
        cbn [with_steps e_steps e_ticks]. exact E2.
      + intros Hq. rewrite <- T14, <- T11 by assumption. apply free_set_head; auto; lia. }
  destruct Q as (Q1 & Q2 & Q3 & Q4 & Q5). clearbody q2. intros R'.
  constructor; cbn [g_r g_pc g_log g_acc r_q r_pins]; auto.
  - now rewrite Q3.
  - destruct (g_pc s) as [|c ne st|]; auto. rewrite Q4, Q5; [assumption|]. now destruct ri_prep as (_ & ? & _).
  - rewrite sum_edges_snoc, Q2. unfold edges. cbn [k_words]. rewrite E1.
    unfold sum_left in ci_sum0 |- *. cbn [map fold_right] in ci_sum0. lia.
Qed.

Theorem cinv_step s ev : cinv s -> rev_fits ev -> cinv (rstep P A EXT ev s).
Proof.
  intros H Hok. pose proof H as H0. destruct H0.
  assert (R' : rinv A (rstep P A EXT ev s)) by (apply rinv_step; auto; now apply rev_fits_ok).
  destruct ci_rinv0.
  destruct ev; cbn [rev_fits] in Hok; try contradiction.
  - (* RBegin *)
    revert R'. cbn [rstep]. destruct (g_pc s) eqn:Epc; try (intros; exact H).
    destruct (Z.eqb_spec (add_check A (ready_rmt (g_r s)) c (r_q (g_r s))) AQE_OK) as [Ek|Ek]; [|intros; exact H].
    apply check_ok in Ek. destruct Ek as (_ & Hnf & Hmin).
    assert (Hlt : queueEntries (r_q (g_r s)) < L) by (destruct ri_wf as (_ & _ & ?); lia).
    pose proof (prepare_spec A HA EXT c (r_q (g_r s)) (r_pins (g_r s)) ri_wf Hlt) as
      (S1 & S2 & S3 & S4 & S5 & S6 & S7 & S8 & S9 & S10). intros R'.
    constructor; cbn [g_r g_pc g_log g_acc r_q r_pins]; rewrite ?S2, ?S6, ?S7, ?S8; auto.
    now apply new_fits.
  - (* RCommit *)
    revert R'. cbn [rstep]. destruct (g_pc s) as [|c ne start|] eqn:Epc; try (intros; exact H).
    unfold add_commit. destruct (q_ignore (r_q (g_r s))) eqn:Ei; cbn [fst snd].
    { change (AQE_OK =? AQE_OK) with true. cbv iota. intros R'.
      constructor; cbn [with_rq g_r g_pc g_log g_acc r_q]; auto. }
    destruct (ready_rmt (g_r s)); cbn [fst snd].
    2:{ change (AQE_DEVICE_NOT_READY =? AQE_OK) with false. cbv iota. intros R'.
      constructor; cbn [with_rq g_r g_pc g_log g_acc r_q]; auto. }
    change (AQE_OK =? AQE_OK) with true. cbv iota. intros R'.
    destruct ri_prep as (Hc & Hlt & Hne & Ht & Hst & Hu & Htog).
    set (q := r_q (g_r s)) in *. set (q1 := set_end ne (set_wr (u8 (q_wr q + 1)) q)) in *.
    assert (Epend : pend A q1 = pend A q ++ [q_ent q (slot A (q_wr q))]) by (now apply pend_commit).
    constructor; cbn [with_rq g_r g_pc g_log g_acc r_q]; rewrite ?Epend; auto.
    + apply Forall_app. split; [assumption|]. constructor; [assumption|constructor].
    + rewrite sum_left_snoc, sum_steps_snoc, Hst. lia.
  - (* RStart *)
    revert R'. cbn [rstep]. destruct (g_pc s) as [| |start] eqn:Epc; try (intros; exact H).
    destruct (add_starts start (r_q (g_r s))); intros R'.
    2:{ constructor; cbn [g_r g_pc g_log g_acc]; auto. }
    revert R'. unfold start_g, start_rmt. rewrite (empty_rd A) by assumption.
    destruct (nonempty (r_q (g_r s))) eqn:En; cbn [negb]; intros R'.
    2:{ constructor; cbn [g_r g_pc g_log g_acc]; auto. }
    destruct (toggle_first_spec A HA (g_r s) ri_wf En) as (e & t & T1 & T2 & T3 & T4 & T5 & T6 & T7 & T8 & T9 & T10 & T11 & T12 & T13 & T14 & T15).
    constructor; cbn [g_r g_pc g_log g_acc r_q r_pins]; auto;
      change (pend A (set_running true (r_q (toggle_first A (g_r s))))) with (pend A (r_q (toggle_first A (g_r s)))).
    + cbn [set_running q_pin]. now rewrite T9.
    + rewrite T2. rewrite T1 in ci_fit0. constructor; [|exact (Forall_inv_tail ci_fit0)].
      rewrite T4. exact (Forall_inv ci_fit0).
    + rewrite T2, T4. rewrite T1 in ci_sum0. exact ci_sum0.
  - (* RAddNull *)
    revert R'. cbn [rstep]. destruct (g_pc s) eqn:Epc; try (intros; exact H).
    destruct (a_started _); [|intros; exact H].
    unfold start_g, start_rmt. rewrite (empty_rd A) by assumption.
    destruct (nonempty (r_q (g_r s))) eqn:En; cbn [negb]; intros R'.
    2:{ constructor; cbn [g_r g_pc g_log g_acc]; auto. }
    destruct (toggle_first_spec A HA (g_r s) ri_wf En) as (e & t & T1 & T2 & T3 & T4 & T5 & T6 & T7 & T8 & T9 & T10 & T11 & T12 & T13 & T14 & T15).
    constructor; cbn [g_r g_pc g_log g_acc r_q r_pins]; auto;
      change (pend A (set_running true (r_q (toggle_first A (g_r s))))) with (pend A (r_q (toggle_first A (g_r s)))).
    + cbn [set_running q_pin]. now rewrite T9.
    + rewrite T2. rewrite T1 in ci_fit0. constructor; [|exact (Forall_inv_tail ci_fit0)].
      rewrite T4. exact (Forall_inv ci_fit0).
    + rewrite T2, T4. rewrite T1 in ci_sum0. exact ci_sum0.
  - now apply cinv_encode.
  - revert R'. cbn [rstep]. destruct (q_running (r_q (g_r s)) && r_stopped (g_r s)); intros R'; [|exact H].
    constructor; cbn [done_rmt g_r g_pc g_log g_acc r_q]; auto.
  - revert R'. cbn [rstep]. intros R'. constructor; cbn [with_rq g_r g_pc g_log g_acc r_q]; auto.
  - revert R'. cbn [rstep]. destruct (_ && _); intros R'; [|exact H].
    constructor; cbn [g_r g_pc g_log g_acc r_q]; auto.
  - revert R'. cbn [rstep]. destruct (_ && _); intros R'; [|exact H].
    constructor; cbn [g_r g_pc g_log g_acc r_q]; auto.
  - revert R'. cbn [rstep]. destruct (g_pc s) eqn:Epc; intros R'; try exact H.
    constructor; cbn [with_rq g_r g_pc g_log g_acc r_q]; auto.
Qed.

Theorem cinv_run evs : forall s, cinv s -> Forall rev_fits evs -> cinv (rrun P A EXT evs s).
Proof.
  induction evs as [|ev evs IH]; intros s H Hok; [exact H|]. cbn [rrun].
  apply IH; [|exact (Forall_inv_tail Hok)]. apply cinv_step; [exact H|exact (Forall_inv Hok)].
Qed.
Lemma cinv_init garbage p test : cinv (rinit A garbage p test).
Proof.
  assert (Ep : pend A (q_init A garbage test) = []) by (apply pend_nil; reflexivity).
  constructor; cbn [rinit g_r g_pc g_log g_acc r_q]; rewrite ?Ep; auto.
  - now apply rinv_init.
  - now left.
Qed.
End Count.

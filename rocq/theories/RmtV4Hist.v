(** * RmtV4Hist: direction, pulse count and end of a transmission, ESP-IDF 4 RMT driver *)
From Coq Require Import ZArith Bool List Lia ZifyBool.
From Verif Require Import Base Queue QueueFacts QueuePos QueueHist Rmt RmtFacts RmtHist RmtCount RmtV4 RmtV4Facts.
Import ListNotations.
Open Scope Z_scope.
Ltac Zify.zify_post_hook ::= idtac.

(** rising edges of a part *)
Definition bedges (b : buf) : Z := rises false (halves (b_words b)).
Definition xedges (c : chunk) : Z := rises false (halves (x_words c)).
(** steps are sent with the commanded direction, and the pin does not change meanwhile *)
Definition chunk_ok (c : chunk) : Prop :=
  x_pin c = true -> 0 < xedges c -> x_before c = x_want c /\ x_after c = x_want c.

Lemma rises_nonneg l : forall b, 0 <= rises b l.
Proof.
  induction l as [|[b d] l IH]; intros lv; cbn [rises]; [lia|]. specialize (IH b).
  destruct (b && negb lv); lia.
Qed.

Section Hist.
Variable N : bool.
Variable A : arch.
Hypothesis HA : In A all_archs.
Variable EXT : bool.
Notation L := (QUEUE_LEN A).
Notation P := (psize N).
Notation apply4 := (apply4 N A).
Notation vstep := (vstep N A EXT).
Notation vrun := (vrun N A EXT).

Lemma min_ticks : 200 <= MIN_CMD_TICKS A <= 8000.
Proof. clear - HA. revert A HA. apply arch_cases; cbn; lia. Qed.
Lemma psz : P = 23 \/ P = 31.
Proof. unfold psize. destruct N; auto. Qed.

(** the fixed pauses have no edge *)
Lemma rep_lows n h : 0 <= h < 32768 -> rises false (halves (times n (u32 (65537 * h)))) = 0.
Proof.
  intros H. apply lows_rises. rewrite u32_id by lia.
  replace (65537 * h) with (h * 65536 + h) by lia. now apply lows_rep.
Qed.
Lemma idle_edges : rises false (halves (idle_words N)) = 0.
Proof. unfold idle_words. destruct psz as [-> | ->]; vm_compute; reflexivity. Qed.
Lemma div_small n d : 0 <= n <= 10000 -> 1 <= d -> 0 <= n / d < 32768.
Proof.
  intros Hn Hd. split; [apply Z.div_pos; lia|].
  apply Z.le_lt_trans with (n / 1); [apply Z.div_le_compat_l; lia|]. rewrite Z.div_1_r. lia.
Qed.
Lemma turn_edges : rises false (halves (turn_words N A)) = 0.
Proof. unfold turn_words. pose proof min_ticks. pose proof psz. apply rep_lows. apply div_small; lia. Qed.
Lemma stop_edges : rises false (halves (stop_words N A)) = 0.
Proof. unfold stop_words. pose proof min_ticks. apply rep_lows. apply div_small; lia. Qed.
Lemma fixed_length : Z.of_nat (length (idle_words N)) = P /\ Z.of_nat (length (turn_words N A)) = P
  /\ Z.of_nat (length (stop_words N A)) = P.
Proof. unfold idle_words, turn_words, stop_words. rewrite !times_length. pose proof psz. lia. Qed.

(** length of the pause before a change of direction *)
Lemma turn_pause two w : let q := r_q (w_r w) in
  q_rd q <> q_wr q -> e_toggle (head A q) = true -> b_steps (part_of (negb two) w) = true ->
  let b := part_of two (apply4 two w) in
  rises false (halves (b_words b)) = 0 /\ MIN_CMD_TICKS A <= duration (b_words b) < MIN_CMD_TICKS A + 2 * P.
Proof.
  intros q H1 H2 H3. unfold RmtV4.apply4. fold q. rewrite (proj2 (Z.eqb_neq _ _) H1), H2, H3. cbn [andb].
  assert (E : forall b v, part_of two (put two b v) = b) by (intros; destruct two; reflexivity).
  cbv zeta. rewrite E. cbn [b_words]. split; [apply turn_edges|].
  clear - HA. revert A HA. unfold psize. destruct N; apply arch_cases; vm_compute; split; congruence.
Qed.

(** length of the pause with which a transmission ends *)
Lemma stop_pause w : let q := r_q (w_r w) in q_rd q = q_wr q ->
  let w' := apply4 true w in
  r_stopped (w_r w') = true /\ w_conti w' = false /\ w_one w' = w_one w
  /\ rises false (halves (b_words (w_two w'))) = 0
  /\ duration (b_words (w_two w')) = 2 * P * ((MIN_CMD_TICKS A + 61) / 62).
Proof.
  intros q H. unfold RmtV4.apply4. fold q. rewrite (proj2 (Z.eqb_eq _ _) H). cbv zeta.
  unfold stop4. cbn [w_r w_conti w_one w_two stopped r_stopped words b_words].
  repeat (split; [solve [reflexivity | apply stop_edges]|]).
  clear - HA. revert A HA. unfold psize. destruct N; apply arch_cases; vm_compute; reflexivity.
Qed.

(** ** The symbols of an entry *)
Definition ent4 (e : entry) : Prop := ent_ok e /\ (e_steps e = 0 -> 200 <= e_ticks e).
Lemma part4_length two s t : 0 <= s < 256 -> 200 <= t < 65536 \/ s <> 0 ->
  P - 1 <= Z.of_nat (length (fst (v4_part N two s t))) <= P.
Proof.
  intros Hs Ht. unfold v4_part. destruct (Z.eqb_spec s 0) as [E|E].
  - cbn [fst]. destruct (pause4_good N two t ltac:(lia)) as (-> & _). lia.
  - assert (HP2 : 2 * (P / 2) = P - 1) by (destruct psz as [-> | ->]; reflexivity).
    pose proof psz. unfold v4_steps. destruct (t =? 65535); [destruct (Z.ltb_spec s (P / 2))|].
    + cbn [fst]. rewrite !app_length, concat_times_length, times_length. cbn [length long_step]. lia.
    + cbn [fst]. rewrite !app_length, concat_times_length. cbn [length long_step]. lia.
    + destruct ((s <? 2 * P) && negb (s =? P)) eqn:Eb; cbn [fst].
      * set (n := if s >? P then s / 2 else s).
        assert (Hn : 0 < n < P).
        { unfold n. pose proof (Z.div_mod s 2 ltac:(lia)). pose proof (Z.mod_pos_bound s 2 ltac:(lia)).
          destruct (Z.gtb_spec s P); lia. }
        rewrite !app_length, !times_length. cbn [length]. lia.
      * rewrite !app_length, !times_length. cbn [length]. lia.
Qed.
Lemma part4_left two s t : 0 <= s < 256 -> 0 <= snd (v4_part N two s t) < 256 /\
  (s <> 0 -> snd (v4_part N two s t) < s) /\ (s = 0 -> snd (v4_part N two s t) = 0).
Proof.
  intros Hs. unfold v4_part. destruct (Z.eqb_spec s 0) as [E|E]; [cbn [snd]; lia|].
  assert (HP2 : 2 * (P / 2) = P - 1) by (destruct psz as [-> | ->]; reflexivity).
  pose proof psz. unfold v4_steps. destruct (t =? 65535); [destruct (Z.ltb_spec s (P / 2))|]; cbn [snd].
  - lia.
  - rewrite u8_id by lia. lia.
  - destruct ((s <? 2 * P) && negb (s =? P)) eqn:Eb; cbn [snd].
    + pose proof (Z.div_mod s 2 ltac:(lia)). pose proof (Z.mod_pos_bound s 2 ltac:(lia)).
      destruct (Z.gtb_spec s P); rewrite u8_id by lia; lia.
    + rewrite u8_id by lia. lia.
Qed.
Lemma over_length ws old : Z.of_nat (length ws) <= P -> Z.of_nat (length old) = P ->
  Z.of_nat (length (over ws old)) = P.
Proof. intros H H0. unfold over. rewrite app_length, skipn_length. lia. Qed.
Lemma over_full ws old : Z.of_nat (length ws) = P -> Z.of_nat (length old) = P -> over ws old = ws.
Proof. intros H H0. unfold over. rewrite skipn_all2 by lia. apply app_nil_r. Qed.

(** ** apply_command() *)
Definition wq (w : v4) : queue := r_q (w_r w).
Record wok (w : v4) : Prop := mkWok {
  wk_wf : wf A (wq w);
  wk_ent : Forall ent4 (pend A (wq w));
  wk_one : Z.of_nat (length (b_words (w_one w))) = P;
  wk_two : Z.of_nat (length (b_words (w_two w))) = P
}.
Lemma wk_part w two : wok w -> Z.of_nat (length (b_words (part_of two w))) = P.
Proof. intros []. destruct two; assumption. Qed.
Lemma part_put two b w : part_of two (put two b w) = b.
Proof. destruct two; reflexivity. Qed.
Lemma part_put' two b w : part_of (negb two) (put two b w) = part_of (negb two) w.
Proof. destruct two; reflexivity. Qed.
Lemma put_r two b w : w_r (put two b w) = w_r w /\ w_conti (put two b w) = w_conti w.
Proof. destruct two; split; reflexivity. Qed.
Lemma part_r two r w : part_of two (with_r r w) = part_of two w.
Proof. destruct two; reflexivity. Qed.
Lemma wok_put two b w : wok w -> Z.of_nat (length (b_words b)) = P -> wok (put two b w).
Proof.
  intros [W1 W2 W3 W4] Hb. unfold wq in *.
  destruct two; constructor; unfold wq; cbn [put w_r w_one w_two]; assumption.
Qed.

Record applied (two : bool) (w w1 : v4) : Prop := mkApplied {
  ap_wok : wok w1;
  ap_running : q_running (wq w1) = q_running (wq w);
  ap_hcu : q_hcu (wq w1) = q_hcu (wq w);
  ap_pin : q_pin (wq w1) = q_pin (wq w);
  ap_end : q_end (wq w1) = q_end (wq w);
  ap_wr : q_wr (wq w1) = q_wr (wq w);
  ap_entries : queueEntries (wq w1) <= queueEntries (wq w);
  ap_slot : queueEntries (wq w) < L ->
            q_ent (wq w1) (slot A (q_wr (wq w))) = q_ent (wq w) (slot A (q_wr (wq w)));
  ap_other : part_of (negb two) w1 = part_of (negb two) w;
  ap_stop : (w_conti w1 = w_conti w /\ r_stopped (w_r w1) = r_stopped (w_r w) /\ (two = true -> pend A (wq w) <> []))
            \/ (two = true /\ w_conti w1 = false /\ r_stopped (w_r w1) = true /\ pend A (wq w) = []);
  ap_flag : b_steps (part_of two w1) = false -> bedges (part_of two w1) = 0;
  ap_case :
    (pend A (wq w1) = pend A (wq w) /\ bedges (part_of two w1) = 0 /\ level w1 = level w
     /\ (pend A (wq w) = [] \/ b_steps (part_of two w1) = false /\
           exists e t, pend A (wq w) = e :: t /\ e_toggle e = true /\ b_steps (part_of (negb two) w) = true))
    \/ exists e t, pend A (wq w) = e :: t
       /\ (e_toggle e = true -> b_steps (part_of (negb two) w) = false)
       /\ level w1 = xorb (level w) (e_toggle e)
       /\ b_want (part_of two w1) = Bool.eqb (e_up e) (q_hcu (wq w))
       /\ b_words (part_of two w1)
          = over (fst (v4_part N two (e_steps e) (e_ticks e))) (b_words (part_of two w))
       /\ pend A (wq w1) =
          (if snd (v4_part N two (e_steps e) (e_ticks e)) =? 0
           then if e_repeat e then untoggle e :: t else t
           else with_steps (snd (v4_part N two (e_steps e) (e_ticks e))) (untoggle e) :: t)
}.

Lemma apply_spec two w : wok w -> applied two w (apply4 two w).
Proof.
  intros Hw. pose proof Hw as [W1 W2 W3 W4]. unfold RmtV4.apply4. fold (wq w).
  rewrite (empty_rd A) by exact W1. destruct fixed_length as (FL1 & FL2 & FL3).
  destruct (nonempty (wq w)) eqn:En; cbn [negb].
  2:{ pose proof (proj1 (nonempty_false A _) En) as Ep. destruct two.
      - constructor; try reflexivity; try (intros; reflexivity); try lia.
        + constructor; cbn [stop4 w_one w_two wq w_r stopped r_q words b_words]; assumption.
        + right. auto.
        + intros _. cbn [part_of stop4 w_two]. unfold bedges. cbn [words b_words]. apply stop_edges.
        + left. split; [reflexivity|]. split; [|split; [reflexivity|now left]].
          cbn [part_of stop4 w_two]. unfold bedges. cbn [words b_words]. apply stop_edges.
      - constructor; try reflexivity; try (intros; reflexivity); try lia.
        + apply (wok_put false); assumption.
        + left. split; [reflexivity|]. split; [reflexivity|discriminate].
        + intros _. cbn [part_of put w_one]. unfold bedges. cbn [b_words]. apply idle_edges.
        + left. split; [reflexivity|]. split; [|split; [reflexivity|now left]].
          cbn [part_of put w_one]. unfold bedges. cbn [b_words]. apply idle_edges. }
  assert (Hn0 : queueEntries (wq w) <> 0) by (now apply nonempty_iff).
  pose proof (pend_pop A HA _ W1 Hn0) as Hh. pose proof (pend_ne A _ En) as Hne.
  destruct (e_toggle (head A (wq w)) && b_steps (part_of (negb two) w)) eqn:Et.
  { apply andb_true_iff in Et. destruct Et as [Et Eb].
    assert (EQ : wq (put two (mkBuf (turn_words N A) false (b_want (part_of two w))) w) = wq w).
    { unfold wq. now rewrite (proj1 (put_r _ _ _)). }
    constructor; rewrite ?EQ, ?part_put, ?part_put', ?(proj1 (put_r _ _ _)), ?(proj2 (put_r _ _ _));
      auto; try lia.
    - now apply wok_put.
    - intros _. unfold bedges. cbn [b_words]. apply turn_edges.
    - left. split; [reflexivity|]. split; [unfold bedges; cbn [b_words]; apply turn_edges|].
      split; [unfold level; now rewrite (proj1 (put_r _ _ _))|].
      right. split; [reflexivity|]. eauto. }
  destruct (toggle_first_spec A HA (w_r w) W1 En) as (e & t & T1 & T2 & T3 & T4 & T5 & T6 & T7 & T8 & T9 & T10 & T11 & T12 & T13 & T14 & T15).
  fold (wq w) in T1, T4, T6, T7, T8, T9, T10, T11, T14, T15.
  set (r1 := toggle_first A (w_r w)) in *. clearbody r1. rewrite T3.
  rewrite T1 in W2. pose proof (Forall_inv W2) as He. pose proof (Forall_inv_tail W2) as Hte.
  assert (Es : e_steps e = e_steps (head A (wq w)) /\ e_ticks e = e_ticks (head A (wq w))
    /\ e_repeat e = e_repeat (head A (wq w)) /\ e_up e = e_up (head A (wq w))) by (rewrite T4; auto).
  destruct Es as (Es1 & Es2 & Es3 & Es4). rewrite Es1, Es2, Es3, Es4, T8.
  set (h := head A (wq w)) in *. destruct He as [[He1 He2] He3].
  pose proof (part4_length two (e_steps h) (e_ticks h) He2 ltac:(lia)) as PL.
  pose proof (part4_left two (e_steps h) (e_ticks h) He2) as (PF1 & PF2 & PF3).
  set (x := v4_part N two (e_steps h) (e_ticks h)) in *.
  assert (Hn1 : queueEntries (r_q r1) <> 0) by (rewrite T6; exact Hn0).
  pose proof (pend_pop A HA _ T5 Hn1) as Hh1. rewrite T2, T3 in Hh1. injection Hh1 as Ht1.
  set (q2 := if snd x =? 0 then if e_repeat h then r_q r1 else q_pop (r_q r1)
             else set_first A (with_steps (snd x) e) (r_q r1)).
  assert (Q : wf A q2 /\ pend A q2 = (if snd x =? 0 then if e_repeat h then untoggle h :: t else t
                                     else with_steps (snd x) (untoggle h) :: t)
    /\ queueEntries q2 <= queueEntries (wq w) /\ q_running q2 = q_running (wq w)
    /\ q_hcu q2 = q_hcu (wq w) /\ q_pin q2 = q_pin (wq w) /\ q_end q2 = q_end (wq w)
    /\ q_wr q2 = q_wr (wq w)
    /\ (queueEntries (wq w) < L -> q_ent q2 (slot A (q_wr (wq w))) = q_ent (wq w) (slot A (q_wr (wq w))))).
  { unfold q2. rewrite <- T4. destruct (snd x =? 0); [destruct (e_repeat h)|].
    - rewrite T6. splits; auto; lia.
    - pose proof (entries_pop A _ T5 Hn1).
      splits; auto; try (now apply wf_pop); try lia.
    - unfold set_first. splits; auto; try lia.
      + rewrite Ht1. now apply pend_set_head.
      + change (queueEntries (r_q r1) <= queueEntries (wq w)). lia.
      + intros Hq. rewrite <- T14, <- T11 by assumption. apply free_set_head; auto; lia. }
  destruct Q as (Q1 & Q2 & Q3 & Q4 & Q5 & Q6 & Q7 & Q8 & Q9). clearbody q2.
  set (b := mkBuf (over (fst x) (b_words (part_of two w))) (negb (e_steps h =? 0))
             (Bool.eqb (e_up h) (q_hcu (wq w)))).
  set (w1 := with_r (mkRmt q2 (r_pins r1) (r_stopped r1) (r_last r1)) w).
  assert (Hb1 : b_words b = over (fst x) (b_words (part_of two w))) by reflexivity.
  assert (Hb2 : b_steps b = false -> bedges b = 0).
  { unfold b. cbn [b_steps]. intros K. assert (Ez : e_steps h = 0) by lia. unfold bedges. cbn [b_words].
    assert (Ex : fst x = v4_pause N two (e_ticks h)) by (unfold x, v4_part; rewrite Ez; reflexivity).
    destruct (pause4_good N two (e_ticks h) ltac:(lia)) as (G1 & G2 & G3 & G4).
    rewrite Ex, over_full; [now apply lows_rises|exact G1|now apply wk_part]. }
  assert (Hb3 : b_want b = Bool.eqb (e_up h) (q_hcu (wq w))) by reflexivity.
  assert (Hbl : Z.of_nat (length (b_words b)) = P).
  { rewrite Hb1. apply over_length; [lia|now apply wk_part]. }
  assert (EQ : wq (put two b w1) = q2) by (unfold wq; now rewrite (proj1 (put_r _ _ _))).
  assert (Hw1 : wok w1).
  { constructor; unfold wq, w1; cbn [with_r w_r r_q w_one w_two]; auto.
    rewrite Q2. destruct (Z.eqb_spec (snd x) 0); [destruct (e_repeat h)|]; [|assumption|].
    - constructor; [|assumption]. split; [split; assumption|assumption].
    - constructor; [|assumption]. split; [split|]; cbn [with_steps untoggle e_steps e_ticks]; auto. contradiction. }
  constructor; rewrite ?EQ, ?part_put, ?part_put', ?(proj1 (put_r _ _ _)), ?(proj2 (put_r _ _ _)); auto.
  - now apply wok_put.
  - right. exists h, t. split; [exact T1|]. split; [|split; [|split; [exact Hb3|split; [exact Hb1|exact Q2]]]].
    + intros K. rewrite K in Et. exact Et.
    + unfold level. rewrite (proj1 (put_r _ _ _)). cbn [w1 with_r w_r r_pins r_q]. rewrite Q6. exact T15.
Qed.

Definition wsync (w : v4) : Prop := has_pin (wq w) = true ->
  levels (q_hcu (wq w)) (qe_dir (q_end (wq w))) (level w) (pend A (wq w)).
Definition part_good (w : v4) (b : buf) : Prop :=
  (b_steps b = false -> bedges b = 0) /\ (0 < bedges b -> has_pin (wq w) = true -> level w = b_want b).

Lemma apply_sync two w w1 : applied two w w1 -> wsync w -> wsync w1.
Proof.
  intros [] H Hp. assert (Hp' : has_pin (wq w) = true) by (unfold has_pin in *; now rewrite <- ap_pin0).
  specialize (H Hp'). rewrite ap_hcu0, ap_end0.
  destruct ap_case0 as [(-> & _ & -> & _)|(e & t & E1 & E2 & E3 & E4 & E5 & E6)]; [exact H|].
  rewrite E1 in H. cbn [levels] in H. rewrite <- E3 in H. rewrite E6.
  destruct (_ =? 0); [destruct (e_repeat e)|]; [|exact (proj2 H)|];
    cbn [levels with_steps untoggle e_toggle e_up]; rewrite xorb_false_r; exact H.
Qed.
Lemma apply_good two w w1 : applied two w w1 -> (pend A (wq w) <> [] -> wsync w) -> part_good w1 (part_of two w1).
Proof.
  intros [] H. split; [assumption|]. intros Hb Hp.
  destruct ap_case0 as [(_ & E & _)|(e & t & E1 & E2 & E3 & E4 & E5 & E6)]; [lia|].
  assert (Hp' : has_pin (wq w) = true) by (unfold has_pin in *; now rewrite <- ap_pin0).
  rewrite E1 in H. specialize (H ltac:(discriminate) Hp'). rewrite E1 in H. cbn [levels] in H.
  rewrite E3, E4. exact (proj1 H).
Qed.
(** the pin is left alone while the other part has steps *)
Lemma apply_keeps two w w1 b : applied two w w1 -> b = part_of (negb two) w -> part_good w b ->
  (0 < bedges b -> level w1 = level w) /\ part_good w1 b.
Proof.
  intros [] -> [G1 G2].
  assert (K : 0 < bedges (part_of (negb two) w) -> level w1 = level w).
  { intros Hb. destruct ap_case0 as [(_ & _ & E & _)|(e & t & E1 & E2 & E3 & E4 & E5 & E6)]; [exact E|].
    destruct (e_toggle e); [|now rewrite E3, xorb_false_r]. specialize (G1 (E2 eq_refl)). lia. }
  split; [exact K|]. split; [exact G1|]. intros Hb Hp. rewrite K by assumption. apply G2; [assumption|].
  unfold has_pin in *. now rewrite <- ap_pin0.
Qed.

(** ** Invariant *)
Record vinv (s : vst) : Prop := mkVinv {
  vi_w : wok (v_w s);
  vi_prep : match v_pc s with
            | Prepared c ne _ =>
              cmd_ok c /\ (c_steps c = 0 -> 200 <= c_ticks c) /\ queueEntries (v_q s) < L /\
              qe_dir ne = cmd_dir c (v_q s) /\
              (let e := q_ent (v_q s) (slot A (q_wr (v_q s))) in
               e_ticks e = c_ticks c /\ e_steps e = c_steps c /\ e_up e = c_up c /\
               (has_pin (v_q s) = true -> e_toggle e = xorb (qe_dir (q_end (v_q s))) (cmd_dir c (v_q s))))
            | _ => True
            end;
  vi_sync : nonempty (v_q s) = true \/ (q_running (v_q s) = true /\ r_stopped (w_r (v_w s)) = false)
            \/ v_pc s <> Free -> wsync (v_w s);
  vi_run : v_hw s <> Off -> q_running (v_q s) = true;
  vi_loop : v_hw s <> Loop;
  vi_stop : q_running (v_q s) = true -> r_stopped (w_r (v_w s)) = true -> pend A (v_q s) = [];
  vi_conti : v_hw s <> Off -> w_conti (v_w s) = false -> r_stopped (w_r (v_w s)) = true;
  vi_old : v_hw s <> Off -> N = false -> w_conti (v_w s) = negb (r_stopped (w_r (v_w s)));
  vi_parts : v_hw s <> Off -> forall two, part_good (v_w s) (part_of two (v_w s));
  vi_log : Forall chunk_ok (v_log s)
}.

Lemma vinv_init garbage mem p test : vinv (vinit N A garbage mem p test).
Proof.
  assert (E : queueEntries (q_init A garbage test) = 0) by reflexivity.
  assert (Ep : pend A (q_init A garbage test) = []) by (apply pend_nil; exact E).
  pose proof psz as HP.
  assert (ML : forall (f : nat -> Z), Z.of_nat (length (map f (seq 0 (Z.to_nat P)))) = P).
  { intros f. rewrite map_length, seq_length. lia. }
  constructor; unfold v_q; cbn [vinit v_w v_pc v_hw v_log w_r r_q r_stopped]; try (intros; congruence); auto.
  - constructor; unfold wq; cbn [w_r r_q w_one w_two b_words]; rewrite ?Ep; auto.
    split; [cbn; lia|]. split; [cbn; lia|]. rewrite E. destruct (ql_cases A HA); lia.
  - intros [K|[[K _]|K]]; exfalso; try discriminate. congruence.
Qed.

Definition vev_ok (ev : vevent) : Prop :=
  match ev with VBegin c _ => cmd_ok c | VStopA | VStopB => False | _ => True end.

Lemma rate_pause c : cmd_ok c -> MIN_CMD_TICKS A <= command_rate_ticks c -> c_steps c = 0 -> 200 <= c_ticks c.
Proof.
  intros [H1 H2] H E. pose proof min_ticks. unfold command_rate_ticks in H. rewrite E in H.
  cbn in H. lia.
Qed.

Lemma vinv_begin s c start : vinv s -> cmd_ok c -> vinv (vstep (VBegin c start) s).
Proof.
  intros H Hc. cbn [RmtV4.vstep]. destruct (v_pc s) eqn:Epc; try exact H.
  destruct (Z.eqb_spec (add_check A (ready_rmt (w_r (v_w s))) c (r_q (w_r (v_w s)))) AQE_OK) as [Ek|Ek]; [|exact H].
  apply check_ok in Ek. destruct Ek as (Hrdy & Hnf & Hmin).
  destruct H as [W Hprep Hsync Hrun Hloop Hstop Hconti Hold Hparts Hlog].
  rewrite Epc in Hsync. pose proof W as [W1 W2 W3 W4]. unfold wq, v_q, wsync, level in *.
  set (w := v_w s) in *. set (q := r_q (w_r w)) in *.
  assert (Hlt : queueEntries q < L) by (destruct W1 as (_ & _ & ?); lia).
  pose proof (prepare_spec A HA EXT c q (r_pins (w_r w)) W1 Hlt) as
    (S1 & S2 & S3 & S4 & S5 & S6 & S7 & S8 & S9 & S10).
  set (q1 := fst (add_prepare A EXT c q (r_pins (w_r w)))) in *.
  set (p1 := snd (add_prepare A EXT c q (r_pins (w_r w)))) in *. clearbody q1 p1.
  assert (Hpin : has_pin q1 = has_pin q) by (unfold has_pin; now rewrite S6).
  assert (Hcd : cmd_dir c q1 = cmd_dir c q) by (unfold cmd_dir; now rewrite S5).
  constructor; unfold v_q, wsync, wq, level;
    cbn [v_w v_pc v_hw v_log with_r w_r r_q r_pins r_stopped w_conti];
    rewrite ?S2, ?S4, ?S6, ?Hpin, ?Hcd, ?S7, ?S8; auto.
  - constructor; unfold wq; cbn [with_r w_r r_q w_one w_two]; rewrite ?S2; auto.
  - split; [assumption|]. split; [now apply rate_pause|]. split; [lia|]. split; [reflexivity|].
    cbn zeta. do 3 (split; [reflexivity|]). intros Hp. now apply S10.
  - intros _ Hp. rewrite S5. destruct (nonempty q) eqn:En.
    + destruct (S9 (or_introl eq_refl)) as [-> ->]. apply Hsync; auto.
    + destruct (q_running q) eqn:Er.
      * destruct (S9 (or_intror eq_refl)) as [-> ->]. apply Hsync; auto. right. left. split; [reflexivity|].
        unfold ready_rmt in Hrdy. fold q in Hrdy. rewrite Er in Hrdy. now apply negb_true_iff in Hrdy.
      * pose proof En as En'. apply (nonempty_false A) in En'. rewrite En'. cbn [levels]. now apply S10.
  - intros Hh two. destruct (S9 (or_intror (Hrun Hh))) as [_ ->]. destruct (Hparts Hh two) as [G1 G2].
    rewrite part_r. split; [exact G1|]. unfold wq, level in *. cbn [with_r w_r r_q r_pins].
    rewrite Hpin, S6. exact G2.
Qed.

(** the queue changes only in a way that does not matter *)
Lemma wok_q q w : wf A q -> Forall ent4 (pend A q) -> wok w -> wok (with_r (with_rq q (w_r w)) w).
Proof. intros H1 H2 []. constructor; unfold wq; cbn [with_r with_rq w_r r_q w_one w_two]; assumption. Qed.

Lemma vinv_commit s : vinv s -> vinv (vstep VCommit s).
Proof.
  intros H. cbn [RmtV4.vstep]. destruct (v_pc s) as [|c ne start|] eqn:Epc; try exact H.
  destruct H as [W Hprep Hsync Hrun Hloop Hstop Hconti Hold Hparts Hlog].
  rewrite Epc in Hsync, Hprep. specialize (Hsync ltac:(right; right; discriminate)).
  unfold add_commit, with_vq. change (r_q (w_r (v_w s))) with (v_q s).
  destruct (q_ignore (v_q s)) eqn:Ei; cbn [fst snd].
  { change (AQE_OK =? AQE_OK) with true. cbv iota. pose proof W as [W1 W2 W3 W4].
    constructor; unfold v_q in *; cbn [with_rq with_r v_w v_pc v_hw v_log w_r r_q r_stopped w_conti]; auto.
    now apply wok_q. }
  destruct (ready_rmt (w_r (v_w s))) eqn:Erd; cbn [fst snd].
  2:{ change (AQE_DEVICE_NOT_READY =? AQE_OK) with false. cbv iota. pose proof W as [W1 W2 W3 W4].
    constructor; unfold v_q in *; cbn [with_rq with_r v_w v_pc v_hw v_log w_r r_q r_stopped w_conti]; auto.
    now apply wok_q. }
  change (AQE_OK =? AQE_OK) with true. cbv iota.
  destruct Hprep as (Hc & Hc0 & Hlt & Hne & Ht & Hst & Hu & Htog).
  pose proof W as [W1 W2 W3 W4]. unfold wq in *. fold (v_q s) in W1, W2.
  set (q := v_q s) in *. set (q1 := set_end ne (set_wr (u8 (q_wr q + 1)) q)).
  set (e := q_ent q (slot A (q_wr q))) in *.
  assert (Epend : pend A q1 = pend A q ++ [e]) by (now apply pend_commit).
  constructor; unfold v_q; cbn [with_rq with_r v_w v_pc v_hw v_log w_r r_q r_stopped w_conti]; auto.
  - apply wok_q; [now apply wf_commit| |assumption]. rewrite Epend.
    apply Forall_app. split; [assumption|]. constructor; [|constructor].
    split; [|now rewrite Hst, Ht]. unfold ent_ok. rewrite Ht, Hst. exact Hc.
  - intros _ Hp. unfold wsync, wq, level in *. cbn [with_r with_rq w_r r_q r_pins] in *.
    fold (v_q s) in Hsync. fold q in Hsync. change (has_pin q1) with (has_pin q) in Hp.
    change (q_pin q1) with (q_pin q). change (q_hcu q1) with (q_hcu q). change (q_end q1) with ne.
    rewrite Epend. apply levels_snoc with (dir := qe_dir (q_end q)).
    + auto.
    + rewrite Hne. auto.
    + rewrite Hne. unfold cmd_dir. now rewrite Hu.
  - intros Hr Hs. exfalso. unfold ready_rmt in Erd. fold (v_q s) in Erd. fold q in Erd.
    change (q_running q1) with (q_running q) in Hr. rewrite Hr, Hs in Erd. discriminate.
Qed.

Lemma wok_pattern w : wok w -> wok (pattern N w).
Proof.
  intros H. unfold pattern. destruct N eqn:E; [exact H|]. destruct H as [W1 W2 W3 W4].
  assert (AL : forall n a b, length (alternating n a b) = n).
  { induction n; intros; cbn; auto. }
  pose proof psz. rewrite <- E in *.
  constructor; unfold wq; cbn [w_r r_q w_one w_two words b_words]; rewrite ?AL; auto; lia.
Qed.
Lemma pattern_r w : w_r (pattern N w) = w_r w /\ w_conti (pattern N w) = w_conti w.
Proof. unfold pattern. destruct N; auto. Qed.

Lemma start_spec w : wok w -> nonempty (wq w) = true ->
  exists w1 w2 w3, start4 N A w = (w3, true) /\ applied false w1 w2 /\ applied true w2 (apply4 true w2)
  /\ wok w1 /\ (wsync w -> wsync w1) /\ q_running (wq w1) = true /\ q_pin (wq w1) = q_pin (wq w)
  /\ r_stopped (w_r w1) = false
  /\ (exists e t, pend A (wq w) = e :: t /\ pend A (wq w1) = untoggle e :: t)
  /\ q_wr (wq w1) = q_wr (wq w)
  /\ w3 = mkV4 (if N then w_r (apply4 true w2) else stopped false (w_r (apply4 true w2))) true
            (w_one (apply4 true w2)) (w_two (apply4 true w2)).
Proof.
  intros Hw Hn. pose proof Hw as [W1 W2 W3 W4]. unfold start4.
  set (w0 := pattern N (with_r (stopped false (mkrun true (w_r w))) w)).
  assert (E0 : w_r w0 = stopped false (mkrun true (w_r w))) by (unfold w0; now rewrite (proj1 (pattern_r _))).
  assert (Hw0 : wok w0).
  { apply wok_pattern. constructor; unfold wq; cbn [with_r w_r stopped mkrun r_q w_one w_two]; assumption. }
  clearbody w0. pose proof Hw0 as [V1 V2 V3 V4]. unfold wq in V1, V2.
  change (q_rd (r_q (w_r w0)) =? q_wr (r_q (w_r w0))) with (q_rd (r_q (w_r w0)) =? q_wr (r_q (w_r w0))).
  rewrite (empty_rd A) by exact V1.
  assert (Hn0 : nonempty (r_q (w_r w0)) = true) by (rewrite E0; exact Hn).
  rewrite Hn0. cbn [negb].
  destruct (toggle_first_spec A HA (w_r w0) V1 Hn0) as (e & t & T1 & T2 & T3 & T4 & T5 & T6 & T7 & T8 & T9 & T10 & T11 & T12 & T13 & T14 & T15).
  set (r1 := toggle_first A (w_r w0)) in *. clearbody r1.
  set (w1 := flags_on (with_r r1 w0)).
  assert (Hw1 : wok w1).
  { constructor; unfold wq, w1; cbn [flags_on with_r w_r w_one w_two b_words]; auto.
    rewrite T2. rewrite T1 in V2. constructor; [|exact (Forall_inv_tail V2)].
    rewrite T4. exact (Forall_inv V2). }
  assert (EP : pend A (r_q (w_r w0)) = pend A (wq w)) by (rewrite E0; reflexivity).
  pose proof (apply_spec false w1 Hw1) as A1. pose proof (apply_spec true _ (ap_wok _ _ _ A1)) as A2.
  exists w1, (apply4 false w1). eexists. split; [reflexivity|].
  split; [exact A1|]. split; [exact A2|]. split; [exact Hw1|].
  split; [|splits; [| | | |unfold wq, w1; cbn [flags_on with_r w_r]; rewrite T11, E0; reflexivity|reflexivity]].
  - intros H Hp. unfold wsync, wq, level, w1 in *. cbn [flags_on with_r w_r] in *.
    rewrite T8, T9, T10, T15, T2. rewrite E0 in *.
    cbn [stopped mkrun set_running r_q r_pins q_hcu q_end q_pin] in *.
    assert (Hp' : has_pin (r_q (w_r w)) = true).
    { unfold has_pin in *. rewrite T9 in Hp. exact Hp. }
    specialize (H Hp').
    change (pend A (set_running true (r_q (w_r w)))) with (pend A (r_q (w_r w))) in T1. rewrite T1 in H.
    cbn [levels] in H. rewrite T4. cbn [levels untoggle e_toggle e_up]. rewrite xorb_false_r. exact H.
  - unfold wq, w1. cbn [flags_on with_r w_r]. rewrite T7, E0. reflexivity.
  - unfold wq, w1. cbn [flags_on with_r w_r]. rewrite T9, E0. reflexivity.
  - unfold w1. cbn [flags_on with_r w_r]. rewrite T12, E0. reflexivity.
  - exists (head A (r_q (w_r w0))), t. rewrite <- EP. split; [exact T1|].
    unfold wq, w1. cbn [flags_on with_r w_r]. rewrite T2. now rewrite T4.
Qed.
Lemma start_empty w : wok w -> nonempty (wq w) = false ->
  start4 N A w = (pattern N (with_r (stopped false (mkrun true (w_r w))) w), false).
Proof.
  intros Hw Hn. unfold start4. rewrite (proj1 (pattern_r _)).
  change (q_rd (r_q (w_r (with_r (stopped false (mkrun true (w_r w))) w)))) with (q_rd (wq w)).
  change (q_wr (r_q (w_r (with_r (stopped false (mkrun true (w_r w))) w)))) with (q_wr (wq w)).
  rewrite (empty_rd A) by apply Hw. rewrite Hn. reflexivity.
Qed.

Lemma vinv_start s : vinv s -> (forall c ne st, v_pc s <> Prepared c ne st) -> q_running (v_q s) = false ->
  wsync (v_w s) -> vinv (start_v N A s).
Proof.
  intros H Hpc Hr Hs. unfold start_v. destruct H as [W Hprep Hsync Hrun Hloop Hstop Hconti Hold Hparts Hlog].
  destruct (nonempty (v_q s)) eqn:En.
  2:{ rewrite start_empty by assumption. cbn [fst snd].
      set (w0 := with_r (stopped false (mkrun true (w_r (v_w s)))) (v_w s)).
      assert (W0 : wok w0).
      { destruct W. constructor; unfold wq, w0; cbn [with_r w_r stopped mkrun r_q w_one w_two]; assumption. }
      destruct (pattern_r w0) as [P1 P2].
      constructor; unfold v_q; cbn [v_w v_pc v_hw v_log]; rewrite ?P1, ?P2; try congruence; auto.
      - now apply wok_pattern.
      - intros _ Hp. unfold wsync, level, wq in *. rewrite P1 in Hp |- *.
        exact (Hs Hp).
      - intros _ K. discriminate. }
  destruct (start_spec (v_w s) W En) as (w1 & w2 & w3 & E & A1 & A2 & Hw1 & Y1 & R1 & Pn & S1 & _ & _ & E3).
  rewrite E. cbn [fst snd]. specialize (Y1 Hs).
  pose proof (apply_sync _ _ _ A1 Y1) as Y2. pose proof (apply_sync _ _ _ A2 Y2) as Y3.
  assert (G2 : part_good w2 (part_of false w2)) by (apply (apply_good _ _ _ A1); auto).
  assert (G3 : part_good (apply4 true w2) (part_of true (apply4 true w2))) by (apply (apply_good _ _ _ A2); auto).
  destruct (apply_keeps true w2 _ _ A2 eq_refl G2) as [K1 K2].
  pose proof (ap_other _ _ _ A2) as O2. cbn [negb] in O2, K1, K2. rewrite <- O2 in K2.
  pose proof (ap_wok _ _ _ A2) as Wk. pose proof (ap_stop _ _ _ A2) as St.
  pose proof (ap_running _ _ _ A2) as R3. rewrite (ap_running _ _ _ A1), R1 in R3.
  assert (Sp : r_stopped (w_r (apply4 true w2)) = true -> pend A (wq (apply4 true w2)) = []).
  { destruct St as [(_ & K & _)|(_ & _ & _ & K)].
    - rewrite K. destruct (ap_stop _ _ _ A1) as [(_ & -> & _)|(? & _)]; congruence.
    - intros _. destruct (ap_case _ _ _ A2) as [(-> & _)|(e & t & E1 & _)]; [exact K|congruence]. }
  set (wf := apply4 true w2) in *. clearbody wf.
  assert (Q3 : wq w3 = wq wf) by (rewrite E3; unfold wq; destruct N; reflexivity).
  assert (L3 : level w3 = level wf) by (rewrite E3; unfold level; destruct N; reflexivity).
  assert (P3 : forall two, part_of two w3 = part_of two wf) by (rewrite E3; intros []; reflexivity).
  assert (GG : forall two, part_good w3 (part_of two w3)).
  { intros two. rewrite P3. unfold part_good. rewrite Q3, L3. destruct two; [exact G3|exact K2]. }
  constructor; unfold v_q, wsync; cbn [v_w v_pc v_hw v_log]; fold (wq w3); rewrite ?Q3; auto; try discriminate.
  - destruct Wk. constructor; rewrite ?Q3, ?E3; auto.
  - intros _ Hp. rewrite L3. exact (Y3 Hp).
  - intros _ K. apply Sp. rewrite E3 in K. revert K. cbn [w_r]. destruct N; auto. discriminate.
  - rewrite E3. discriminate.
  - intros _ K. rewrite E3. cbn [w_conti w_r]. rewrite K. reflexivity.
  - apply Forall_app. split; [exact Hlog|]. constructor; [|constructor].
    intros Hp Hb. cbn [chunk_of x_pin x_before x_after x_want] in *.
    destruct (GG false) as [_ K]. split; apply K; assumption.
Qed.

Lemma nonempty_mono a b : queueEntries a <= queueEntries b -> nonempty a = true -> nonempty b = true.
Proof. unfold nonempty. pose proof (entries_range a). lia. Qed.
Lemma vinv_sent s : vinv s -> vinv (vstep VSent s).
Proof.
  intros H. cbn [RmtV4.vstep]. unfold sent.
  destruct (v_hw s) eqn:Ehw; try exact H.
  - (* the first part has been sent *)
    destruct H as [W Hprep Hsync Hrun Hloop Hstop Hconti Hold Hparts Hlog]. rewrite Ehw in *.
    destruct (negb N && r_stopped (w_r (v_w s))) eqn:Es.
    + constructor; cbn [v_w v_pc v_hw v_log]; auto; try (intros; discriminate);
        try (intros _; first [apply Hrun|apply Hconti|apply Hold|apply Hparts]; discriminate).
      apply Forall_app. split; [exact Hlog|]. constructor; [|constructor].
      intros Hp Hb. cbn [chunk_of x_pin x_before x_after x_want] in *.
      destruct (Hparts ltac:(discriminate) true) as [_ K]. split; apply K; assumption.
    + pose proof (apply_spec false (v_w s) W) as A1. set (w := v_w s) in *.
      pose proof (apply_good _ _ _ A1) as G1.
      specialize (G1 ltac:(intros Hne; apply Hsync; left; destruct (nonempty (v_q s)) eqn:K; [reflexivity|];
        apply (nonempty_false A) in K; contradiction)).
      destruct (apply_keeps false w _ _ A1 eq_refl (Hparts ltac:(discriminate) true)) as [K1 K2].
      pose proof (ap_other _ _ _ A1) as O2. cbn [negb] in O2, K1, K2. rewrite <- O2 in K2.
      pose proof A1 as [B1 B2 B3 B4 B5 B6 B7 B8 B9 B10 B11 B12].
      assert (B10' : w_conti (apply4 false w) = w_conti w /\ r_stopped (w_r (apply4 false w)) = r_stopped (w_r w))
        by (destruct B10 as [(? & ? & _)|(? & _)]; [auto|discriminate]).
      destruct B10' as [C1 C2]. clear B10.
      assert (Sp : pend A (wq w) = [] -> pend A (wq (apply4 false w)) = []).
      { intros K. destruct B12 as [(-> & _)|(e & t & E1 & _)]; [exact K|congruence]. }
      pose proof (apply_sync _ _ _ A1) as AS.
      set (w1 := apply4 false w) in *. clearbody w1. unfold v_q in *. fold w in Hprep, Hsync, Hrun, Hstop.
      fold (wq w) in Hprep, Hsync, Hrun, Hstop.
      constructor; unfold v_q; cbn [v_w v_pc v_hw v_log]; fold (wq w1); rewrite ?B2, ?C1, ?C2; auto;
        try (intros; discriminate);
        try (intros _; first [apply Hrun|apply Hconti|apply Hold]; discriminate).
      * destruct (v_pc s) as [|c ne st|]; auto. destruct Hprep as (P1 & P2 & P3 & P4 & P5).
        assert (Hpin : has_pin (wq w1) = has_pin (wq w)) by (unfold has_pin; now rewrite B4).
        assert (Hcd : cmd_dir c (wq w1) = cmd_dir c (wq w)) by (unfold cmd_dir; now rewrite B3).
        rewrite Hpin, Hcd, B5, B6, B8 by assumption.
        split; [assumption|]. split; [assumption|]. split; [lia|]. split; assumption.
      * intros K. apply AS. apply Hsync. destruct K as [K|K]; [left|right; exact K].
        exact (nonempty_mono _ _ B7 K).
      * intros _ [|]; assumption.
      * apply Forall_app. split; [exact Hlog|]. constructor; [|constructor].
        intros Hp Hb. cbn [chunk_of x_pin x_before x_after x_want] in *.
        change (0 < bedges (part_of true w)) in Hb. rewrite (K1 Hb).
        destruct (Hparts ltac:(discriminate) true) as [_ K]. split; apply K; assumption.
  - (* the second part has been sent *)
    destruct H as [W Hprep Hsync Hrun Hloop Hstop Hconti Hold Hparts Hlog]. rewrite Ehw in *.
    specialize (Hrun ltac:(discriminate)). specialize (Hparts ltac:(discriminate)).
    specialize (Hconti ltac:(discriminate)). specialize (Hold ltac:(discriminate)).
    destruct (w_conti (v_w s)) eqn:Ec.
    + destruct (negb N && r_stopped (w_r (v_w s))) eqn:Es.
      { exfalso. apply andb_true_iff in Es. destruct Es as [E1 E2]. apply negb_true_iff in E1.
        specialize (Hold E1). rewrite E2 in Hold. discriminate. }
      pose proof (apply_spec true (v_w s) W) as A1. set (w := v_w s) in *.
      pose proof (apply_good _ _ _ A1) as G1.
      specialize (G1 ltac:(intros Hne; apply Hsync; left; destruct (nonempty (v_q s)) eqn:K; [reflexivity|];
        apply (nonempty_false A) in K; contradiction)).
      destruct (apply_keeps true w _ _ A1 eq_refl (Hparts false)) as [K1 K2].
      pose proof (ap_other _ _ _ A1) as O2. cbn [negb] in O2, K1, K2. rewrite <- O2 in K2.
      pose proof A1 as [B1 B2 B3 B4 B5 B6 B7 B8 B9 B10 B11 B12].
      assert (Sp : pend A (wq w) = [] -> pend A (wq (apply4 true w)) = []).
      { intros K. destruct B12 as [(-> & _)|(e & t & E1 & _)]; [exact K|congruence]. }
      pose proof (apply_sync _ _ _ A1) as AS.
      set (w1 := apply4 true w) in *. clearbody w1. unfold v_q in *. fold w in Hprep, Hsync, Hrun, Hstop.
      fold (wq w) in Hprep, Hsync, Hrun, Hstop.
      constructor; unfold v_q; cbn [v_w v_pc v_hw v_log]; fold (wq w1); rewrite ?B2; auto;
        try (intros; discriminate).
      * destruct (v_pc s) as [|c ne st|]; auto. destruct Hprep as (P1 & P2 & P3 & P4 & P5).
        assert (Hpin : has_pin (wq w1) = has_pin (wq w)) by (unfold has_pin; now rewrite B4).
        assert (Hcd : cmd_dir c (wq w1) = cmd_dir c (wq w)) by (unfold cmd_dir; now rewrite B3).
        rewrite Hpin, Hcd, B5, B6, B8 by assumption.
        split; [assumption|]. split; [assumption|]. split; [lia|]. split; assumption.
      * intros K. apply AS. apply Hsync. destruct K as [K|[[K K']|K]]; [left| |right; right; exact K].
        -- exact (nonempty_mono _ _ B7 K).
        -- right. left. split; [assumption|]. destruct B10 as [(_ & <- & _)|(_ & _ & B & _)]; congruence.
      * intros _ K. destruct B10 as [(_ & B & _)|(_ & _ & _ & B)]; [|auto].
        apply Sp. apply Hstop; [assumption|congruence].
      * intros _ K. destruct B10 as [(B & _)|(_ & _ & B & _)]; [congruence|exact B].
      * intros _ K. destruct B10 as [(B & B' & _)|(_ & B & B' & _)]; rewrite B, B'; [|reflexivity].
        rewrite Ec. auto.
      * intros _ [|]; assumption.
      * apply Forall_app. split; [exact Hlog|]. constructor; [|constructor].
        intros Hp Hb. cbn [chunk_of x_pin x_before x_after x_want] in *.
        change (0 < bedges (part_of false w)) in Hb. rewrite (K1 Hb).
        destruct (Hparts false) as [_ K]. split; apply K; assumption.
    + specialize (Hconti eq_refl). rewrite Hconti. rewrite orb_true_r. pose proof W as [W1 W2 W3 W4].
      constructor; unfold v_q in *;
        cbn [with_r mkrun set_running v_w v_pc v_hw v_log w_r r_q r_stopped q_running] in *; auto;
        try (intros; congruence).
      * constructor; unfold wq; cbn [with_r w_r mkrun r_q w_one w_two]; assumption.
      * intros K. apply Hsync. destruct K as [K|[[K _]|K]]; [now left|discriminate|right; right; exact K].
Qed.

Theorem vinv_step s ev : vinv s -> vev_ok ev -> vinv (vstep ev s).
Proof.
  intros H Hok. destruct ev; cbn [vev_ok] in Hok; try contradiction.
  - now apply vinv_begin.
  - now apply vinv_commit.
  - cbn [RmtV4.vstep]. destruct (v_pc s) as [| |start] eqn:Epc; try exact H.
    unfold add_starts. change (r_q (w_r (v_w s))) with (v_q s).
    destruct (q_running (v_q s)) eqn:Er; cbn [negb andb].
    + destruct H. constructor; unfold v_q in *; cbn [v_w v_pc v_hw v_log] in *; auto.
      intros K. apply vi_sync0. right. right. rewrite Epc. discriminate.
    + destruct start.
      * apply vinv_start; auto; [rewrite Epc; discriminate|]. destruct H. apply vi_sync0.
        right. right. rewrite Epc. discriminate.
      * destruct H. constructor; unfold v_q in *; cbn [v_w v_pc v_hw v_log] in *; auto.
        intros K. apply vi_sync0. right. right. rewrite Epc. discriminate.
  - cbn [RmtV4.vstep]. destruct (v_pc s) eqn:Epc; try exact H.
    destruct (a_started _) eqn:Ea; [|exact H]. change (r_q (w_r (v_w s))) with (v_q s) in Ea.
    assert (Er : q_running (v_q s) = false /\ nonempty (v_q s) = true).
    { unfold q_add_null in Ea. destruct (negb (ready_rmt (w_r (v_w s)))); [discriminate|].
      destruct (q_running (v_q s)); [discriminate|]. split; [reflexivity|].
      destruct (Z.eqb_spec (q_wr (v_q s)) (q_rd (v_q s))) as [K|K]; [discriminate|].
      pose proof (empty_rd A (v_q s) (wk_wf _ (vi_w _ H))) as E. revert E.
      destruct (Z.eqb_spec (q_rd (v_q s)) (q_wr (v_q s))); [congruence|].
      intros E. now apply eq_sym, negb_false_iff in E. }
    destruct Er as [Er En].
    apply vinv_start; auto; [rewrite Epc; discriminate|]. destruct H. auto.
  - now apply vinv_sent.
  - cbn [RmtV4.vstep]. destruct (v_pc s) eqn:Epc; try exact H.
    destruct H as [W Hprep Hsync Hrun Hloop Hstop Hconti Hold Hparts Hlog].
    destruct fixed_length as (_ & _ & FL).
    assert (WC : wf A (set_rd (q_wr (v_q s)) (v_q s)) /\ pend A (set_rd (q_wr (v_q s)) (v_q s)) = []).
    { destruct W as [W1 _ _ _]. unfold wq in W1. fold (v_q s) in W1.
      assert (E : queueEntries (set_rd (q_wr (v_q s)) (v_q s)) = 0).
      { unfold queueEntries. cbn [set_rd q_wr q_rd]. rewrite Z.sub_diag. reflexivity. }
      split; [|now apply pend_nil]. destruct W1 as (X1 & X2 & X3). split; [exact X2|]. split; [exact X2|].
      rewrite E. destruct (ql_cases A HA); lia. }
    destruct WC as [WC1 WC2].
    assert (Hh : (match v_hw s with Loop => Off | h => h end) = v_hw s).
    { destruct (v_hw s); try reflexivity. congruence. }
    rewrite Hh.
    constructor; unfold v_q in *;
      cbn [forceStop4 stop4 clear4 stopped with_r set_rd v_w v_pc v_hw v_log w_r r_q r_stopped w_conti q_running] in *;
      auto; try (intros; congruence).
    + constructor; unfold wq; cbn [forceStop4 stop4 clear4 stopped with_r w_r r_q w_one w_two words b_words]; auto.
      rewrite WC2. constructor.
    + intros [K|[[_ K]|K]]; [|discriminate|congruence].
      apply (pend_ne A) in K. contradiction.
    + intros Hx two. assert (E0 : bedges (part_of two (forceStop4 N A (v_w s))) = 0).
      { destruct two; apply stop_edges. }
      split; [auto|]. lia.
  - (* VIgnore *)
    destruct H as [W Hprep Hsync Hrun Hloop Hstop Hconti Hold Hparts Hlog]. pose proof W as [W1 W2 W3 W4].
    cbn [RmtV4.vstep]. constructor; unfold v_q in *;
      cbn [with_vq with_rq with_r v_w v_pc v_hw v_log w_r r_q r_stopped w_conti] in *; auto.
    now apply wok_q.
  - (* VSetDir *)
    cbn [RmtV4.vstep]. change (r_q (w_r (v_w s))) with (v_q s).
    destruct (negb (nonempty (v_q s)) && negb (q_running (v_q s)) && is_free (v_pc s)) eqn:E; [|exact H].
    apply andb_true_iff in E. destruct E as [E E3]. apply andb_true_iff in E. destruct E as [E1 E2].
    apply negb_true_iff in E1, E2.
    destruct H as [W Hprep Hsync Hrun Hloop Hstop Hconti Hold Hparts Hlog]. pose proof W as [W1 W2 W3 W4].
    assert (Hoff : v_hw s = Off) by (destruct (v_hw s); auto; specialize (Hrun ltac:(discriminate)); congruence).
    constructor; unfold v_q in *;
      cbn [with_r v_w v_pc v_hw v_log w_r r_q r_stopped w_conti set_dir q_running] in *; try congruence; auto.
    + constructor; unfold wq; cbn [with_r w_r r_q w_one w_two]; assumption.
    + destruct (v_pc s); [exact I|discriminate|exact I].
    + intros K. exfalso. change (nonempty (set_dir pin hcu (r_q (w_r (v_w s))))) with (nonempty (r_q (w_r (v_w s)))) in K.
      destruct K as [K|[[K _]|K]]; try congruence.
      destruct (v_pc s); [congruence|discriminate|discriminate].
  - (* VOther *)
    cbn [RmtV4.vstep]. change (r_q (w_r (v_w s))) with (v_q s).
    destruct (negb (nonempty (v_q s)) && negb (q_running (v_q s)) && is_free (v_pc s)) eqn:E; [|exact H].
    apply andb_true_iff in E. destruct E as [E E3]. apply andb_true_iff in E. destruct E as [E1 E2].
    apply negb_true_iff in E1, E2.
    destruct H as [W Hprep Hsync Hrun Hloop Hstop Hconti Hold Hparts Hlog]. pose proof W as [W1 W2 W3 W4].
    assert (Hoff : v_hw s = Off) by (destruct (v_hw s); auto; specialize (Hrun ltac:(discriminate)); congruence).
    constructor; unfold v_q in *;
      cbn [with_r v_w v_pc v_hw v_log w_r r_q r_stopped w_conti] in *; try congruence; auto.
    + constructor; unfold wq; cbn [with_r w_r r_q w_one w_two]; assumption.
    + intros K. exfalso. destruct K as [K|[[K _]|K]]; try congruence.
      destruct (v_pc s); [congruence|discriminate|discriminate].
  - (* VSetPos *)
    cbn [RmtV4.vstep]. destruct (v_pc s) eqn:Epc; try exact H.
    destruct H as [W Hprep Hsync Hrun Hloop Hstop Hconti Hold Hparts Hlog]. pose proof W as [W1 W2 W3 W4].
    rewrite Epc in Hsync. constructor; unfold v_q in *;
      cbn [with_vq with_rq with_r v_w v_pc v_hw v_log w_r r_q r_stopped w_conti] in *; auto.
    now apply wok_q.
Qed.

Theorem vinv_run evs : forall s, vinv s -> Forall vev_ok evs -> vinv (vrun evs s).
Proof.
  induction evs as [|ev evs IH]; intros s H Hok; [exact H|]. cbn [RmtV4.vrun].
  apply IH; [|exact (Forall_inv_tail Hok)]. apply vinv_step; [exact H|exact (Forall_inv Hok)].
Qed.
End Hist.

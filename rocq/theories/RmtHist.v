(** * RmtHist: direction changes and pulse counts of the RMT driver *)
From Coq Require Import ZArith Bool List Lia ZifyBool.
From Verif Require Import Base Queue QueueFacts QueuePos QueueHist Rmt RmtFacts.
Import ListNotations.
Open Scope Z_scope.
Ltac Zify.zify_post_hook ::= idtac.

Ltac splits := repeat match goal with |- _ /\ _ => split end.

(** rising edges of the symbols of a call *)
Definition edges (k : call) : Z := rises false (halves (k_words k)).

(** what holds for a call and the following one of the same transmission: while the symbols
    of [a] are sent, the encoder is called for [b] *)
Definition pair_ok (a b : call) : Prop :=
  k_first b = false ->
  (k_toggled b = true -> edges a = 0) /\ (0 < edges a -> k_level b = k_level a).
(** and for a single call: steps are sent with the commanded direction; the first call of a
    transmission does not change the pin *)
Definition call_ok (k : call) : Prop :=
  (k_pin k = true -> 0 < edges k -> k_level k = k_want k) /\ (k_first k = true -> k_toggled k = false).
Fixpoint pairs_ok (l : list call) : Prop :=
  match l with
  | a :: t => match t with b :: _ => pair_ok a b | [] => True end /\ pairs_ok t
  | [] => True
  end.
Lemma pairs_snoc a b : forall l, pairs_ok (l ++ [a]) -> pair_ok a b -> pairs_ok ((l ++ [a]) ++ [b]).
Proof.
  induction l as [|x l IH]; intros H Hp.
  - cbn. auto.
  - cbn [app pairs_ok] in *. destruct H as [H1 H2]. split; [|now apply IH].
    destruct l; exact H1.
Qed.
Lemma pairs_split a b l2 : forall l1, pairs_ok (l1 ++ a :: b :: l2) -> pair_ok a b.
Proof.
  induction l1 as [|x l IH]; cbn [app pairs_ok]; intros [H1 H2]; [exact H1|]. now apply IH.
Qed.

Section Hist.
Variable P : Z.
Hypothesis HP : part_size P.
Variable A : arch.
Hypothesis HA : In A all_archs.
Variable EXT : bool.
Notation L := (QUEUE_LEN A).

(** *** pauses have no edge *)
Lemma lows_rises l : lows l -> rises false l = 0.
Proof.
  induction 1 as [|[b d] l Hb Hl IH]; [reflexivity|]. cbn [fst] in Hb. subst b. cbn. exact IH.
Qed.
Lemma lows_halves_app a b : lows (halves a) -> lows (halves b) -> lows (halves (a ++ b)).
Proof. intros H H0. rewrite halves_app. apply Forall_app. split; assumption. Qed.
Lemma lows_word b a : 0 <= a < 32768 -> 0 <= b < 32768 -> lows (halves [b * 65536 + a]).
Proof. intros H H0. rewrite halves_sym by lia. rewrite !half_low by lia. repeat constructor. Qed.
Lemma lows_main t : 0 <= t < 65536 -> lows (halves (pause_main P t)).
Proof.
  intros Ht. assert (HPr : 24 <= P <= 32) by (destruct HP as [-> | ->]; lia).
  assert (Hh : 0 <= t / (2 * P) <= 1366).
  { split; [apply Z.div_pos; lia|]. apply Z.div_le_upper_bound; [lia|]. nia. }
  unfold pause_main, pause_half. rewrite u16_id by lia. rewrite halves_times.
  apply lows_times. rewrite u32_id by lia.
  replace (65537 * (t / (2 * P))) with (t / (2 * P) * 65536 + t / (2 * P)) by lia. apply lows_word; lia.
Qed.
Lemma rest_bound t : 0 <= t < 65536 -> 0 <= pause_rest P t < 4096.
Proof.
  intros Ht. assert (HPr : 24 <= P <= 32) by (destruct HP as [-> | ->]; lia).
  pose proof (Z.div_mod t (2 * P) ltac:(lia)) as D. pose proof (Z.mod_pos_bound t (2 * P) ltac:(lia)) as M.
  assert (Hh : 0 <= t / (2 * P) <= 1366).
  { split; [apply Z.div_pos; lia|]. apply Z.div_le_upper_bound; [lia|]. nia. }
  unfold pause_rest, pause_half. rewrite (u16_id (t / (2 * P))) by lia.
  replace (t - 2 * (P - 1) * (t / (2 * P))) with (t mod (2 * P) + 2 * (t / (2 * P))) by lia.
  rewrite u16_id; lia.
Qed.
Lemma pause_edges t : 0 <= t < 65536 -> lows (halves (pause_part P t)) /\ lows (halves (short_part P t)).
Proof.
  intros Ht. pose proof (rest_bound t Ht) as R.
  pose proof (Z.div_mod (pause_rest P t) 2 ltac:(lia)) as D2.
  pose proof (Z.mod_pos_bound (pause_rest P t) 2 ltac:(lia)) as M2.
  set (f := pause_rest P t / 2) in *.
  assert (El : pause_last P t = f * 65536 + (pause_rest P t - f)).
  { unfold pause_last. fold f. rewrite u16_id by lia. lia. }
  split; apply lows_halves_app; try (now apply lows_main).
  - rewrite El, u32_id by lia. apply lows_word; lia.
  - rewrite El. unfold u16. rewrite Z.add_comm, Z.mod_add, Z.mod_small by lia.
    replace (pause_rest P t - f) with (0 * 65536 + (pause_rest P t - f)) by lia. apply lows_word; lia.
Qed.
Lemma min_cmd_ok : 0 <= MIN_CMD_TICKS A < 65536.
Proof. clear - HA. revert A HA. apply arch_cases; cbn; lia. Qed.

Lemma app_last_nil {T} (a : list T) x : a ++ [x] <> [].
Proof. destruct a; discriminate. Qed.
Lemma app_nonempty {T} (a b : list T) : b <> [] -> a ++ b <> [].
Proof. intros H K. apply app_eq_nil in K. tauto. Qed.
Lemma part_words s t : fst (part P s t) <> [].
Proof.
  unfold part. destruct (s =? 0); [apply app_last_nil|].
  unfold steps_part. destruct (t =? 65535); [destruct (s <? P / 2)|destruct (_ && _)]; cbn [fst];
    repeat apply app_nonempty; discriminate.
Qed.

Lemma part_left s t : 0 <= s < 256 -> 0 <= snd (part P s t) < 256.
Proof.
  intros Hs. unfold part. destruct (s =? 0); [cbn; lia|].
  unfold steps_part. destruct (t =? 65535); [destruct (s <? P / 2)|destruct (_ && _)]; cbn [snd];
    first [lia|apply u8_range].
Qed.
Lemma part_pause s t : s = 0 -> fst (part P s t) = pause_part P t.
Proof. intros ->. reflexivity. Qed.

(** ** Invariant *)
Definition lvl (s : rst) : bool := r_pins (g_r s) (q_pin (r_q (g_r s))).
Record rinv (s : rst) : Prop := mkRinv {
  ri_wf : wf A (r_q (g_r s));
  ri_ent : Forall ent_ok (pend A (r_q (g_r s)));
  ri_prep : match g_pc s with
            | Prepared c ne _ =>
              cmd_ok c /\ queueEntries (r_q (g_r s)) < L /\
              qe_dir ne = cmd_dir c (r_q (g_r s)) /\
              (let e := q_ent (r_q (g_r s)) (slot A (q_wr (r_q (g_r s)))) in
               e_ticks e = c_ticks c /\ e_steps e = c_steps c /\ e_up e = c_up c /\
               (has_pin (r_q (g_r s)) = true ->
                e_toggle e = xorb (qe_dir (q_end (r_q (g_r s)))) (cmd_dir c (r_q (g_r s)))))
            | _ => True
            end;
  ri_sync : has_pin (r_q (g_r s)) = true ->
            nonempty (r_q (g_r s)) = true \/ q_running (r_q (g_r s)) = true \/ g_pc s <> Free ->
            levels (q_hcu (r_q (g_r s))) (qe_dir (q_end (r_q (g_r s)))) (lvl s) (pend A (r_q (g_r s)));
  ri_last : q_running (r_q (g_r s)) = true ->
            if g_fresh s then
              match pend A (r_q (g_r s)) with e :: _ => e_toggle e = false | [] => False end
            else exists l k, g_log s = l ++ [k] /\ (r_last (g_r s) = false -> edges k = 0)
                             /\ k_level k = lvl s;
  ri_idle : q_running (r_q (g_r s)) = false -> g_fresh s = false;
  ri_pairs : pairs_ok (g_log s);
  ri_calls : Forall call_ok (g_log s)
}.

Lemma rinv_init garbage p test : rinv (rinit A garbage p test).
Proof.
  assert (E : queueEntries (q_init A garbage test) = 0) by reflexivity.
  assert (Ep : pend A (q_init A garbage test) = []) by (apply pend_nil; exact E).
  constructor; cbn [rinit g_r g_pc g_fresh g_log r_q]; rewrite ?Ep; auto.
  - split; [cbn; lia|]. split; [cbn; lia|]. rewrite E. destruct (ql_cases A HA); lia.
  - intros _ [K|[K|K]]; exfalso; try discriminate. congruence.
  - discriminate.
  - exact I.
Qed.

Definition rev_ok (ev : revent) : Prop := match ev with RBegin c _ => cmd_ok c | _ => True end.

(** *** addQueueEntry *)
Lemma prepare_spec c q p : wf A q -> queueEntries q < L ->
  let q1 := fst (add_prepare A EXT c q p) in let p1 := snd (add_prepare A EXT c q p) in
  wf A q1 /\ pend A q1 = pend A q /\ queueEntries q1 = queueEntries q /\ q_running q1 = q_running q
  /\ q_hcu q1 = q_hcu q /\ q_pin q1 = q_pin q /\ q_wr q1 = q_wr q
  /\ q_ent q1 (slot A (q_wr q)) = new_entry A EXT c q
  /\ (nonempty q = true \/ q_running q = true -> q_end q1 = q_end q /\ p1 = p)
  /\ (has_pin q = true -> e_toggle (new_entry A EXT c q) = xorb (qe_dir (q_end q1)) (cmd_dir c q)
      /\ (nonempty q = false -> q_running q = false -> p1 (q_pin q) = qe_dir (q_end q1))).
Proof.
  intros Hw Hl. unfold add_prepare. destruct (direct_dir q) eqn:Ed; cbn [fst snd].
  - split; [exact Hw|]. split; [now apply (pend_upd_free A HA q)|]. do 5 (split; [reflexivity|]).
    split; [cbn [set_end set_ent q_ent]; unfold upd; now rewrite Z.eqb_refl|].
    split.
    + intros K. exfalso. unfold direct_dir, isQueueEmpty in Ed. unfold nonempty in K.
      destruct (queueEntries q =? 0), (q_running q); cbn in *; rewrite ?andb_false_r in Ed; cbn in Ed;
        intuition congruence.
    + intros Hp. cbn [set_end q_end qe_dir]. split.
      * unfold new_entry. cbn [e_toggle]. unfold dir_differs. rewrite Ed.
        cbn [negb]. rewrite andb_false_r. cbn [andb]. now destruct (cmd_dir c q).
      * intros _ _. unfold upd. now rewrite Z.eqb_refl.
  - split; [exact Hw|]. split; [now apply (pend_upd_free A HA q)|]. do 5 (split; [reflexivity|]).
    split; [cbn [set_end set_ent q_ent]; unfold upd; now rewrite Z.eqb_refl|].
    split; [auto|]. intros Hp. unfold has_pin in Hp.
    apply andb_true_iff in Hp. destruct Hp as [Hp1 Hp2]. split.
    + unfold new_entry. cbn [e_toggle]. unfold to_repeat, dir_differs. rewrite Ed, Hp1.
      rewrite negb_true_iff in Hp2. rewrite Hp2. cbn [negb andb]. rewrite andb_false_r.
      cbn [negb]. rewrite andb_true_r. cbn [set_ent q_end].
      now destruct (cmd_dir c q), (qe_dir (q_end q)).
    + intros K1 K2. exfalso. unfold direct_dir, isQueueEmpty in Ed. unfold nonempty in K1.
      rewrite Hp1, Hp2, K2 in Ed. apply negb_false_iff in K1. rewrite K1 in Ed. discriminate.
Qed.

Lemma rinv_begin s c start : rinv s -> cmd_ok c -> rinv (rstep P A EXT (RBegin c start) s).
Proof.
  intros H Hc. cbn [rstep]. destruct (g_pc s) eqn:Epc; try exact H.
  destruct (Z.eqb_spec (add_check A (ready_rmt (g_r s)) c (r_q (g_r s))) AQE_OK) as [Ek|Ek]; [|exact H].
  apply check_ok in Ek. destruct Ek as (_ & Hnf & Hmin).
  destruct H. rewrite Epc in ri_sync0.
  assert (Hlt : queueEntries (r_q (g_r s)) < L) by (destruct ri_wf0 as (_ & _ & ?); lia).
  pose proof (prepare_spec c (r_q (g_r s)) (r_pins (g_r s)) ri_wf0 Hlt) as
    (S1 & S2 & S3 & S4 & S5 & S6 & S7 & S8 & S9 & S10).
  set (q := r_q (g_r s)) in *. set (q1 := fst (add_prepare A EXT c q (r_pins (g_r s)))) in *.
  set (p1 := snd (add_prepare A EXT c q (r_pins (g_r s)))) in *. clearbody q1 p1.
  assert (Hpin : has_pin q1 = has_pin q) by (unfold has_pin; now rewrite S6).
  assert (Hcd : cmd_dir c q1 = cmd_dir c q) by (unfold cmd_dir; now rewrite S5).
  constructor; cbn [g_r g_pc g_fresh g_log r_q r_pins r_last]; unfold lvl;
    cbn [g_r g_pc g_fresh g_log r_q r_pins r_last]; rewrite ?S2, ?S4, ?S6, ?Hpin, ?Hcd, ?S7, ?S8; auto.
  - split; [assumption|]. split; [lia|]. split; [reflexivity|].
    cbn zeta. do 3 (split; [reflexivity|]). intros Hp. now apply S10.
  - intros Hp _. rewrite S5. destruct (nonempty q) eqn:En.
    + destruct (S9 (or_introl eq_refl)) as [-> ->]. apply ri_sync0; auto.
    + destruct (q_running q) eqn:Er.
      * destruct (S9 (or_intror eq_refl)) as [-> ->]. apply ri_sync0; auto.
      * pose proof En as En'. apply (nonempty_false A) in En'. rewrite En'. cbn [levels]. now apply S10.
  - intros Hr. specialize (ri_last0 Hr). destruct (S9 (or_intror Hr)) as [_ ->]. exact ri_last0.
Qed.

Lemma rinv_commit s : rinv s -> rinv (rstep P A EXT RCommit s).
Proof.
  intros H. cbn [rstep]. destruct (g_pc s) as [|c ne start|] eqn:Epc; try exact H.
  destruct H. rewrite Epc in ri_sync0, ri_prep0. unfold lvl in *.
  set (r := g_r s) in *.
  assert (Hsync : has_pin (r_q r) = true ->
    levels (q_hcu (r_q r)) (qe_dir (q_end (r_q r))) (r_pins r (q_pin (r_q r))) (pend A (r_q r))).
  { intros Hp. apply ri_sync0; [assumption|]. right. right. discriminate. }
  unfold add_commit. destruct (q_ignore (r_q r)) eqn:Ei; cbn [fst snd].
  { change (AQE_OK =? AQE_OK) with true. cbv iota.
    constructor; unfold lvl; cbn [with_rq g_r g_pc g_fresh g_log r_q r_pins r_last]; auto. }
  destruct (ready_rmt r); cbn [fst snd].
  2:{ change (AQE_DEVICE_NOT_READY =? AQE_OK) with false. cbv iota.
    constructor; unfold lvl; cbn [with_rq g_r g_pc g_fresh g_log r_q r_pins r_last]; auto. }
  change (AQE_OK =? AQE_OK) with true. cbv iota.
  set (q := r_q r) in *. set (q1 := set_end ne (set_wr (u8 (q_wr q + 1)) q)).
  destruct ri_prep0 as (Hc & Hlt & Hne & Ht & Hst & Hu & Htog).
  set (e := q_ent q (slot A (q_wr q))) in *.
  assert (Epend : pend A q1 = pend A q ++ [e]) by (now apply pend_commit).
  constructor; unfold lvl; cbn [with_rq g_r g_pc g_fresh g_log r_q r_pins r_last]; rewrite ?Epend; auto.
  - now apply wf_commit.
  - apply Forall_app. split; [assumption|]. constructor; [|constructor].
    unfold ent_ok. rewrite Ht, Hst. exact Hc.
  - intros Hp _. change (has_pin q1) with (has_pin q) in Hp.
    change (q_pin q1) with (q_pin q). change (q_hcu q1) with (q_hcu q). change (q_end q1) with ne.
    apply levels_snoc with (dir := qe_dir (q_end q)).
    + auto.
    + rewrite Hne. auto.
    + rewrite Hne. unfold cmd_dir. now rewrite Hu.
  - change (q_running q1) with (q_running q). change (q_pin q1) with (q_pin q).
    intros Hr. specialize (ri_last0 Hr). destruct (g_fresh s); [|exact ri_last0].
    destruct (pend A q); [contradiction|exact ri_last0].
Qed.

(** *** toggling the pin for the oldest entry *)
Lemma toggle_first_spec r : wf A (r_q r) -> nonempty (r_q r) = true ->
  let r1 := toggle_first A r in
  exists e t, pend A (r_q r) = head A (r_q r) :: t /\ pend A (r_q r1) = e :: t /\ head A (r_q r1) = e
  /\ e = untoggle (head A (r_q r))
  /\ wf A (r_q r1) /\ queueEntries (r_q r1) = queueEntries (r_q r)
  /\ q_running (r_q r1) = q_running (r_q r) /\ q_hcu (r_q r1) = q_hcu (r_q r)
  /\ q_pin (r_q r1) = q_pin (r_q r) /\ q_end (r_q r1) = q_end (r_q r) /\ q_wr (r_q r1) = q_wr (r_q r)
  /\ r_stopped r1 = r_stopped r /\ r_last r1 = r_last r
  /\ (queueEntries (r_q r) < L -> q_ent (r_q r1) (slot A (q_wr (r_q r))) = q_ent (r_q r) (slot A (q_wr (r_q r))))
  /\ r_pins r1 (q_pin (r_q r)) = xorb (r_pins r (q_pin (r_q r))) (e_toggle (head A (r_q r))).
Proof.
  intros Hw Hn r1. pose proof (proj1 (nonempty_iff _) Hn) as Hn0.
  pose proof (pend_pop A HA _ Hw Hn0) as Hh.
  unfold r1, toggle_first. destruct (e_toggle (head A (r_q r))) eqn:Et.
  - exists (untoggle (head A (r_q r))), (pend A (q_pop (r_q r))).
    cbn [r_q r_stopped r_last r_pins]. unfold set_first.
    split; [exact Hh|]. split; [now apply pend_set_head|].
    split; [unfold head; cbn [set_ent q_ent q_rd]; unfold upd; now rewrite Z.eqb_refl|].
    do 10 (split; [first [reflexivity|exact Hw]|]).
    split; [intros Hl; now apply free_set_head|].
    unfold upd. rewrite Z.eqb_refl. now destruct (r_pins r (q_pin (r_q r))).
  - exists (head A (r_q r)), (pend A (q_pop (r_q r))).
    split; [exact Hh|]. split; [exact Hh|]. split; [reflexivity|].
    split. { destruct (head A (r_q r)). cbn in Et. subst. reflexivity. }
    do 9 (split; [first [reflexivity|exact Hw]|]). split; [reflexivity|].
    now rewrite xorb_false_r.
Qed.

Lemma empty_rd q : wf A q -> (q_rd q =? q_wr q) = negb (nonempty q).
Proof.
  intros Hw. unfold nonempty. rewrite negb_involutive. pose proof (empty_iff A q Hw).
  destruct (Z.eqb_spec (q_rd q) (q_wr q)), (Z.eqb_spec (queueEntries q) 0); tauto.
Qed.

Lemma rinv_start_g s : rinv s -> (forall c ne st, g_pc s <> Prepared c ne st) -> q_running (r_q (g_r s)) = false ->
  (nonempty (r_q (g_r s)) = true -> has_pin (r_q (g_r s)) = true ->
   levels (q_hcu (r_q (g_r s))) (qe_dir (q_end (r_q (g_r s)))) (lvl s) (pend A (r_q (g_r s)))) ->
  rinv (start_g A s).
Proof.
  intros H Hpc Hr Hs. destruct H. unfold start_g, start_rmt. rewrite empty_rd by assumption.
  set (r := g_r s) in *. destruct (nonempty (r_q r)) eqn:En; cbn [negb].
  2:{ rewrite orb_false_r. constructor; unfold lvl in *; cbn [g_r g_pc g_fresh g_log] in *; auto.
      intros Hp [K|[K|K]]; congruence. }
  destruct (toggle_first_spec r ri_wf0 En) as (e & t & T1 & T2 & T3 & T4 & T5 & T6 & T7 & T8 & T9 & T10 & T11 & T12 & T13 & T14 & T15).
  set (r1 := toggle_first A r) in *. clearbody r1.
  rewrite orb_true_r.
  change (pend A (set_running true (r_q r1))) with (pend A (r_q r1)).
  assert (Hpin : has_pin (r_q r1) = has_pin (r_q r)) by (unfold has_pin; now rewrite T9).
  constructor; unfold lvl; cbn [g_r g_pc g_fresh g_log r_q r_pins r_last];
    change (pend A (set_running true (r_q r1))) with (pend A (r_q r1)); rewrite ?T2; auto.
  - rewrite T1 in ri_ent0. constructor; [|exact (Forall_inv_tail ri_ent0)].
    rewrite T4. exact (Forall_inv ri_ent0).
  - intros Hp _. change (has_pin (set_running true (r_q r1))) with (has_pin (r_q r1)) in Hp.
    cbn [set_running q_hcu q_end q_pin]. rewrite Hpin in Hp. specialize (Hs eq_refl Hp).
    rewrite T1 in Hs. unfold lvl in Hs. fold r in Hs. rewrite T8, T9, T10, T15. cbn [levels] in Hs |- *.
    rewrite T4. cbn [untoggle e_toggle e_up]. rewrite xorb_false_r. exact Hs.
  - intros _. rewrite T4. reflexivity.
Qed.

Lemma rinv_encode s free : rinv s -> rinv (rstep P A EXT (REncode free) s).
Proof.
  intros H. cbn [rstep]. destruct (q_running (r_q (g_r s))) eqn:Er; [|exact H].
  unfold call_of. set (r := g_r s) in *.
  unfold encode. destruct (free <? P).
  { cbn [fst snd]. destruct s; exact H. }
  destruct (r_stopped r) eqn:Est; cbn [fst snd].
  { destruct s; exact H. }
  destruct H. fold r in ri_wf0, ri_ent0, ri_prep0, ri_sync0, ri_last0, ri_idle0. specialize (ri_last0 Er).
  rewrite empty_rd by assumption. destruct (nonempty (r_q r)) eqn:En; cbn [negb].
  2:{ (* queue empty *)
    cbn [fst snd r_q r_pins]. destruct (short_part P (MIN_CMD_TICKS A)) as [|w ws] eqn:Ew.
    { apply app_last_nil in Ew. contradiction. }
    rewrite <- Ew. clear w ws Ew.
    pose proof (proj1 (nonempty_false A _) En) as Ep.
    assert (E0 : edges (mkCall (g_fresh s) (short_part P (MIN_CMD_TICKS A))
            (negb (Bool.eqb (r_pins r (q_pin (r_q r))) (r_pins r (q_pin (r_q r)))))
            (has_pin (r_q r)) (r_pins r (q_pin (r_q r)))
            (Bool.eqb (e_up (head A (r_q r))) (q_hcu (r_q r)))) = 0).
    { unfold edges. cbn [k_words]. apply lows_rises. apply pause_edges. apply min_cmd_ok. }
    set (k := mkCall _ _ _ _ _ _) in *.
    assert (Hk1 : k_toggled k = false) by (unfold k; cbn; now rewrite Bool.eqb_reflx).
    assert (Hk2 : k_level k = r_pins r (q_pin (r_q r))) by reflexivity.
    assert (Hk3 : k_first k = g_fresh s) by reflexivity.
    clearbody k.
    destruct (g_fresh s) eqn:Ef. { rewrite Ep in ri_last0. contradiction. }
    destruct ri_last0 as (l & a & El & La & Lb). unfold lvl in Lb. fold r in Lb.
    constructor; unfold lvl; cbn [g_r g_pc g_fresh g_log r_q r_pins r_last]; auto.
    - intros _. exists (g_log s), k. auto.
    - rewrite El. apply pairs_snoc; [now rewrite <- El|]. intros _. split; [congruence|]. intros _. congruence.
    - apply Forall_app. split; [assumption|]. constructor; [|constructor]. split; [lia|]. intros _. exact Hk1. }
  destruct (e_toggle (head A (r_q r)) && r_last r) eqn:Etl.
  { (* pause before the direction change *)
    cbn [fst snd r_q r_pins]. destruct (short_part P (MIN_CMD_TICKS A)) as [|w ws] eqn:Ew.
    { apply app_last_nil in Ew. contradiction. }
    rewrite <- Ew. clear w ws Ew.
    apply andb_true_iff in Etl. destruct Etl as [Et El].
    assert (E0 : edges (mkCall (g_fresh s) (short_part P (MIN_CMD_TICKS A))
            (negb (Bool.eqb (r_pins r (q_pin (r_q r))) (r_pins r (q_pin (r_q r)))))
            (has_pin (r_q r)) (r_pins r (q_pin (r_q r)))
            (Bool.eqb (e_up (head A (r_q r))) (q_hcu (r_q r)))) = 0).
    { unfold edges. cbn [k_words]. apply lows_rises. apply pause_edges. apply min_cmd_ok. }
    set (k := mkCall _ _ _ _ _ _) in *.
    assert (Hk1 : k_toggled k = false) by (unfold k; cbn; now rewrite Bool.eqb_reflx).
    assert (Hk2 : k_level k = r_pins r (q_pin (r_q r))) by reflexivity.
    assert (Hk3 : k_first k = g_fresh s) by reflexivity.
    clearbody k.
    destruct (g_fresh s) eqn:Ef.
    { pose proof (pend_pop A HA _ ri_wf0 (proj1 (nonempty_iff _) En)) as Hh.
      rewrite Hh in ri_last0. congruence. }
    destruct ri_last0 as (l & a & El' & La & Lb). unfold lvl in Lb. fold r in Lb.
    constructor; unfold lvl; cbn [g_r g_pc g_fresh g_log r_q r_pins r_last]; auto.
    - intros _. exists (g_log s), k. auto.
    - rewrite El'. apply pairs_snoc; [now rewrite <- El'|]. intros _. split; [congruence|]. intros _. congruence.
    - apply Forall_app. split; [assumption|]. constructor; [|constructor]. split; [lia|]. intros _. exact Hk1. }
  (* the oldest entry is encoded *)
  destruct (toggle_first_spec r ri_wf0 En) as (e & t & T1 & T2 & T3 & T4 & T5 & T6 & T7 & T8 & T9 & T10 & T11 & T12 & T13 & T14 & T15).
  set (r1 := toggle_first A r) in *. clearbody r1.
  unfold encode_first. rewrite T3.
  pose proof (part_words (e_steps e) (e_ticks e)) as Hw.
  pose proof (part_left (e_steps e) (e_ticks e)) as Hl.
  pose proof (part_pause (e_steps e) (e_ticks e)) as Hz.
  rewrite T1 in ri_ent0. pose proof (Forall_inv ri_ent0) as He. pose proof (Forall_inv_tail ri_ent0) as Hte.
  assert (He' : ent_ok e) by (rewrite T4; exact He).
  destruct (part P (e_steps e) (e_ticks e)) as [ws left]. cbn [fst snd r_q r_pins] in *.
  destruct ws as [|w ws]; [congruence|]. clear Hw.
  remember (w :: ws) as wl eqn:Ewl. clear w ws Ewl.
  set (q2 := if left =? 0 then if e_repeat e then r_q r1 else q_pop (r_q r1)
             else set_first A (with_steps left e) (r_q r1)).
  assert (Hn1 : queueEntries (r_q r1) <> 0) by (rewrite T6; now apply nonempty_iff).
  pose proof (pend_pop A HA _ T5 Hn1) as Hh1. rewrite T2, T3 in Hh1. injection Hh1 as Ht1.
  assert (Q : wf A q2 /\ (pend A q2 = e :: t \/ pend A q2 = t \/ pend A q2 = with_steps left e :: t)
    /\ queueEntries q2 <= queueEntries (r_q r) /\ q_running q2 = q_running (r_q r)
    /\ q_hcu q2 = q_hcu (r_q r) /\ q_pin q2 = q_pin (r_q r) /\ q_end q2 = q_end (r_q r)
    /\ q_wr q2 = q_wr (r_q r)
    /\ (queueEntries (r_q r) < L -> q_ent q2 (slot A (q_wr (r_q r))) = q_ent (r_q r) (slot A (q_wr (r_q r))))).
  { unfold q2. destruct (left =? 0); [destruct (e_repeat e)|].
    - rewrite T6. splits; auto; lia.
    - pose proof (entries_pop A _ T5 Hn1).
      splits; auto; try (now apply wf_pop); try lia.
    - unfold set_first. splits; auto; try lia.
      + right. right. rewrite Ht1. now apply pend_set_head.
      + change (queueEntries (r_q r1) <= queueEntries (r_q r)). lia.
      + intros Hq. rewrite <- T14, <- T11 by assumption. apply free_set_head; auto; lia. }
  destruct Q as (Q1 & Q2 & Q3 & Q4 & Q5 & Q6 & Q7 & Q8 & Q9). clearbody q2.
  set (k := mkCall _ _ _ _ _ _).
  assert (Hk1 : k_toggled k = e_toggle (head A (r_q r))).
  { unfold k. cbn [k_toggled]. rewrite T15.
    now destruct (r_pins r (q_pin (r_q r))), (e_toggle (head A (r_q r))). }
  assert (Hk2 : k_level k = r_pins r1 (q_pin (r_q r))) by reflexivity.
  assert (Hk3 : k_first k = g_fresh s) by reflexivity.
  assert (Hk4 : k_pin k = has_pin (r_q r)) by reflexivity.
  assert (Hk5 : k_want k = Bool.eqb (e_up (head A (r_q r))) (q_hcu (r_q r))) by reflexivity.
  assert (Hk6 : e_steps e = 0 -> edges k = 0).
  { intros E. unfold edges, k. cbn [k_words]. apply lows_rises. rewrite Hz by exact E.
    apply pause_edges. exact (proj1 He'). }
  clearbody k.
  assert (Hlev : has_pin (r_q r) = true ->
    r_pins r1 (q_pin (r_q r)) = Bool.eqb (e_up (head A (r_q r))) (q_hcu (r_q r))
    /\ levels (q_hcu (r_q r)) (qe_dir (q_end (r_q r))) (r_pins r1 (q_pin (r_q r))) t).
  { intros Hp. specialize (ri_sync0 Hp (or_introl eq_refl)). rewrite T1 in ri_sync0.
    cbn [levels] in ri_sync0. unfold lvl in ri_sync0. fold r in ri_sync0. rewrite <- T15 in ri_sync0. exact ri_sync0. }
  assert (Hpin : has_pin q2 = has_pin (r_q r)) by (unfold has_pin; now rewrite Q6).
  constructor; unfold lvl; cbn [g_r g_pc g_fresh g_log r_q r_pins r_last]; auto.
  - destruct Q2 as [-> | [-> | ->]]; try (constructor; assumption); [assumption|].
    constructor; [|assumption]. destruct He'. split; [assumption|]. exact (Hl ltac:(lia)).
  - destruct (g_pc s) as [|c ne st|]; auto. rewrite Hpin, Q8, Q7.
    assert (Hcd : cmd_dir c q2 = cmd_dir c (r_q r)) by (unfold cmd_dir; now rewrite Q5). rewrite Hcd.
    destruct ri_prep0 as (P1 & P2 & P3 & P4). rewrite Q9 by assumption.
    split; [assumption|]. split; [lia|]. split; assumption.
  - intros Hp _. rewrite Hpin in Hp. destruct (Hlev Hp) as [Ha Hb]. rewrite Q5, Q6, Q7.
    destruct Q2 as [-> | [-> | ->]]; cbn [levels]; [|assumption|];
      (rewrite T4; cbn [with_steps untoggle e_toggle e_up]; rewrite xorb_false_r; split; assumption).
  - intros _. exists (g_log s), k. split; [reflexivity|]. split.
    + intros K. apply Hk6. apply negb_false_iff in K. lia.
    + rewrite Q6. exact Hk2.
  - destruct (g_fresh s) eqn:Ef.
    + (* the first call *)
      destruct (g_log s) as [|x l] eqn:Eg using rev_ind; [cbn; auto|]. clear IHl.
      apply pairs_snoc; [assumption|]. intros K. congruence.
    + destruct ri_last0 as (l & a & El & La & Lb). unfold lvl in Lb. fold r in Lb.
      rewrite El. apply pairs_snoc; [now rewrite <- El|]. intros _.
      assert (Hz2 : e_toggle (head A (r_q r)) = true -> edges a = 0).
      { intros K. apply La. rewrite K in Etl. exact Etl. }
      split; [rewrite Hk1; exact Hz2|]. intros K. rewrite Hk2, T15, Lb.
      destruct (e_toggle (head A (r_q r))); [specialize (Hz2 eq_refl); lia|]. apply xorb_false_r.
  - apply Forall_app. split; [assumption|]. constructor; [|constructor]. split.
    + intros Hp _. rewrite Hk2, Hk5. rewrite Hk4 in Hp. apply (Hlev Hp).
    + rewrite Hk3, Hk1. intros K. rewrite K, T1 in ri_last0. exact ri_last0.
Qed.

Theorem rinv_step s ev : rinv s -> rev_ok ev -> rinv (rstep P A EXT ev s).
Proof.
  intros H Hok. destruct ev; cbn [rev_ok] in Hok.
  - now apply rinv_begin.
  - now apply rinv_commit.
  - cbn [rstep]. destruct (g_pc s) as [| |start] eqn:Epc; try exact H.
    unfold add_starts. destruct (q_running (r_q (g_r s))) eqn:Er; cbn [negb andb].
    + destruct H. constructor; unfold lvl in *; cbn [g_r g_pc g_fresh g_log] in *; auto.
    + destruct start.
      * apply rinv_start_g; auto; [rewrite Epc; discriminate|]. intros Hn Hp. destruct H. auto.
      * destruct H. constructor; unfold lvl in *; cbn [g_r g_pc g_fresh g_log] in *; auto.
        intros Hp _. apply ri_sync0; auto. right. right. rewrite Epc. discriminate.
  - cbn [rstep]. destruct (g_pc s) eqn:Epc; try exact H.
    destruct (a_started _) eqn:Ea; [|exact H].
    assert (Er : q_running (r_q (g_r s)) = false).
    { unfold q_add_null in Ea. destruct (negb (ready_rmt (g_r s))); [discriminate|].
      destruct (q_running (r_q (g_r s))); [discriminate|reflexivity]. }
    apply rinv_start_g; auto; [rewrite Epc; discriminate|]. intros Hn Hp. destruct H. auto.
  - now apply rinv_encode.
  - cbn [rstep]. destruct (q_running (r_q (g_r s)) && r_stopped (g_r s)) eqn:E; [|exact H].
    apply andb_true_iff in E. destruct E as [Er _]. destruct H.
    constructor; unfold lvl in *; cbn [done_rmt g_r g_pc g_fresh g_log r_q r_pins r_last set_running q_running] in *;
      auto; try discriminate.
  - cbn [rstep]. destruct (g_pc s) eqn:Epc; try exact H. destruct H.
    destruct (wf_clear A HA _ ri_wf0) as [W1 W2].
    constructor; unfold lvl in *; cbn [stop_rmt g_r g_pc g_fresh g_log r_q r_pins r_last] in *;
      rewrite ?W2; auto; try discriminate.
    intros _ [K|[K|K]]; [|discriminate|congruence].
    apply (pend_ne A) in K; congruence.
  - cbn [rstep]. destruct H. constructor; unfold lvl in *; cbn [with_rq g_r g_pc g_fresh g_log r_q r_pins r_last] in *; auto.
  - cbn [rstep]. destruct (negb (nonempty (r_q (g_r s))) && negb (q_running (r_q (g_r s))) && is_free (g_pc s)) eqn:E; [|exact H].
    apply andb_true_iff in E. destruct E as [E E3]. apply andb_true_iff in E. destruct E as [E1 E2].
    apply negb_true_iff in E1, E2. destruct H.
    constructor; unfold lvl in *; cbn [g_r g_pc g_fresh g_log r_q r_pins r_last] in *; auto.
    + destruct (g_pc s); [exact I|discriminate|exact I].
    + intros Hp K. exfalso. change (nonempty (set_dir pin hcu (r_q (g_r s)))) with (nonempty (r_q (g_r s))) in K.
      cbn [set_dir q_running] in K. destruct K as [K|[K|K]]; try congruence.
      destruct (g_pc s); [congruence|discriminate|discriminate].
    + cbn [set_dir q_running]. congruence.
  - cbn [rstep]. destruct (negb (nonempty (r_q (g_r s))) && negb (q_running (r_q (g_r s))) && is_free (g_pc s)) eqn:E; [|exact H].
    apply andb_true_iff in E. destruct E as [E E3]. apply andb_true_iff in E. destruct E as [E1 E2].
    apply negb_true_iff in E1, E2. destruct H.
    constructor; unfold lvl in *; cbn [g_r g_pc g_fresh g_log r_q r_pins r_last] in *; auto.
    + intros Hp K. exfalso. destruct K as [K|[K|K]]; try congruence.
      destruct (g_pc s); [congruence|discriminate|discriminate].
    + congruence.
  - cbn [rstep]. destruct (g_pc s) eqn:Epc; try exact H. destruct H. rewrite Epc in ri_sync0.
    constructor; unfold lvl in *; cbn [with_rq g_r g_pc g_fresh g_log r_q r_pins r_last] in *; auto.
Qed.

Theorem rinv_run evs : forall s, rinv s -> Forall rev_ok evs -> rinv (rrun P A EXT evs s).
Proof.
  induction evs as [|ev evs IH]; intros s H Hok; [exact H|]. cbn [rrun].
  apply IH; [|exact (Forall_inv_tail Hok)]. apply rinv_step; [exact H|exact (Forall_inv Hok)].
Qed.
End Hist.

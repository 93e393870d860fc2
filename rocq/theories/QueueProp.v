(** * QueueProp: consequences of the queue invariant *)
From Coq Require Import ZArith Znumtheory Bool List Lia ZifyBool.
From Verif Require Import Base Queue QueueFacts QueuePos QueueHist.
Import ListNotations.
Open Scope Z_scope.
Ltac Zify.zify_post_hook ::= idtac.

Definition no_ignore (ev : event) : Prop := match ev with EIgnore true => False | _ => True end.
Definition no_setpos (ev : event) : Prop := match ev with ESetPos _ => False | _ => True end.
Definition no_clear (ev : event) : Prop := match ev with EClear => False | _ => True end.
Definition no_dec (ev : event) : Prop := match ev with EDec _ => False | _ => True end.
Definition ok_results (l : list (command * Z)) : list command :=
  map fst (filter (fun r => snd r =? AQE_OK) l).

Section WithArch.
Variable A : arch.
Variable EXT : bool.
Hypothesis HA : In A all_archs.
Notation L := (QUEUE_LEN A).
Notation step := (hstep A EXT).
Notation run := (hrun A EXT).

Lemma start_head_keeps s :
  h_q (start_head A s) = h_q s /\ h_acc (start_head A s) = h_acc s /\
  h_left (start_head A s) = h_left s /\ h_res (start_head A s) = h_res s /\
  h_base (start_head A s) = h_base s /\ h_pc (start_head A s) = h_pc s /\
  h_done (start_head A s) = h_done s /\ h_clean (start_head A s) = h_clean s.
Proof. unfold start_head. destruct (_ && _); repeat split; reflexivity. Qed.

Ltac sh := match goal with
  |- context [start_head A ?s] =>
    let H := fresh in
    pose proof (start_head_keeps s) as H;
    destruct H as (?E1 & ?E2 & ?E3 & ?E4 & ?E5 & ?E6 & ?E7 & ?E8)
  end.

(** ** results *)
Lemma ok_results_snoc l c z :
  ok_results (l ++ [(c, z)]) = ok_results l ++ (if z =? AQE_OK then [c] else []).
Proof.
  unfold ok_results. rewrite filter_app, map_app. f_equal. cbn [filter snd].
  destruct (z =? AQE_OK); reflexivity.
Qed.
Lemma res_step s ev : inv A s -> no_ignore ev -> q_ignore (h_q s) = false ->
  h_acc s = ok_results (h_res s) ->
  q_ignore (h_q (step ev s)) = false /\ h_acc (step ev s) = ok_results (h_res (step ev s)).
Proof.
  intros Hinv Hni Hig Hacc. destruct ev; cbn [hstep].
  - destruct (h_pc s); auto.
    destruct (Z.eqb_spec (add_check A ready c (h_q s)) AQE_OK) as [E|E]; cbn [h_q h_acc h_res].
    + split; [|assumption]. unfold add_prepare. destruct (direct_dir (h_q s)); exact Hig.
    + split; [assumption|]. rewrite ok_results_snoc.
      destruct (Z.eqb_spec (add_check A ready c (h_q s)) AQE_OK); [contradiction|].
      now rewrite app_nil_r.
  - destruct (h_pc s); auto. unfold add_commit. rewrite Hig.
    destruct ready; cbn [fst snd h_q h_acc h_res]; rewrite ok_results_snoc.
    + split; [exact Hig|]. now rewrite Hacc.
    + split; [exact Hig|]. change (AQE_DEVICE_NOT_READY =? AQE_OK) with false.
      now rewrite app_nil_r.
  - destruct (h_pc s); auto. destruct (add_starts _ _); [|auto].
    sh. rewrite E1, E2, E4. split; [exact Hig|exact Hacc].
  - destruct (_ && _); auto. sh. rewrite E1, E2, E4. split; [exact Hig|exact Hacc].
  - destruct (_ && _); auto.
  - destruct (_ && _); auto. sh. rewrite E1, E2, E4. split; [exact Hig|exact Hacc].
  - destruct (_ && _); auto. sh. rewrite E1, E2, E4. auto.
  - destruct (_ && _); auto.
  - destruct (is_free _); auto.
  - destruct b; [contradiction|]. cbn. auto.
  - destruct (idle_q s); auto.
  - destruct (is_free _); auto.
  - destruct (idle_q s); auto.
Qed.
Lemma res_run : forall evs s, inv A s -> Forall ev_ok evs -> Forall no_ignore evs ->
  q_ignore (h_q s) = false -> h_acc s = ok_results (h_res s) ->
  h_acc (run evs s) = ok_results (h_res (run evs s)).
Proof.
  induction evs as [|ev evs IH]; intros s Hi Ho Hn Hg Ha; cbn [hrun]; [assumption|].
  inversion Ho; inversion Hn; subst.
  destruct (res_step s ev) as [K1 K2]; auto.
  apply IH; auto. apply inv_step; auto.
Qed.

Lemma fifo_lemma garbage p test evs : Forall ev_ok evs -> Forall no_ignore evs ->
  let s := run evs (hinit A garbage p test) in
  ok_results (h_res s) = h_left s ++ pend_cmds (h_done s) (pend A (h_q s)) /\
  (length (pend A (h_q s)) <= Z.to_nat L)%nat.
Proof.
  intros H1 H2 s.
  pose proof (inv_run A EXT HA evs _ (inv_init A HA garbage p test) H1) as Hinv. fold s in Hinv.
  split.
  - rewrite <- (iv_fifo _ _ Hinv). symmetry. apply res_run; auto. apply inv_init; assumption.
  - rewrite pend_length. destruct (iv_wf _ _ Hinv) as (_ & _ & Hw).
    pose proof (entries_range (h_q s)). lia.
Qed.
(** also with ignored commands *)
Lemma fifo_any garbage p test evs : Forall ev_ok evs ->
  let s := run evs (hinit A garbage p test) in
  h_acc s = h_left s ++ pend_cmds (h_done s) (pend A (h_q s)).
Proof.
  intros H1 s. apply (iv_fifo A s). apply inv_run; auto. apply inv_init; assumption.
Qed.
Lemma full_lemma garbage p test evs c start : Forall ev_ok evs ->
  let s := run evs (hinit A garbage p test) in
  h_pc s = Free -> length (pend A (h_q s)) = Z.to_nat L ->
  step (EBegin c start true) s =
  mkH (h_q s) (h_pins s) Free (h_done s) (h_base s) (h_started s) (h_clean s) (h_acc s) (h_left s)
      (h_res s ++ [(c, AQE_QUEUE_FULL)]) (h_log s).
Proof.
  intros H1 s Hpc Hl. rewrite pend_length in Hl. cbn [hstep]. rewrite Hpc.
  assert (E : add_check A true c (h_q s) = AQE_QUEUE_FULL).
  { unfold add_check, isQueueFull. cbn [negb]. pose proof (entries_range (h_q s)).
    replace (queueEntries (h_q s) =? L) with true; [reflexivity|].
    destruct (ql_cases A HA); lia. }
  rewrite E. reflexivity.
Qed.

(** ** uninterrupted addQueueEntry is the three pieces in sequence *)
Lemma add_pieces s r1 r2 c start :
  h_pc s = Free ->
  let r := q_add A EXT r1 r2 c start (h_q s) (h_pins s) in
  let s' := run [EBegin c start r1; ECommit r2; EStartQ] s in
  h_q s' = a_q r /\ h_pc s' = Free /\ h_res s' = h_res s ++ [(c, a_code r)] /\
  (a_started r = false -> h_pins s' = a_pins r).
Proof.
  intros Hpc. cbn zeta. unfold q_add. cbn [hrun].
  cbn [hstep]. rewrite Hpc.
  destruct (Z.eqb_spec (add_check A r1 c (h_q s)) AQE_OK) as [E|E].
  - cbn [h_pc h_q]. destruct (add_prepare A EXT c (h_q s) (h_pins s)) as [q1 p1]. cbn [fst snd].
    destruct (add_commit r2 (next_end c (h_q s)) q1) as [q2 code] eqn:Ec. cbn [fst snd].
    destruct (Z.eqb_spec code AQE_OK) as [E2|E2].
    + cbn [h_pc]. subst code. unfold add_start. cbn [h_q].
      destruct (add_starts start q2).
      * sh. rewrite E1, E4, E6. cbn. repeat split; try reflexivity. discriminate.
      * cbn. auto.
    + cbn. auto.
  - cbn. auto.
Qed.
Lemma refused_lemma r1 c start q p :
  let r := q_add A EXT r1 true c start q p in
  a_code r <> AQE_OK -> a_q r = q /\ a_pins r = p /\ a_started r = false.
Proof.
  cbn zeta. unfold q_add.
  destruct (Z.eqb_spec (add_check A r1 c q) AQE_OK) as [E|E]; [|cbn; auto].
  destruct (add_prepare A EXT c q p) as [q1 p1].
  unfold add_commit. destruct (q_ignore q1); cbn; congruence.
Qed.

(** ** minimum duration *)
Definition long_enough (c : command) : Prop := MIN_CMD_TICKS A <= c_ticks c * Z.max 1 (c_steps c).
Lemma rate_eq c : cmd_ok c -> command_rate_ticks c = c_ticks c * Z.max 1 (c_steps c).
Proof.
  intros [H1 H2]. unfold command_rate_ticks. destruct (Z.gtb_spec (c_steps c) 1).
  - rewrite Z.max_r by lia. unfold u32. apply Z.mod_small.
    assert (c_ticks c * c_steps c <= 65535 * 255); [|nia].
    apply Z.mul_le_mono_nonneg; lia.
  - rewrite Z.max_l by lia. lia.
Qed.
Definition long_inv (s : hst) : Prop :=
  Forall long_enough (h_acc s) /\ match h_pc s with Prepared c _ _ => long_enough c | _ => True end.
Lemma long_step s ev : long_inv s -> ev_ok ev -> long_inv (step ev s).
Proof.
  intros [H1 H2] Hok. unfold long_inv. destruct ev; cbn [hstep].
  - destruct (h_pc s) eqn:Epc; [|rewrite Epc; auto|rewrite Epc; auto].
    destruct (Z.eqb_spec (add_check A ready c (h_q s)) AQE_OK) as [E|E]; cbn [h_acc h_pc]; split; auto.
    apply check_ok in E. destruct E as (_ & _ & E). unfold long_enough. rewrite <- rate_eq; [assumption|exact Hok].
  - destruct (h_pc s) as [|c ne st|] eqn:Epc; [rewrite Epc; auto| |rewrite Epc; auto].
    cbn [h_acc h_pc]. split.
    + destruct (q_ignore (h_q s)); auto. destruct ready; auto. apply Forall_app; auto.
    + destruct (_ =? _); exact I.
  - destruct (h_pc s) eqn:Epc; rewrite ?Epc; auto. destruct (add_starts _ _); [|cbn; auto].
    sh. rewrite E2, E6. cbn. auto.
  - destruct (_ && _); auto. sh. rewrite E2, E6. auto.
  - destruct (_ && _); auto.
  - destruct (_ && _); auto. sh. rewrite E2, E6. auto.
  - destruct (_ && _); auto. sh. rewrite E2, E6. auto.
  - destruct (_ && _); auto.
  - destruct (h_pc s) eqn:Epc; cbn [is_free]; rewrite ?Epc; auto.
  - cbn. auto.
  - destruct (idle_q s); auto.
  - destruct (is_free _); auto.
  - destruct (idle_q s); auto.
Qed.
Lemma long_run : forall evs s, long_inv s -> Forall ev_ok evs -> long_inv (run evs s).
Proof.
  induction evs as [|ev evs IH]; intros s Hi Ho; cbn [hrun]; [assumption|].
  inversion Ho; subst. apply IH; auto. apply long_step; auto.
Qed.
Lemma long_lemma garbage p test evs : Forall ev_ok evs ->
  let s := run evs (hinit A garbage p test) in
  Forall long_enough (h_left s ++ pend_cmds (h_done s) (pend A (h_q s))).
Proof.
  intros H1. cbn zeta. rewrite <- (fifo_any garbage p test evs H1). apply long_run; [|assumption].
  split; constructor.
Qed.

(** ** planned position *)
Lemma planned_step s ev : inv A s -> no_setpos ev ->
  exists new, h_acc (step ev s) = h_acc s ++ new /\
    qe_pos (q_end (h_q (step ev s))) = i32 (qe_pos (q_end (h_q s)) + sumd new).
Proof.
  intros Hinv Hns.
  assert (Hr : forall x, x = qe_pos (q_end (h_q s)) -> x = i32 (qe_pos (q_end (h_q s)) + sumd [])).
  { intros x ->. cbn. rewrite Z.add_0_r. symmetry. apply i32_small. apply (iv_pos A s Hinv). }
  assert (Ht : exists new, h_acc s = h_acc s ++ new /\
    qe_pos (q_end (h_q s)) = i32 (qe_pos (q_end (h_q s)) + sumd new)).
  { exists []. rewrite app_nil_r. auto. }
  destruct ev; cbn [hstep].
  - destruct (h_pc s); auto.
    destruct (Z.eqb_spec (add_check A ready c (h_q s)) AQE_OK); cbn [h_acc h_q]; auto.
    exists []. rewrite app_nil_r. split; [reflexivity|]. apply Hr.
    unfold add_prepare. destruct (direct_dir (h_q s)); reflexivity.
  - pose proof (iv_prep A s Hinv) as Hp.
    destruct (h_pc s) as [|c ne st|]; auto. unfold add_commit.
    destruct (q_ignore (h_q s)); cbn [fst h_acc h_q]; auto.
    destruct ready; cbn [fst h_acc h_q]; auto.
    exists [c]. split; [reflexivity|]. destruct Hp as (_ & _ & -> & _).
    cbn [set_end q_end next_end qe_pos]. unfold next_pos. cbn [sumd map fold_right].
    unfold sdelta, sgn. destruct (c_up c); f_equal; lia.
  - destruct (h_pc s); auto. destruct (add_starts _ _); [|auto]. sh. rewrite E1, E2. auto.
  - destruct (_ && _); auto. sh. rewrite E1, E2. auto.
  - destruct (_ && _); auto.
  - destruct (_ && _); auto. sh. rewrite E1, E2. auto.
  - destruct (_ && _); auto. sh. rewrite E1, E2. auto.
  - destruct (_ && _); auto.
  - destruct (is_free _); auto.
  - auto.
  - destruct (idle_q s); auto.
  - contradiction.
  - destruct (idle_q s); auto.
Qed.
Lemma planned_run : forall evs s, inv A s -> Forall ev_ok evs -> Forall no_setpos evs ->
  exists new, h_acc (run evs s) = h_acc s ++ new /\
    qe_pos (q_end (h_q (run evs s))) = i32 (qe_pos (q_end (h_q s)) + sumd new).
Proof.
  induction evs as [|ev evs IH]; intros s Hi Ho Hn; cbn [hrun].
  - exists []. rewrite app_nil_r. cbn. rewrite Z.add_0_r. split; [reflexivity|].
    symmetry. apply i32_small. apply (iv_pos A s Hi).
  - inversion Ho; inversion Hn; subst.
    destruct (planned_step s ev Hi) as (n1 & K1 & K2); auto.
    destruct (IH (step ev s)) as (n2 & K3 & K4); auto. { apply inv_step; auto. }
    exists (n1 ++ n2). rewrite K3, K1, app_assoc. split; [reflexivity|].
    rewrite K4, K2, i32_add_i32, sumd_app. f_equal. lia.
Qed.

(** ** position before the oldest pending command *)
Lemma base_step s ev : no_setpos ev -> no_clear ev ->
  exists new, h_left (step ev s) = h_left s ++ new /\ h_base (step ev s) = h_base s + sumd new.
Proof.
  intros Hns Hnc.
  assert (Ht : exists new, h_left s = h_left s ++ new /\ h_base s = h_base s + sumd new).
  { exists []. rewrite app_nil_r. cbn. split; [reflexivity|lia]. }
  destruct ev; cbn [hstep]; auto.
  - destruct (h_pc s); auto. destruct (_ =? _); auto.
  - destruct (h_pc s); auto.
  - destruct (h_pc s); auto. destruct (add_starts _ _); [|auto]. sh. rewrite E3, E5. auto.
  - destruct (_ && _); auto. sh. rewrite E3, E5. auto.
  - destruct (_ && _); auto.
  - destruct (_ && _); auto. sh. rewrite E3, E5. cbn [h_left h_base].
    eexists. split; [reflexivity|]. cbn. lia.
  - destruct (_ && _); auto. sh. rewrite E3, E5. auto.
  - destruct (_ && _); auto.
  - contradiction.
  - destruct (idle_q s); auto.
  - contradiction.
  - destruct (idle_q s); auto.
Qed.
Lemma base_run : forall evs s, Forall no_setpos evs -> Forall no_clear evs ->
  exists new, h_left (run evs s) = h_left s ++ new /\ h_base (run evs s) = h_base s + sumd new.
Proof.
  induction evs as [|ev evs IH]; intros s H1 H2; cbn [hrun].
  - exists []. rewrite app_nil_r. cbn. split; [reflexivity|lia].
  - inversion H1; inversion H2; subst.
    destruct (base_step s ev) as (n1 & K1 & K2); auto.
    destruct (IH (step ev s)) as (n2 & K3 & K4); auto.
    exists (n1 ++ n2). rewrite K3, K1, app_assoc, sumd_app. split; [reflexivity|lia].
Qed.
Lemma clean_step s ev : no_setpos ev -> h_clean s = true -> h_clean (step ev s) = true.
Proof.
  intros Hns Hc. destruct ev; cbn [hstep]; auto.
  - destruct (h_pc s); auto. destruct (_ =? _); auto.
  - destruct (h_pc s); auto.
  - destruct (h_pc s); auto. destruct (add_starts _ _); [|auto]. sh. rewrite E8. auto.
  - destruct (_ && _); auto. sh. rewrite E8. auto.
  - destruct (_ && _); auto.
  - destruct (_ && _); auto. sh. rewrite E8. cbn. now rewrite Hc.
  - destruct (_ && _); auto. sh. rewrite E8. auto.
  - destruct (_ && _); auto.
  - destruct (is_free _); auto.
  - destruct (idle_q s); auto.
  - destruct (idle_q s); auto.
Qed.
Lemma clean_run : forall evs s, Forall no_setpos evs -> h_clean s = true -> h_clean (run evs s) = true.
Proof.
  induction evs as [|ev evs IH]; intros s H1 H2; cbn [hrun]; auto.
  inversion H1; subst. apply IH; auto. apply clean_step; auto.
Qed.
Lemma done_step s ev : inv A s -> no_dec ev -> h_done s = 0 -> h_done (step ev s) = 0.
Proof.
  intros Hi Hns Hc. destruct ev; cbn [hstep]; auto.
  - destruct (h_pc s); auto. destruct (_ =? _); auto.
  - destruct (h_pc s); auto.
  - destruct (h_pc s); auto. destruct (add_starts _ _); [|auto]. sh. rewrite E7. auto.
  - destruct (_ && _); auto. sh. rewrite E7. auto.
  - destruct Hns.
  - destruct (_ && _); auto. sh. rewrite E7. auto.
  - destruct (_ && _); auto. sh. rewrite E7. auto.
  - destruct (_ && _); auto.
  - destruct (is_free _); auto.
  - destruct (idle_q s); auto.
  - destruct (is_free _); auto.
  - destruct (idle_q s); auto.
Qed.
Lemma done_run : forall evs s, inv A s -> Forall ev_ok evs -> Forall no_dec evs -> h_done s = 0 ->
  h_done (run evs s) = 0.
Proof.
  induction evs as [|ev evs IH]; intros s Hi Ho H1 H2; cbn [hrun]; auto.
  inversion Ho; inversion H1; subst. apply IH; auto. { apply inv_step; auto. } apply done_step; auto.
Qed.

(** ** current position *)
Lemma u32_cong x y : i32 x = i32 y -> u32 x = u32 y.
Proof. intros H. rewrite <- (u32_i32 x), H. apply u32_i32. Qed.
Lemma u16_u32 x : u16 (u32 x) = u16 x.
Proof. unfold u16, u32. symmetry. apply Zmod_div_mod; try lia. exists 65536. reflexivity. Qed.
Lemma u16_cong x y : i32 x = i32 y -> u16 x = u16 y.
Proof. intros H. apply u32_cong in H. rewrite <- (u16_u32 x), H. apply u16_u32. Qed.
Lemma u32_range x : 0 <= u32 x < 4294967296.
Proof. unfold u32. apply Z.mod_pos_bound. lia. Qed.
Lemma u32_add_u32 a b : u32 (u32 a + b) = u32 (a + b).
Proof. unfold u32. apply Zplus_mod_idemp_l. Qed.

(** the end of the chain is not far away *)
Lemma chain_end : forall l pe base d, chain A pe base d l -> Forall ent_ok l ->
  (match l with [] => True | e :: _ => 0 <= d /\ d + e_steps e < 256 end) ->
  exists b, i32 b = pe /\ Z.abs (b - base) <= 255 * Z.of_nat (length l).
Proof.
  induction l as [|e l IH]; intros pe base d Hc Hf Hd; cbn [chain] in Hc.
  - exists base. cbn. split; [assumption|lia].
  - destruct Hc as [_ Hc]. pose proof (Forall_inv_tail Hf) as Hf2.
    pose proof (Forall_inv Hf) as [_ He].
    destruct (IH _ _ _ Hc Hf2) as (b & K1 & K2).
    { destruct l as [|x l']; auto. pose proof (Forall_inv Hf2) as [_ ?]. lia. }
    exists b. split; [assumption|]. cbn [length].
    assert (Z.abs (sgn (e_up e) (d + e_steps e)) <= 255) by (unfold sgn; destruct (e_up e); lia).
    lia.
Qed.
Lemma lift_close pe b x : i32 b = pe -> Z.abs (x - b) < 16384 ->
  lift16 (u32 pe) (u16 x) = u32 x.
Proof.
  intros Hb Hx. assert (Hu : u32 pe = u32 b) by (rewrite <- Hb; apply u32_i32).
  replace (u16 x) with (u16 (u32 pe + (x - b))).
  - rewrite lift16_spec; [|apply u32_range|lia]. rewrite Hu, u32_add_u32. f_equal. lia.
  - rewrite Hu, <- u16_u32, u32_add_u32, u16_u32. f_equal. lia.
Qed.

Lemma position_empty s done_p : inv A s -> pend A (h_q s) = [] ->
  getCurrentPosition A done_p (h_q s) = qe_pos (q_end (h_q s)).
Proof.
  intros Hi Hp. unfold getCurrentPosition.
  apply pend_nil in Hp. apply (empty_iff A _ (iv_wf A s Hi)) in Hp. rewrite Hp, Z.eqb_refl.
  rewrite i32_u32. apply i32_small. apply (iv_pos A s Hi).
Qed.
Lemma position_end s e t done_p : inv A s -> h_clean s = true -> END_POS A = true ->
  pend A (h_q s) = e :: t ->
  getCurrentPosition A done_p (h_q s) = i32 (h_base s + sgn (e_up e) (h_done s)).
Proof.
  intros Hi Hcl HE Hp. pose proof (iv_wf A s Hi) as Hw.
  assert (Hn : queueEntries (h_q s) <> 0) by (intros K; apply (pend_nil A) in K; congruence).
  pose proof (pend_pop A HA _ Hw Hn) as Hh. rewrite Hp in Hh. injection Hh as He Ht.
  unfold getCurrentPosition. rewrite HE, <- He.
  destruct (Z.eqb_spec (q_rd (h_q s)) (q_wr (h_q s))) as [K|_].
  { apply (empty_iff A _ Hw) in K. contradiction. }
  pose proof (iv_chain A s Hi Hcl) as Hc. rewrite Hp in Hc. cbn [chain] in Hc. rewrite HE in Hc.
  destruct Hc as [H16 Hc].
  pose proof (iv_ent A s Hi) as Hent. rewrite Hp in Hent.
  pose proof (Forall_inv_tail Hent) as Hent2. pose proof (Forall_inv Hent) as [_ Hes].
  destruct (chain_end _ _ _ _ Hc Hent2) as (b & K1 & K2).
  { destruct t as [|x l']; auto. pose proof (Forall_inv Hent2) as [_ ?]. lia. }
  assert (Hlen : Z.of_nat (length t) <= 31).
  { pose proof (pend_length A (h_q s)) as Hl. rewrite Hp in Hl. cbn [length] in Hl.
    destruct Hw as (_ & _ & Hw). pose proof (entries_range (h_q s)). destruct (ql_cases A HA); lia. }
  rewrite H16, (lift_close _ b); [|assumption|lia].
  destruct (Z.eqb_spec (e_steps e) 0) as [E0|E0].
  - rewrite Z.add_0_r. rewrite E0, Z.add_0_r. rewrite !i32_u32. reflexivity.
  - rewrite i32_u32. rewrite <- i32_u32, u32_add_u32, i32_u32. f_equal.
    unfold sgn. destruct (e_up e); lia.
Qed.
Lemma position_start s e t done_p : inv A s -> h_clean s = true -> END_POS A = false ->
  h_done s = 0 -> pend A (h_q s) = e :: t -> 0 <= done_p <= e_steps e ->
  getCurrentPosition A done_p (h_q s) = i32 (h_base s + sgn (e_up e) done_p).
Proof.
  intros Hi Hcl HE Hd Hp Hdp. pose proof (iv_wf A s Hi) as Hw.
  assert (Hn : queueEntries (h_q s) <> 0) by (intros K; apply (pend_nil A) in K; congruence).
  pose proof (pend_pop A HA _ Hw Hn) as Hh. rewrite Hp in Hh. injection Hh as He Ht.
  unfold getCurrentPosition. rewrite HE, <- He.
  destruct (Z.eqb_spec (q_rd (h_q s)) (q_wr (h_q s))) as [K|_].
  { apply (empty_iff A _ Hw) in K. contradiction. }
  pose proof (iv_chain A s Hi Hcl) as Hc. rewrite Hp in Hc.
  pose proof (iv_ent A s Hi) as Hent. rewrite Hp in Hent. pose proof (Forall_inv Hent) as [_ Hes].
  destruct (chain_end _ _ _ _ Hc Hent) as (b & K1 & K2). { lia. }
  cbn [chain] in Hc. rewrite HE in Hc. destruct Hc as [H16 Hc].
  assert (Hlen : Z.of_nat (length (e :: t)) <= 32).
  { pose proof (pend_length A (h_q s)) as Hl. rewrite Hp in Hl.
    destruct Hw as (_ & _ & Hw). pose proof (entries_range (h_q s)). destruct (ql_cases A HA); lia. }
  rewrite H16, (lift_close _ b); [|assumption|lia].
  assert (Hi16 : i16 done_p = done_p).
  { unfold i16. rewrite Z.mod_small; lia. }
  rewrite Hi16, i32_u32, <- i32_u32, u32_add_u32, i32_u32. f_equal. f_equal.
  unfold sgn. destruct (Z.eqb_spec (e_steps e) 0); destruct (e_up e); lia.
Qed.

(** from an empty queue at position [P]: everything that left the queue is counted *)
Lemma base_empty s : inv A s -> pend A (h_q s) = [] -> i32 (h_base s) = qe_pos (q_end (h_q s)).
Proof.
  intros Hi Hp. pose proof (iv_base A s Hi) as Hb. rewrite Hp in Hb. cbn in Hb. now rewrite Z.add_0_r in Hb.
Qed.
Lemma position_run_end garbage p test evs0 evs done_p : END_POS A = true ->
  Forall ev_ok evs0 -> Forall ev_ok evs -> Forall no_setpos evs -> Forall no_clear evs ->
  let s0 := run evs0 (hinit A garbage p test) in
  let s := run evs s0 in
  pend A (h_q s0) = [] ->
  exists performed, h_left s = h_left s0 ++ performed /\
    getCurrentPosition A done_p (h_q s) =
    i32 (qe_pos (q_end (h_q s0)) + sumd performed +
         match pend A (h_q s) with [] => 0 | e :: _ => sgn (e_up e) (h_done s) end).
Proof.
  intros HE H0 H1 H2 H3 s0 s Hp.
  assert (Hi0 : inv A s0) by (apply inv_run; auto; apply inv_init; auto).
  assert (Hi : inv A s) by (apply inv_run; auto).
  destruct (base_run evs s0 H2 H3) as (new & K1 & K2). exists new. split; [assumption|].
  assert (Hcl : h_clean s = true). { apply clean_run; auto. apply (iv_clean A s0 Hi0 Hp). }
  pose proof (base_empty s0 Hi0 Hp) as Hb.
  destruct (pend A (h_q s)) as [|e t] eqn:Ep.
  - rewrite position_empty by assumption. rewrite <- (base_empty s Hi Ep).
    change (h_base (run evs s0)) with (h_base s) in K2. rewrite K2.
    rewrite <- i32_add_i32, Hb. f_equal. lia.
  - rewrite (position_end s e t) by assumption.
    change (h_base (run evs s0)) with (h_base s) in K2. rewrite K2.
    rewrite <- Z.add_assoc, <- i32_add_i32, Hb. f_equal. lia.
Qed.
Lemma position_run_start garbage p test evs0 evs done_p : END_POS A = false ->
  Forall ev_ok evs0 -> Forall ev_ok evs -> Forall no_setpos evs -> Forall no_clear evs ->
  Forall no_dec evs0 -> Forall no_dec evs ->
  let s0 := run evs0 (hinit A garbage p test) in
  let s := run evs s0 in
  pend A (h_q s0) = [] ->
  match pend A (h_q s) with [] => done_p = 0 | e :: _ => 0 <= done_p <= e_steps e end ->
  exists performed, h_left s = h_left s0 ++ performed /\
    getCurrentPosition A done_p (h_q s) =
    i32 (qe_pos (q_end (h_q s0)) + sumd performed +
         match pend A (h_q s) with [] => 0 | e :: _ => sgn (e_up e) done_p end).
Proof.
  intros HE H0 H1 H2 H3 Hd0 Hd s0 s Hp Hdp.
  assert (Hi0 : inv A s0) by (apply inv_run; auto; apply inv_init; auto).
  assert (Hi : inv A s) by (apply inv_run; auto).
  destruct (base_run evs s0 H2 H3) as (new & K1 & K2). exists new. split; [assumption|].
  assert (Hcl : h_clean s = true). { apply clean_run; auto. apply (iv_clean A s0 Hi0 Hp). }
  assert (Hdone : h_done s = 0).
  { apply done_run; auto. apply done_run; auto. apply inv_init; auto. }
  pose proof (base_empty s0 Hi0 Hp) as Hb.
  destruct (pend A (h_q s)) as [|e t] eqn:Ep.
  - rewrite position_empty by assumption. rewrite <- (base_empty s Hi Ep).
    change (h_base (run evs s0)) with (h_base s) in K2. rewrite K2.
    rewrite <- i32_add_i32, Hb. f_equal. lia.
  - rewrite (position_start s e t) by assumption.
    change (h_base (run evs s0)) with (h_base s) in K2. rewrite K2.
    rewrite <- Z.add_assoc, <- i32_add_i32, Hb. f_equal. lia.
Qed.
End WithArch.

(** ** Reading after a position change *)
Section SetPos.
Variable A : arch.
Variable EXT : bool.
Hypothesis HA : In A all_archs.

Lemma set_position_empty s done_p p : inv A s -> pend A (h_q s) = [] ->
  -2147483648 <= p < 2147483648 ->
  getCurrentPosition A done_p (q_setCurrentPosition A done_p p (h_q s)) = p /\
  getCurrentPosition A done_p (q_setPositionAfter p (h_q s)) = p.
Proof.
  intros Hi Hp Hr. pose proof (position_empty A s done_p Hi Hp) as E.
  pose proof (iv_pos A s Hi) as Hpos.
  apply pend_nil in Hp. apply (empty_iff A _ (iv_wf A s Hi)) in Hp.
  assert (K : forall z, getCurrentPosition A done_p
     (set_end (mkQueueEnd z (qe_up (q_end (h_q s))) (qe_dir (q_end (h_q s)))) (h_q s)) = i32 z).
  { intros z. unfold getCurrentPosition. cbn [set_end q_end q_rd q_wr qe_pos].
    rewrite Hp, Z.eqb_refl, i32_u32. reflexivity. }
  unfold q_setCurrentPosition, q_setPositionAfter. rewrite !K, E.
  split; [|apply i32_small; lia].
  rewrite (Z.add_comm _ (i32 _)), i32_add_i32.
  replace (p - qe_pos (q_end (h_q s)) + qe_pos (q_end (h_q s))) with p by lia.
  now rewrite !i32_small by (rewrite ?i32_small; lia).
Qed.
(** the lowest 16 bits of the reading do not depend on the planned position *)
Lemma reading_low q z done_p : q_rd q <> q_wr q -> 0 <= e_pos16 (head A q) < 65536 ->
  (getCurrentPosition A done_p (set_end (mkQueueEnd z (qe_up (q_end q)) (qe_dir (q_end q))) q)
   - getCurrentPosition A done_p q) mod 65536 = 0.
Proof.
  intros Hn H16. unfold getCurrentPosition. cbn [set_end q_end q_rd q_wr qe_pos].
  destruct (Z.eqb_spec (q_rd q) (q_wr q)); [contradiction|].
  change (head A (set_end (mkQueueEnd z (qe_up (q_end q)) (qe_dir (q_end q))) q)) with (head A q).
  set (e := head A q) in *. set (adj := if e_steps e =? 0 then 0 else _).
  assert (L16 : forall x, 0 <= x < 4294967296 -> exists k, lift16 x (e_pos16 e) = 65536 * k + e_pos16 e).
  { intros x Hx. unfold lift16.
    match goal with |- context [Z.land ?y 4294901760] => assert (Hy : 0 <= y < 4294967296); [|set (w := y) in *] end.
    { destruct (_ || _ || _ || _); [apply u32_range|]. destruct (_ || _ || _ || _); [apply u32_range|]. lia. }
    exists (w / 65536). rewrite lift_lor by assumption. lia. }
  destruct (L16 (u32 z) (u32_range _)) as [k1 ->].
  destruct (L16 (u32 (qe_pos (q_end q))) (u32_range _)) as [k2 ->].
  clearbody adj e. rewrite !i32_u32.
  assert (I : forall x, exists k, i32 x = x + 4294967296 * k).
  { intros x. unfold i32. exists (- ((x + 2147483648) / 4294967296)).
    pose proof (Z.div_mod (x + 2147483648) 4294967296). lia. }
  destruct (I (65536 * k1 + e_pos16 e + adj)) as [k3 ->].
  destruct (I (65536 * k2 + e_pos16 e + adj)) as [k4 ->].
  apply Zdivide_mod. exists (k1 - k2 + 65536 * (k3 - k4)). lia.
Qed.
Lemma head_close s e t : inv A s -> h_clean s = true -> pend A (h_q s) = e :: t ->
  head A (h_q s) = e /\ q_rd (h_q s) <> q_wr (h_q s) /\
  exists x b, e_pos16 e = u16 x /\ i32 b = qe_pos (q_end (h_q s)) /\ Z.abs (x - b) < 16384.
Proof.
  intros Hi Hcl Hp. pose proof (iv_wf A s Hi) as Hw.
  assert (Hn : queueEntries (h_q s) <> 0) by (intros K; apply (pend_nil A) in K; congruence).
  pose proof (pend_pop A HA _ Hw Hn) as Hh. rewrite Hp in Hh. injection Hh as He Ht.
  split; [now symmetry|]. split. { intros K. apply (empty_iff A _ Hw) in K. contradiction. }
  pose proof (iv_chain A s Hi Hcl) as Hc. rewrite Hp in Hc.
  pose proof (iv_done A s Hi) as Hd. rewrite Hp in Hd. destruct Hd as (Hd1 & _ & Hd2).
  pose proof (iv_ent A s Hi) as Hent. rewrite Hp in Hent. pose proof (Forall_inv Hent) as [_ Hes].
  destruct (chain_end A _ _ _ _ Hc Hent) as (b & K1 & K2). { lia. }
  cbn [chain] in Hc. destruct Hc as [H16 _].
  assert (Hlen : Z.of_nat (length (e :: t)) <= 32).
  { pose proof (pend_length A (h_q s)) as Hl. rewrite Hp in Hl.
    destruct Hw as (_ & _ & Hw). pose proof (entries_range (h_q s)). destruct (ql_cases A HA); lia. }
  eexists _, b. split; [exact H16|]. split; [assumption|].
  assert (Z.abs (sgn (e_up e) (h_done s + e_steps e)) <= 255) by (unfold sgn; destruct (e_up e); lia).
  destruct (END_POS A); lia.
Qed.
Lemma set_position_iff s done_p p : inv A s -> h_clean s = true -> pend A (h_q s) <> [] ->
  -2147483648 <= p < 2147483648 ->
  (getCurrentPosition A done_p (q_setCurrentPosition A done_p p (h_q s)) = p <->
   (p - getCurrentPosition A done_p (h_q s)) mod 65536 = 0).
Proof.
  intros Hi Hcl Hne Hr. destruct (pend A (h_q s)) as [|e t] eqn:Hp; [contradiction|].
  destruct (head_close s e t Hi Hcl Hp) as (Hh & Hn & x & b & H16 & Hb & Hx).
  assert (R16 : 0 <= e_pos16 (head A (h_q s)) < 65536).
  { rewrite Hh, H16. unfold u16. apply Z.mod_pos_bound. lia. }
  split.
  - intros E. rewrite <- E. unfold q_setCurrentPosition. apply reading_low; assumption.
  - intros Hm. unfold q_setCurrentPosition.
    set (old := getCurrentPosition A done_p (h_q s)) in *.
    destruct (Z.mod_divide (p - old) 65536) as [[k Hk] _]; [lia|assumption|].
    assert (Ho : exists adj, old = i32 (u32 x + adj) /\
      forall z, getCurrentPosition A done_p
        (set_end (mkQueueEnd z (qe_up (q_end (h_q s))) (qe_dir (q_end (h_q s)))) (h_q s))
        = i32 (lift16 (u32 z) (e_pos16 e) + adj)).
    { eexists. split.
      - subst old. unfold getCurrentPosition. rewrite Hh.
        destruct (Z.eqb_spec (q_rd (h_q s)) (q_wr (h_q s))); [contradiction|].
        rewrite i32_u32, H16, (lift_close _ b) by assumption. reflexivity.
      - intros z. unfold getCurrentPosition. cbn [set_end q_end q_rd q_wr qe_pos].
        destruct (Z.eqb_spec (q_rd (h_q s)) (q_wr (h_q s))); [contradiction|].
        change (head A (set_end (mkQueueEnd z (qe_up (q_end (h_q s))) (qe_dir (q_end (h_q s)))) (h_q s)))
          with (head A (h_q s)). rewrite Hh, i32_u32. reflexivity. }
    destruct Ho as (adj & Ho1 & Ho2). rewrite Ho2.
    assert (E16 : e_pos16 e = u16 (x + 65536 * k)).
    { rewrite H16. unfold u16. rewrite (Z.mul_comm 65536 k), Z_mod_plus_full. reflexivity. }
    rewrite E16, (lift_close _ (b + 65536 * k)).
    + rewrite <- (i32_small p) by assumption.
      replace p with (old + 65536 * k) by lia. rewrite Ho1, i32_add_i32.
      rewrite <- (i32_u32 (u32 x + adj + _)), <- (i32_u32 (u32 (x + 65536 * k) + adj)).
      replace (u32 x + adj + 65536 * k) with (u32 x + (adj + 65536 * k)) by lia.
      rewrite !u32_add_u32. f_equal. f_equal. lia.
    + replace (p - old) with (65536 * k) by lia.
      rewrite (Z.add_comm (qe_pos _)), i32_add_i32, <- Hb, (Z.add_comm _ (i32 b)), i32_add_i32. reflexivity.
    + lia.
Qed.
(** commands with remaining time *)
Definition cmd_dur (c : command) : Z := c_ticks c * Z.max 1 (c_steps c).
Lemma sum_dur_cmds l : sum_dur l = fold_right Z.add 0 (map cmd_dur (map (cmd_of 0) l)).
Proof.
  induction l as [|e l IH]; cbn [sum_dur map fold_right]; [reflexivity|]. rewrite IH. reflexivity.
Qed.
Lemma ticks_lemma s : inv A s ->
  ticksInQueue A (h_q s) =
    fold_right Z.add 0 (map cmd_dur (tl (pend_cmds (h_done s) (pend A (h_q s))))) /\
  (forall t, 0 < t < 4294967296 -> hasTicksInQueue A t (h_q s) =
    (t <=? fold_right Z.add 0 (map cmd_dur (tl (pend_cmds (h_done s) (pend A (h_q s))))))).
Proof.
  intros Hi. split.
  - rewrite (ticksInQueue_spec A HA); [|apply (iv_wf A s Hi)|apply (iv_ent A s Hi)].
    destruct (pend A (h_q s)); cbn [pend_cmds tl]; [reflexivity|]. apply sum_dur_cmds.
  - intros t Ht. rewrite (hasTicksInQueue_spec A HA); [|apply (iv_wf A s Hi)|apply (iv_ent A s Hi)|exact Ht].
    destruct (pend A (h_q s)); cbn [pend_cmds tl].
    + symmetry. cbn. lia.
    + now rewrite sum_dur_cmds.
Qed.
(** reported speed *)
Lemma actual_lemma s : inv A s ->
  getActualTicksWithDirection A (h_q s) =
  match pend_cmds (h_done s) (pend A (h_q s)) with
  | [] => (true, Some 0, None)
  | c :: t => if c_steps c >? 0
              then ((c_steps c >? 1) || match t with [] => false | c2 :: _ => c_steps c2 >? 0 end,
                    Some (c_ticks c), Some (c_up c))
              else (false, None, None)
  end.
Proof.
  intros Hi. rewrite (getActual_spec A HA) by apply (iv_wf A s Hi).
  pose proof (iv_flags A s Hi) as Hf.
  destruct (pend A (h_q s)) as [|e t]; cbn [pend_cmds]; [reflexivity|].
  cbn [all_flags] in Hf. destruct Hf as [[Hf1 Hf2] Ht]. unfold cmd_of at 1 2 3 4. cbn [c_steps c_ticks c_up].
  rewrite Hf2, Hf1. destruct (h_done s + e_steps e >? 0); [|reflexivity].
  destruct t as [|e2 t]; cbn [map]; [reflexivity|]. destruct Ht as [[_ Ht] _].
  unfold cmd_of. cbn [c_steps]. now rewrite Ht.
Qed.
Lemma kept_lemma garbage p test evs0 evs new_pos :
  Forall ev_ok evs0 -> Forall ev_ok evs -> Forall no_setpos evs ->
  -2147483648 <= new_pos < 2147483648 ->
  let s0 := hstep A EXT (ESetPos new_pos) (hrun A EXT evs0 (hinit A garbage p test)) in
  let s := hrun A EXT evs s0 in
  h_pc (hrun A EXT evs0 (hinit A garbage p test)) = Free ->
  exists new, h_acc s = h_acc s0 ++ new /\ qe_pos (q_end (h_q s)) = i32 (new_pos + sumd new).
Proof.
  intros H0 H1 H2 Hn s0 s Hf.
  assert (I0 : inv A s0).
  { apply inv_step; [assumption| |exact Hn].
    apply inv_run; [assumption|apply inv_init; assumption|assumption]. }
  destruct (planned_run A EXT HA evs s0 I0 H1 H2) as (new & K1 & K2).
  exists new. split; [exact K1|]. unfold s. rewrite K2. unfold s0. cbn [hstep]. rewrite Hf. reflexivity.
Qed.
Lemma drain_lemma garbage p test evs0 evs new_pos done_p :
  Forall ev_ok evs0 -> Forall ev_ok evs -> Forall no_setpos evs ->
  -2147483648 <= new_pos < 2147483648 ->
  let s0 := hstep A EXT (ESetPos new_pos) (hrun A EXT evs0 (hinit A garbage p test)) in
  let s := hrun A EXT evs s0 in
  h_pc (hrun A EXT evs0 (hinit A garbage p test)) = Free ->
  pend A (h_q s) = [] ->
  exists new, h_acc s = h_acc s0 ++ new /\
    getCurrentPosition A done_p (h_q s) = i32 (new_pos + sumd new).
Proof.
  intros H0 H1 H2 Hn s0 s Hf Hp.
  destruct (kept_lemma garbage p test evs0 evs new_pos H0 H1 H2 Hn Hf) as (new & K1 & K2).
  exists new. split; [exact K1|].
  rewrite position_empty; [exact K2| |exact Hp].
  apply inv_run; auto. apply inv_step; auto. apply inv_run; auto. apply inv_init; auto.
Qed.
End SetPos.

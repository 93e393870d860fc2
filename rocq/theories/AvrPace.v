(** * AvrPace: six milliseconds are early enough for the background task of the AVR

    A full queue holds, behind the running command and before its last one, fourteen commands;
    at least thirteen of them are commands in a row of the ramp (RampWindow.v). So the deadline
    of AvrTime.v need not depend on the speed. *)
From Coq Require Import ZArith Bool List Lia ZifyBool.
From Verif Require Import Base RampCalc RampGen RampStep RampRun RampMove RampSafe RampAcc RampUser RampPlan RampDense RampWindow Queue QueueFacts QueuePos QueueHist QueueProp Stepper StepperHist FrontHist FrontProp FrontFill FrontTask FrontStart FrontMove FrontPause AccessSim AvrIsr AvrStack AvrTime.
Import ListNotations.
Open Scope Z_scope.
Ltac Zify.zify_post_hook ::= idtac.
Ltac splits := repeat match goal with |- _ /\ _ => split end.

(** ** Commands which left the queue do not come back *)
Section Grow.
Variable A : arch.
Variable EXT : bool.
Notation step := (hstep A EXT).
Notation X := (hacc A EXT).
Definition grows (h h' : hst) : Prop := exists new, h_left h' = h_left h ++ new.
Lemma grows_refl h : grows h h.
Proof. exists []. now rewrite app_nil_r. Qed.
Lemma grows_trans a b c : grows a b -> grows b c -> grows a c.
Proof. intros [n1 H1] [n2 H2]. exists (n1 ++ n2). now rewrite H2, H1, app_assoc. Qed.
Lemma grows_step ev h : no_setpos ev -> no_clear ev -> grows h (step ev h).
Proof. intros H1 H2. destruct (base_step A EXT h ev H1 H2) as (n & H & _). now exists n. Qed.
Lemma grows_isr l : forall h, grows h (isr A EXT l h).
Proof.
  unfold isr. induction l as [|ev l IH]; intros h; cbn [filter]; [apply grows_refl|].
  destruct (isr_ev ev) eqn:E; [|apply IH]. cbn [hrun]. eapply grows_trans; [|apply IH].
  destruct ev; try discriminate; apply grows_step; exact I.
Qed.
Notation tg := (fun t t' => grows (hq_h t) (hq_h t')).
Lemma grows_add c start t : tg t (fst (t_add hq X c start t)).
Proof.
  cbn [t_add hacc h_add fst hq_h]. eapply grows_trans; [|apply grows_isr]. unfold hcall.
  repeat (eapply grows_trans; [|apply grows_step; exact I]; eapply grows_trans; [|apply grows_isr]).
  apply grows_refl.
Qed.
Lemma grows_null start t : tg t (fst (t_null hq X start t)).
Proof. cbn [t_null hacc h_null fst hq_h]. eapply grows_trans; [|apply grows_isr]. eapply grows_trans; [apply grows_isr|apply grows_step; exact I]. Qed.
Lemma grows_pauses up : forall l t, tg t (add_pauses hq X up l t).
Proof.
  induction l as [|d l IH]; intros t; cbn [add_pauses]; [apply grows_refl|].
  eapply grows_trans; [apply grows_add|apply IH].
Qed.
Lemma grows_first ext busy c start s t : tg t (fst (add_first hq X ext busy c start s t)).
Proof.
  unfold add_first. cbv zeta.
  repeat match goal with |- context [if ?b then _ else _] => destruct b; try apply grows_refl end.
  eapply grows_trans; [|apply grows_null]. eapply grows_trans; [|apply grows_pauses]. apply grows_refl.
Qed.
Lemma grows_second c start s t : tg t (snd (fst (add_second A hq X c start s t))).
Proof.
  unfold add_second, add_last. cbv zeta.
  repeat match goal with |- context [if ?b then _ else _] => destruct b; try apply grows_refl end; cbn [fst snd];
  repeat first [apply grows_refl | apply grows_add | eapply grows_trans; [|apply grows_add]].
Qed.
Lemma grows_sadd ext busy c start s t : tg t (snd (fst (s_add A hq X ext busy c start s t))).
Proof.
  unfold s_add. cbv zeta. destruct (negb _); cbn [fst snd]; [apply grows_first|].
  eapply grows_trans; [apply grows_first|apply grows_second].
Qed.
Lemma grows_loop ext busy delayed : forall fuel old prepared need s t s' t' need',
  fill_loop A hq X ext busy delayed fuel old prepared need s t = Some (s', t', need') -> tg t t'.
Proof.
  induction fuel as [|n IH]; intros old prepared need s t s' t' need' E; cbn [fill_loop] in E.
  - injection E as _ <- _. apply grows_refl.
  - destruct (fill_more _ _ _ _); [|injection E as _ <- _; apply grows_refl].
    destruct (rg_getNextCommand _ _ _ _) as [[g nc]|]; [|discriminate]. cbv zeta in E.
    destruct (_ =? 0); [injection E as _ <- _; apply grows_refl|].
    pose proof (grows_sadd ext (busy n) (n_cmd nc) (negb delayed) (st_rg g s) t) as G.
    destruct (s_add _ _ _ _ _ _ _ _ _) as [[s1 t1] code]. cbn [fst snd] in G.
    destruct (code =? AQE_OK); [eapply grows_trans; [exact G|eapply IH; exact E]|].
    destruct (code >? 0); injection E as _ <- _; exact G.
Qed.
Lemma grows_fill ext busy fuel old s t s' t' : fill_queue A hq X ext busy fuel old s t = Some (s', t') -> tg t t'.
Proof.
  unfold fill_queue. destruct (negb _); [intros E; injection E as _ <-; apply grows_refl|].
  destruct (negb _); [intros E; injection E as _ <-; apply grows_refl|]. cbv zeta.
  destruct (fill_loop _ _ _ _ _ _ _ _ _ _ _ _) as [[[s1 t1] need]|] eqn:E; [|discriminate].
  intros K. injection K as _ <-. apply grows_loop in E.
  assert (G : tg t t1) by (eapply grows_trans; [|exact E]; apply grows_step; exact I).
  destruct need; [|exact G]. eapply grows_trans; [exact G|apply grows_null].
Qed.
Lemma grows_run : forall l x y, trun A EXT l x = Some y -> tg (snd x) (snd y).
Proof.
  induction l as [|e l IH]; intros x y E; cbn [trun] in E; [injection E as ->; apply grows_refl|].
  destruct (tstep A EXT e x) as [z|] eqn:Ez; [|discriminate]. eapply grows_trans; [|eapply IH; exact E]. clear - Ez.
  destruct x as [s t]. destruct e; cbn [tstep snd] in *.
  - destruct z. eapply grows_trans; [|eapply grows_fill; exact Ez]. apply grows_refl.
  - injection Ez as <-. apply grows_isr.
  - injection Ez as <-. apply grows_refl.
Qed.
End Grow.

(** ** One direction pause *)
Lemma turn_once A : forall k g p u cs up, plan A k g p u cs -> Forall (moves_only up) cs ->
  exists a b, cs = a ++ b /\ Forall (fun c => c_up c = u) a /\ Forall (fun c => c_up c = up) b.
Proof.
  intros k g p u cs up H. revert up. induction H as [|k g p u cs g1 n old Ha Hn H0 H IH|k g p u c cs g1 n Ha Hn Hn2 Hc H0 H IH]; intros up HF.
  - exists [], []. splits; auto.
  - apply IH. exact HF.
  - inversion HF as [|? ? H1 H2]; subst. destruct (Z.eq_dec (c_steps (n_cmd n)) 0) as [E|E].
    + assert (E2 : c_up (n_cmd n) = u).
      { specialize (Hn2 n true u (or_introl eq_refl)). revert Hn2. unfold rg_getNextCommand.
        cbv zeta. destruct (ro_force_immediate _).
        { intros K. injection K as _ K. exfalso. apply H0. rewrite <- K. reflexivity. }
        destruct (getNextCommand_ A _ _ _ _) as [n0|] eqn:EG; [|discriminate].
        intros K. injection K as _ ->. apply (gnc_pause_up A _ _ _ _ _ EG H0 E). }
      destruct (IH up H2) as (a & b & -> & F1 & F2). exists (n_cmd n :: a), b. rewrite E2 in F1. splits; auto.
    + specialize (H1 E). exists [], (n_cmd n :: cs). splits; auto. constructor; [exact H1|].
      eapply plan_up; [exact H|exact H1|]. exact H2.
Qed.
Lemma pauses_same dd : forall cs u, Forall (fun c => c_up c = u) cs -> with_pauses dd u cs = cs.
Proof.
  induction cs as [|c cs IH]; intros u H; [reflexivity|]. inversion H; subst. rewrite with_same, IH by assumption. reflexivity.
Qed.
Lemma pauses_app dd u : forall a b, Forall (fun c => c_up c = u) a -> with_pauses dd u (a ++ b) = a ++ with_pauses dd u b.
Proof.
  induction a as [|c a IH]; intros b H; [reflexivity|]. inversion H as [|? ? H1 H2]; subst. cbn [app].
  rewrite with_same. f_equal. apply IH. exact H2.
Qed.
Lemma pauses_one dd u up b : Forall (fun c => c_up c = up) b -> 
  with_pauses dd u b = b \/ exists p, with_pauses dd u b = p :: b /\ b <> [] /\ cdur p = dd.
Proof.
  intros H. destruct b as [|c b]; [now left|]. inversion H as [|? ? H1 H2]; subst. cbn [with_pauses].
  rewrite (pauses_same dd b (c_up c) H2).
  destruct (Bool.eqb _ _); [now left|]. destruct (dd =? 0); [now left|]. destruct (c_steps c =? 0); [now left|].
  right. eexists. cbn [app]. split; [reflexivity|]. split; [discriminate|]. unfold cdur. cbn [c_ticks c_steps]. lia.
Qed.

(** ** Thirteen commands in the queue *)
Lemma window_in cs W z mid y : (exists a b, cs = a ++ b /\ (W = a ++ b \/ exists p, W = a ++ p :: b /\ b <> [] /\ 0 <= cdur p)) ->
  W = z ++ mid ++ y -> y <> [] -> (14 <= length mid)%nat ->
  exists l0 v r, cs = l0 ++ v ++ r /\ r <> [] /\ (13 <= length v)%nat /\ dsum v <= dsum mid.
Proof.
  intros (a & b & -> & HW) E Hy L.
  destruct HW as [HW|(p & HW & Hb & Hp)].
  - exists z, mid, y. splits; auto; [congruence|lia|lia].
  - rewrite HW in E. apply app_eq_app in E as (l & [[-> E]|[-> E]]).
    + apply app_eq_app in E as (l2 & [[-> E]|[-> ->]]).
      * destruct l2 as [|q l2].
        -- cbn [app] in E. exists z, l, b. rewrite !app_nil_r in *. rewrite <- app_assoc. splits; auto; lia.
        -- cbn [app] in E. injection E as <- ->. exists z, (l ++ l2), y. rewrite <- !app_assoc. splits; auto.
           ++ rewrite app_length in *. cbn [length] in L. lia.
           ++ rewrite !dsum_app. cbn [dsum]. lia.
      * exists z, mid, (l2 ++ b). rewrite <- !app_assoc. splits; auto; [|lia|lia]. destruct l2; [exact Hb|discriminate].
    + destruct l as [|q l].
      * cbn [app] in E. destruct mid as [|q mid]; [cbn in L; lia|]. cbn [app] in E. injection E as <- ->.
        exists a, mid, y. splits; auto; [cbn [length] in L; lia|cbn [dsum]; lia].
      * cbn [app] in E. injection E as <- ->. exists (a ++ l), mid, y. rewrite <- !app_assoc. splits; auto; lia.
Qed.

Section WithExt.
Variable EXT : bool.
Notation X := (hacc A EXT).
Lemma dsum_lsum cs : dsum cs = lsum cs.
Proof. induction cs as [|c cs IH]; cbn [dsum lsum]; [reflexivity|]. rewrite IH. reflexivity. Qed.
Lemma rest_nil q : rest q = [] -> pend A q = [].
Proof. unfold rest. destruct (pend A q); [reflexivity|discriminate]. Qed.

Lemma full_96000 k cs s1 th mm up : good A th -> pend A (tqueue th) = [] -> 0 <= mm -> 0 <= s_dirdelay s1 ->
  plan A k (s_rg s1) (pos_of th) (up_of th) cs -> Forall (moves_only up) cs ->
  exact_carries A EXT cs (s1, th) -> (exists s b, walk s b cs /\ 0 <= s <= 5360000) ->
  full_lasts EXT mm 96000 s1 th.
Proof.
  intros Hg Hp Hmm Hdd Hplan Hm Hx (sl & bb & Hw & Hsl) l s th' T Ha Hg' Hl K.
  destruct (Hx l) as (y & w & r & T' & Hacc & HW & _). rewrite T in T'. injection T' as <-. cbn [fst snd] in *.
  destruct (grows_run A EXT _ _ _ T) as (new & Gr). cbn [snd] in Gr.
  pose proof (iv_fifo A _ (proj1 Hg)) as F1. unfold tqueue in Hp. rewrite Hp in F1. cbn [pend_cmds] in F1. rewrite app_nil_r in F1.
  pose proof (iv_fifo A _ (proj1 Hg')) as F2. unfold acc_of in Hacc.
  rewrite Hacc, Gr, F1, <- app_assoc in F2. apply app_inv_head in F2.
  assert (Len : length (rest (tqueue th')) = 16%nat).
  { unfold rest. rewrite map_length, (pend_length A). unfold isQueueFull in K. apply Z.eqb_eq in K. rewrite K. reflexivity. }
  unfold rest, tqueue in *. destruct (pend A (h_q (hq_h th'))) as [|e es] eqn:Ep; [discriminate|].
  cbn [map] in *. cbn [pend_cmds] in F2. set (tail := map (cmd_of 0) es) in *.
  inversion Hl as [|? ? Hl1 Hl2]; subst.
  assert (Ht : tail <> []) by (intros E; rewrite E in Len; discriminate).
  destruct (exists_last Ht) as (mid & lc & Et). rewrite Et in *.
  cbn [length] in Len. rewrite app_length in Len. cbn [length] in Len.
  assert (SH : exists a b, cs = a ++ b /\ (with_pauses (s_dirdelay s1) (up_of th) cs = a ++ b \/
     exists p, with_pauses (s_dirdelay s1) (up_of th) cs = a ++ p :: b /\ b <> [] /\ 0 <= cdur p)).
  { destruct (turn_once A _ _ _ _ _ _ Hplan Hm) as (a & b & -> & Fa & Fb). exists a, b. split; [reflexivity|].
    rewrite (pauses_app _ _ _ _ Fa). destruct (pauses_one (s_dirdelay s1) (up_of th) up b Fb) as [->|(p & -> & Hb & Hd)]; [now left|].
    right. exists p. splits; auto. lia. }
  destruct (window_in cs _ (new ++ [cmd_of (h_done (hq_h th')) e]) mid (lc :: r) SH) as (l0 & v & r' & E & Hr & Lv & Dv); [|discriminate|lia|].
  { rewrite HW. rewrite <- !app_assoc. cbn [app]. now rewrite <- app_assoc. }
  pose proof (walk_any _ _ _ Hw Hsl l0 v r' E Hr Lv) as W. rewrite <- dsum_lsum in W.
  apply Forall_app in Hl2 as [_ Hl2]. inversion Hl2; subst.
  change (cmd_of 0 e :: mid ++ [lc]) with ((cmd_of 0 e :: mid) ++ [lc]). unfold last_ticks. rewrite last_snoc, dsum_app. cbn [dsum].
  assert (c_ticks lc <= cdur lc) by (apply dur_ge; lia).
  assert (0 <= cdur (cmd_of 0 e)) by (apply dur_ge; lia). lia.
Qed.
(** ** moveTo and move *)
Lemma moveTo_paced garbage p ep m s0 evs a M mm pos : conf_ok s0 -> Forall fev_ok evs -> -2147483648 <= pos < 2147483648 ->
  let x := frun A EXT evs (dinit EXT garbage p ep m s0) in
  let q := fqueue x in
  let d := i32 (pos - qe_pos (q_end q)) in
  let PL := s_plan (fst x) in
  AvrIsr.plain EXT q -> q_running q = false -> pend A q = [] -> ready_to_move A (fst x) q a M d ->
  conf24 A (fst x) -> pconf mm (fst x) -> 0 <= mm <= Z.min M 32767 -> 161535 <= PL <= 2147483648 ->
  fed (fst x) -> is_external (s_dirpin (fst x)) = false -> s_h (rg_params (s_rg (fst x))) = 0 \/ 1280 <= M ->
  exists s1 cs, s_moveTo pos (fst x) q = (s1, MOVE_OK) /\ total_steps cs = Z.abs d /\
  let W := with_pauses (s_dirdelay (fst x)) (qe_up (q_end q)) cs in
  forall t tasks xe, punctual 96000 t None (tasks ++ [WServe xe]) -> Forall (able mm PL (fst x)) tasks ->
  exists y, wtrun EXT (tasks ++ [WServe xe]) (s1, v_begin t (snd x)) = Some y /\ vq_ok (snd y) = true /\
  let v := vq_v (snd y) in let log := vq_log (snd y) in
  let all := isRampGeneratorActive (s_rg (fst y)) = false /\ v_irq v = false /\ pend A (v_q v) = [] in
  exact_train (dir_of q) t (first_end tasks) W log all
  /\ (forall f1 tl, first_end tasks = Some f1 -> last_begin None tasks = Some tl -> xe < tl + 96000 ->
      end_time (f1 + 10) W <= xe -> all /\ Z.of_nat (length log) = Z.abs d /\ forall done_p, getCurrentPosition A done_p (v_q v) = pos).
Proof.
  intros Hc He Hpos x q d PL Hpl Hr Hp Hrd H24 Hpc Hmm HPL Hfed Hex Hge.
  destruct (dinit_good EXT garbage p ep m s0 evs Hc He) as [Hg _]. fold x in Hg.
  destruct (moveTo_planned A EXT HA _ _ a M Hg pos Hpos Hrd) as (s1 & cs & n & H1 & H2 & H3 & H4 & H5 & (H6 & H7 & H8) & H9 & _).
  exists s1, cs. split; [exact H1|]. split; [exact H2|]. intros W t tasks xe Hpu Hab.
  pose proof (rm_M _ _ _ _ _ _ Hrd) as RM. change (MIN_CMD_TICKS A) with 640 in RM.
  change (fqueue x) with (tqueue (snd x)) in *.
  assert (LK : like (fst x) s1 /\ s_plan s1 = PL).
  { unfold s_moveTo in H1. destruct (rg_moveTo _ _ _) as [g1 r] eqn:E. injection H1 as <- _. split; [|reflexivity].
    apply like_rg. exact (moveTo_valid _ _ _ _ _ E). }
  destruct LK as [LK EP].
  assert (XC : exact_carries A EXT cs (s1, snd x)).
  { destruct (moveTo_keeps _ _ _ _ _ H1) as (g1 & Eg). eapply (inv_exact A EXT HA); [exact H6| |]; cbn [fst]; rewrite Eg; assumption. }
  pose proof (exact_stack EXT cs pos M s1 (snd x) t n mm 96000 (0 <? d) Hg Hpl Hr Hp ltac:(lia) H3 H4 H5 H9 XC H6 H7) as K.
  rewrite H2, EP in K. unfold W, q. rewrite <- (lk_dirdelay _ _ LK). change (qe_up (q_end (tqueue (snd x)))) with (up_of (snd x)).
  apply K; auto; try lia.
  - eapply Forall_impl; [|exact H8]. intros c. unfold at_least. lia.
  - eapply conf24_like; eassumption.
  - eapply pconf_like; eassumption.
  - rewrite (lk_valid _ _ LK). apply (rm_conf _ _ _ _ _ _ Hrd).
  - eapply (full_96000 n cs s1 (snd x) mm (0 <? _)); try eassumption; [lia| |apply H6|].
    { rewrite (lk_dirdelay _ _ LK). destruct H24 as ((C1 & _) & _). unfold conf_ok in *. lia. }
    unfold s_moveTo in H1. destruct (rg_moveTo _ _ _) as [g1 rr] eqn:EM. injection H1 as <- ->.
    destruct Hrd. eapply (moveTo_walk A HA (s_rg (fst x)) (q_end (tqueue (snd x))) a M pos g1 n cs); try eassumption; [apply (pos_range A); exact Hg| |apply H6].
    unfold gentle. change (MIN_CMD_TICKS A) with 640. destruct rm_conf as (_ & _ & RC & _). destruct Hge; [left|right; rewrite RC]; lia.
  - eapply Forall_impl; [|exact Hab]. intros e. destruct e; cbn [able]; auto. intros [L1 L2]. split; [|exact L2]. eapply enables_like; eassumption.
Qed.
Lemma move_paced garbage p ep m s0 evs a M mm delta : conf_ok s0 -> Forall fev_ok evs ->
  -2147483648 <= delta < 2147483648 -> delta <> 0 ->
  let x := frun A EXT evs (dinit EXT garbage p ep m s0) in
  let q := fqueue x in
  let g := s_rg (fst x) in
  let target := i32 (base_target g (q_end q) + pending_move g + delta) in
  let d := i32 (target - qe_pos (q_end q)) in
  let PL := s_plan (fst x) in
  AvrIsr.plain EXT q -> q_running q = false -> pend A q = [] -> ready_to_move A (fst x) q a M d ->
  (s_dirpin (fst x) = PIN_UNDEFINED -> 0 <= delta) ->
  conf24 A (fst x) -> pconf mm (fst x) -> 0 <= mm <= Z.min M 32767 -> 161535 <= PL <= 2147483648 ->
  fed (fst x) -> is_external (s_dirpin (fst x)) = false -> s_h (rg_params (s_rg (fst x))) = 0 \/ 1280 <= M ->
  exists s1 cs, s_move delta (fst x) = (s1, MOVE_OK) /\ total_steps cs = Z.abs d /\
  let W := with_pauses (s_dirdelay (fst x)) (qe_up (q_end q)) cs in
  forall t tasks xe, punctual 96000 t None (tasks ++ [WServe xe]) -> Forall (able mm PL (fst x)) tasks ->
  exists y, wtrun EXT (tasks ++ [WServe xe]) (s1, v_begin t (snd x)) = Some y /\ vq_ok (snd y) = true /\
  let v := vq_v (snd y) in let log := vq_log (snd y) in
  let all := isRampGeneratorActive (s_rg (fst y)) = false /\ v_irq v = false /\ pend A (v_q v) = [] in
  exact_train (dir_of q) t (first_end tasks) W log all
  /\ (forall f1 tl, first_end tasks = Some f1 -> last_begin None tasks = Some tl -> xe < tl + 96000 ->
      end_time (f1 + 10) W <= xe -> all /\ Z.of_nat (length log) = Z.abs d /\ forall done_p, getCurrentPosition A done_p (v_q v) = target).
Proof.
  intros Hc He Hpos Hz x q g target d PL Hpl Hr Hp Hrd Hdp H24 Hpc Hmm HPL Hfed Hex Hge.
  destruct (dinit_good EXT garbage p ep m s0 evs Hc He) as [Hg _]. fold x in Hg.
  destruct (move_planned A EXT HA _ _ a M Hg delta Hpos Hz Hrd Hdp) as (s1 & cs & n & H1 & H2 & H3 & H4 & H5 & (H6 & H7 & H8) & H9 & _).
  exists s1, cs. split; [exact H1|]. split; [exact H2|]. intros W t tasks xe Hpu Hab.
  pose proof (rm_M _ _ _ _ _ _ Hrd) as RM. change (MIN_CMD_TICKS A) with 640 in RM.
  change (fqueue x) with (tqueue (snd x)) in *.
  assert (LK : like (fst x) s1 /\ s_plan s1 = PL).
  { unfold s_move in H1. destruct (_ && _); [discriminate|]. destruct (rg_move _ _) as [g1 r] eqn:E. injection H1 as <- _. split; [|reflexivity].
    apply like_rg. exact (move_valid _ _ _ _ E). }
  destruct LK as [LK EP].
  assert (XC : exact_carries A EXT cs (s1, snd x)).
  { destruct (move_keeps _ _ _ _ H1) as (g1 & Eg). eapply (inv_exact A EXT HA); [exact H6| |]; cbn [fst]; rewrite Eg; assumption. }
  pose proof (exact_stack EXT cs target M s1 (snd x) t n mm 96000 (0 <? d) Hg Hpl Hr Hp ltac:(lia) H3 H4 H5 H9 XC H6 H7) as K.
  unfold W, d, target, g, q in *. rewrite H2, EP in K. rewrite <- (lk_dirdelay _ _ LK).
  change (qe_up (q_end (tqueue (snd x)))) with (up_of (snd x)). apply K; auto; try lia.
  - eapply Forall_impl; [|exact H8]. intros c. unfold at_least. lia.
  - eapply conf24_like; eassumption.
  - eapply pconf_like; eassumption.
  - rewrite (lk_valid _ _ LK). apply (rm_conf _ _ _ _ _ _ Hrd).
  - eapply (full_96000 n cs s1 (snd x) mm (0 <? _)); try eassumption; [lia| |apply H6|].
    { rewrite (lk_dirdelay _ _ LK). destruct H24 as ((C1 & _) & _). unfold conf_ok in *. lia. }
    unfold s_move in H1. destruct (_ && _); [discriminate|]. destruct (rg_move _ _) as [g1 rr] eqn:EM. injection H1 as <- ->.
    destruct Hrd. eapply (move_walk A HA (s_rg (fst x)) (q_end (tqueue (snd x))) a M delta g1 n cs); try eassumption; [apply (pos_range A); exact Hg| |apply H6].
    unfold gentle. change (MIN_CMD_TICKS A) with 640. destruct rm_conf as (_ & _ & RC & _). destruct Hge; [left|right; rewrite RC]; lia.
  - eapply Forall_impl; [|exact Hab]. intros e. destruct e; cbn [able]; auto. intros [L1 L2]. split; [|exact L2]. eapply enables_like; eassumption.
Qed.
End WithExt.

(** ** Thirteen commands of a move, any device *)
Section History.
Variable A : arch.
Variable EXT : bool.
Hypothesis HA : In A all_archs.
(** every thirteen commands in a row, without the last one of the move *)
Definition paced (cs : list command) : Prop :=
  forall l0 w r, cs = l0 ++ w ++ r -> r <> [] -> (13 <= length w)%nat -> 98301 <= dsum w.
Lemma walk_paced cs : (exists s b, walk s b cs /\ 0 <= s <= 5360000) -> paced cs.
Proof. intros (s & b & H & Hs) l0 w r E Hr L. rewrite dsum_lsum. exact (walk_any _ _ _ H Hs l0 w r E Hr L). Qed.
Lemma moveTo_paces garbage p ep m s0 evs a M pos : conf_ok s0 -> Forall fev_ok evs -> -2147483648 <= pos < 2147483648 ->
  let x := frun A EXT evs (finit A garbage p ep m s0) in
  let d := i32 (pos - qe_pos (q_end (fqueue x))) in
  ready_to_move A (fst x) (fqueue x) a M d ->
  MIN_CMD_TICKS A = 640 /\ s_h (rg_params (s_rg (fst x))) = 0 \/ 2 * MIN_CMD_TICKS A <= M ->
  exists s1 cs, s_moveTo pos (fst x) (fqueue x) = (s1, MOVE_OK)
    /\ total_steps cs = Z.abs d /\ carries A EXT (0 <? d) cs pos (s1, snd x) /\ paced cs.
Proof.
  intros Hc He Hp x d Hr Hge. pose proof (proj1 (history_good A EXT HA garbage p ep m s0 evs Hc He)) as Hg. fold x in Hg.
  destruct (moveTo_planned A EXT HA _ _ a M Hg pos Hp Hr) as (s1 & cs & n & H1 & H2 & H3 & H4 & H5 & (H6 & _) & H7 & _).
  exists s1, cs. splits; auto. apply walk_paced. change (fqueue x) with (tqueue (snd x)) in *.
  unfold s_moveTo in H1. destruct (rg_moveTo _ _ _) as [g1 rr] eqn:EM. injection H1 as <- ->.
  destruct Hr. eapply (moveTo_walk A HA (s_rg (fst x)) (q_end (tqueue (snd x))) a M pos g1 n cs); try eassumption; [apply (pos_range A); exact Hg| |apply H6].
  unfold gentle. destruct rm_conf as (_ & _ & RC & _). rewrite RC. exact Hge.
Qed.
Lemma move_paces garbage p ep m s0 evs a M delta : conf_ok s0 -> Forall fev_ok evs ->
  -2147483648 <= delta < 2147483648 -> delta <> 0 ->
  let x := frun A EXT evs (finit A garbage p ep m s0) in
  let g := s_rg (fst x) in
  let target := i32 (base_target g (q_end (fqueue x)) + pending_move g + delta) in
  let d := i32 (target - qe_pos (q_end (fqueue x))) in
  ready_to_move A (fst x) (fqueue x) a M d -> (s_dirpin (fst x) = PIN_UNDEFINED -> 0 <= delta) ->
  MIN_CMD_TICKS A = 640 /\ s_h (rg_params (s_rg (fst x))) = 0 \/ 2 * MIN_CMD_TICKS A <= M ->
  exists s1 cs, s_move delta (fst x) = (s1, MOVE_OK)
    /\ total_steps cs = Z.abs d /\ carries A EXT (0 <? d) cs target (s1, snd x) /\ paced cs.
Proof.
  intros Hc He Hp H0 x g target d Hr Hd Hge. pose proof (proj1 (history_good A EXT HA garbage p ep m s0 evs Hc He)) as Hg. fold x in Hg.
  destruct (move_planned A EXT HA _ _ a M Hg delta Hp H0 Hr Hd) as (s1 & cs & n & H1 & H2 & H3 & H4 & H5 & (H6 & _) & H7 & _).
  exists s1, cs. splits; auto. apply walk_paced. unfold target, d, g in *. change (fqueue x) with (tqueue (snd x)) in *.
  unfold s_move in H1. destruct (_ && _); [discriminate|]. destruct (rg_move _ _) as [g1 rr] eqn:EM. injection H1 as <- ->.
  destruct Hr. eapply (move_walk A HA (s_rg (fst x)) (q_end (tqueue (snd x))) a M delta g1 n cs); try eassumption; [apply (pos_range A); exact Hg| |apply H6].
  unfold gentle. destruct rm_conf as (_ & _ & RC & _). rewrite RC. exact Hge.
Qed.
End History.
